(* Sample data for the work examples. *)
From Verif Require Import Base BaseProofs WireModel WireSpec MerkleModel MerkleSpec MerkleExamples WorkModel WorkSpec.
Local Open Scope N_scope.

(* the target of the first block, and a number with thirteen digits *)
Definition ex_compact : N := 0x1d00ffff.
Definition ex_number : N := 0xabcdef0123456789abcdef0123.

Definition ex_candidate (target : N) : candidate :=
  {| ca_category := 0x20000002; ca_digest := ex_digest 9; ca_target := target; ca_path := mkpath 1 [Some (ex_digest 4); None; Some (ex_digest 5)] |}.
Definition ex_puzzle (target : N) : puzzle :=
  {| pz_candidate := ex_candidate target; pz_header := [x01; x02]; pz_body := [x03; x04; x05]; pz_mask := boost_mask |}.
Definition ex_solution (nonce : N) (extra2 : bytes) : solution :=
  {| so_share := {| sh_timestamp := 1600000000; sh_nonce := nonce; sh_extra2 := extra2; sh_bits := Some 0x12345678%Z |}; so_extra1 := 77 |}.
Definition ex_wproof (target nonce : N) (extra2 : bytes) : wproof := {| wp_puzzle := ex_puzzle target; wp_solution := ex_solution nonce extra2 |}.
(* no path *)
Definition ex_plain (target nonce : N) : wproof :=
  {| wp_puzzle := {| pz_candidate := {| ca_category := 0x20000002; ca_digest := ex_digest 9; ca_target := target; ca_path := mkpath 0 [] |};
                     pz_header := [x01; x02]; pz_body := [x03; x04; x05]; pz_mask := -1 |};
     wp_solution := ex_solution nonce [x06; x07] |}.
(* a hash that is never small *)
Definition ex_high (m : bytes) : bytes := repeat xff 32.
