(* What keys should do. *)
From Verif Require Import Base WireModel MerkleModel TextModel TextSpec SecpModel.
Local Open Scope N_scope.

Definition is_point (p : N) : Prop := 0 < p < secp_order.
(* encodings of points: compressed ones are unique; of the others there is one that [ser] gives, and the
   library also reads hybrid ones *)
Definition encodings (parse : bytes -> option N) (ser : bool -> N -> bytes) : Prop :=
  (forall c p, is_point p -> parse (ser c p) = Some p) /\
  (forall p, is_point p -> length (ser true p) = 33%nat /\ length (ser false p) = 65%nat) /\
  (forall k p, parse k = Some p -> is_point p /\ (length k = 33%nat \/ length k = 65%nat)) /\
  (forall k p, parse k = Some p -> length k = 33%nat -> k = ser true p).
(* 32 bytes that the library takes as a secret *)
Definition is_secret (s : bytes) : Prop := length s = 32%nat /\ is_point (be_val s).
(* the sum and the product of two secrets and the opposite of one, as numbers *)
Definition sum_of (a b : bytes) : N := (be_val a + be_val b) mod secp_order.
Definition product_of (a b : bytes) : N := (be_val a * be_val b) mod secp_order.
Definition opposite_of (a : bytes) : N := secp_order - be_val a.
(* the public key of a secret *)
Definition public_of (ser : bool -> N -> bytes) (c : bool) (s : bytes) : bytes := ser c (be_val s).
(* the form in which keys are compared: compressed keys are expanded, everything else is left as it is *)
Definition compared (parse : bytes -> option N) (ser : bool -> N -> bytes) (k : bytes) : bytes :=
  match parse k with Some p => if (length k =? 33)%nat then ser false p else k | None => k end.
(* readings that bitcoind_entropy can serve: empty ones, and after those one of at most 32 bytes *)
Definition servable (sizes : list N) : Prop := sizes = [] \/ exists k s, sizes = repeat 0 k ++ [s] /\ s <= 32.
