(* What Stratum messages say, independently of the functions that read and write them. *)
From Coq Require Import String.
From Verif Require Import Base TextModel WireModel WireSpec MerkleModel WorkModel JsonModel StratumModel.
Local Open Scope N_scope.

(* the methods that have a name *)
Definition named : list (method * bytes) :=
  [(mining_authorize, text "mining.authorize"); (mining_configure, text "mining.configure"); (mining_subscribe, text "mining.subscribe");
   (mining_notify, text "mining.notify"); (mining_submit, text "mining.submit"); (mining_set_difficulty, text "mining.set_difficulty");
   (mining_set_version_mask, text "mining.set_version_mask"); (mining_set_extranonce, text "mining.set_extranonce");
   (client_get_version, text "client.get_version"); (client_show_message, text "client.show_message")].
Definition has_name (m : method) : Prop := In m (map fst named).

(* an identifier is a number or a string *)
Definition identifier (j : json) : Prop := (exists n, j = JUint n) \/ (exists s, j = JString s).
Definition member (k : string) (j v : json) : Prop := j_get (text k) j = Some v.

(* the three kinds of message *)
Definition is_request (j id : json) (m : method) (p : list json) : Prop :=
  member "id" j id /\ identifier id /\ (exists n, In (m, n) named /\ member "method" j (JString n)) /\ member "params" j (JArray p).
Definition is_notification (j : json) (m : method) (p : list json) : Prop :=
  member "id" j JNull /\ (exists n, In (m, n) named /\ member "method" j (JString n)) /\ member "params" j (JArray p).
Definition is_response (j id result : json) (e : option error) : Prop :=
  member "id" j id /\ identifier id /\ member "result" j result /\
  match e with
  | None => member "error" j JNull
  | Some e => exists c, member "error" j (JArray [JUint c; JString (er_message e)]) /\ er_code e = c mod 2 ^ 32
  end.

(* the codes that have a message *)
Definition error_codes : list N := [0; 21; 22; 23; 24; 25; 26; 27; 28; 29; 30; 31; 32; 33; 34; 35; 36; 37; 2147483647].

(* texts of numbers: hexadecimal digits, most significant first *)
Definition hex_of (b s : bytes) : Prop := hex_read s = Some b.
Definition hex_u32 (v : N) (s : bytes) : Prop := u32 v /\ hex_of (be 4 v) s.
Definition hex_i32 (z : Z) (s : bytes) : Prop := i32 z /\ hex_of (rev (sle 4 z)) s.
(* a digest: each of the eight words of four bytes is turned around *)
Definition hex_digest (d s : bytes) : Prop :=
  exists ws, length ws = 8%nat /\ Forall (fun w => length w = 4%nat) ws /\ d = concat ws /\ hex_of (concat (map (@rev byte) ws)) s.

(* parameters of mining.notify; the branch is given from the leaf in the stack and from the top in the
   message *)
Definition says_path (ds : digests) (l : list json) : Prop :=
  Forall2 (fun o j => exists d s, o = Some d /\ j = JString s /\ hex_digest d s) (rev ds) l.
Definition says_notify (n : list json) (p : notify) : Prop :=
  exists d t1 t2 ds v t now,
    n = [JString (nt_job p); JString d; JString t1; JString t2; JArray ds; JString v; JString t; JString now; JBool (nt_clean p)] /\
    hex_digest (nt_digest p) d /\ hex_of (nt_tx1 p) t1 /\ hex_of (nt_tx2 p) t2 /\ says_path (nt_path p) ds /\
    hex_i32 (nt_version p) v /\ hex_u32 (nt_target p) t /\ hex_u32 (nt_now p) now.
Definition notify_fields (p : notify) : Prop :=
  length (nt_digest p) = 32%nat /\ i32 (nt_version p) /\ u32 (nt_target p) /\ u32 (nt_now p).

(* parameters of mining.submit *)
Definition says_share (n : list json) (s : sshare) : Prop :=
  exists e t k bits,
    n = [JString (ss_name s); JString (ss_job s); JString e; JString t; JString k] ++ bits /\
    hex_of (sh_extra2 (ss_share s)) e /\ hex_u32 (sh_timestamp (ss_share s)) t /\ hex_u32 (sh_nonce (ss_share s)) k /\
    match sh_bits (ss_share s) with
    | None => bits = []
    | Some z => exists b, bits = [JString b] /\ hex_i32 z b
    end.
Definition share_fields (s : sshare) : Prop :=
  u32 (sh_timestamp (ss_share s)) /\ u32 (sh_nonce (ss_share s)) /\ match sh_bits (ss_share s) with Some z => i32 z | None => True end.

(* the same bytes from both ends *)
Definition palindrome (z : Z) : Prop := rev (sle 4 z) = sle 4 z.
(* an int32 with its bytes turned around *)
Definition swapped (z : Z) : Z := sle_val (rev (sle 4 z)).
(* every word of a digest is one byte repeated *)
Definition uniform (d : bytes) : Prop := exists bs, length bs = 8%nat /\ d = concat (map (fun b => [b; b; b; b]) bs).
(* every word of a digest moved round by one byte *)
Fixpoint rotated (d : bytes) : bytes :=
  match d with a :: b :: c :: e :: r => e :: a :: b :: c :: rotated r | _ => d end.
