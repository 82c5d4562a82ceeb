(* What encodings of signatures are, independently of how they are read. A number is written with its high byte first. *)
From Verif Require Import Base TextModel.
Local Open Scope N_scope.

Definition yes (m : outcome unit bool) : Prop := m = Ret true.
Definition no (m : outcome unit bool) : Prop := m = Ret false.

(* ---- encodings in general *)
(* the length of the sequence: a byte below 128, or a byte that says how many bytes follow *)
Definition some_length (l : bytes) : Prop :=
  (exists b, l = [b] /\ b2n b < 128) \/ (exists b v, l = b :: v /\ b2n b = 128 + len v).
(* the length n of an integer *)
Definition length_of (n : N) (l : bytes) : Prop :=
  (exists b, l = [b] /\ b2n b < 128 /\ n = b2n b) \/ (exists b v, l = b :: v /\ b2n b = 128 + len v /\ be_val v < 2 ^ 56 /\ n = be_val v).
(* x begins with a sequence of two integers, whose bytes are R and S *)
Definition holds_integers (x R S : bytes) : Prop := exists l lr ls rest,
  x = [x30] ++ l ++ [x02] ++ lr ++ R ++ [x02] ++ ls ++ S ++ rest /\ some_length l /\ length_of (len R) lr /\ length_of (len S) ls.
(* the signature with these integers; one that nothing verifies, if they are too big *)
Definition signature_of (R S : bytes) : N * N :=
  if (be_val R <? secp_order) && (be_val S <? secp_order) then (be_val R, be_val S) else (0, 0).

(* ---- strict encodings *)
Definition wrapped (R S : bytes) : bytes :=
  [x30; n2b (len R + len S + 4); x02; n2b (len R)] ++ R ++ [x02; n2b (len S)] ++ S.
(* no byte in front that says nothing *)
Definition tight (R : bytes) : Prop :=
  match R with [] => False | a :: R' => b2n a = 0 -> match R' with [] => False | b :: _ => 128 <= b2n b end end.
Definition positive (R : bytes) : Prop := match R with [] => False | a :: _ => b2n a < 128 end.
(* an integer according to BIP 66: not negative, and without a zero in front unless it is needed. Zero is one byte. *)
Definition bip66_integer (R : bytes) : Prop :=
  match R with [] => False | a :: R' => b2n a < 128 /\ (b2n a = 0 -> match R' with [] => True | b :: _ => 128 <= b2n b end) end.
(* BIP 66, without the byte for the kind of signature *)
Definition bip66 (x : bytes) : Prop := exists R S, x = wrapped R S /\ len x <= 72 /\ bip66_integer R /\ bip66_integer S.
(* DER of a number that is not negative and of a pair *)
Definition der_integer (n : N) : bytes := be (N.to_nat (N.size n / 8 + 1)) n.
Definition der_signature (r s : N) : bytes := wrapped (der_integer r) (der_integer s).

(* ---- points: the size that is declared for a coordinate. It is one more than der_integer has, unless it is zero. *)
Definition point_part (n : N) : N := if n =? 0 then 1 else N.size n / 8 + 2.
