(* Examples: three of the first targets of the chain and a later one. *)
From Coq Require Import Lia.
From Verif Require Import Base ExtModel WorkModel WorkSpec DifficultyModel DifficultySpec.
Local Open Scope N_scope.

Definition ex_target_1 : N := 0x1d00d86a.
Definition ex_target_2 : N := 0x1d00c428.
Definition ex_target_3 : N := 0x1d00be71.
Definition ex_target_4 : N := 0x1b0404cb.
Lemma ex_normal c : negative c = false -> 2 ^ 15 <=? mantissa_of c = true -> (2 ^ 24 <=? magnitude c) && (magnitude c <? 2 ^ 256) = true -> normal c.
Proof.
  intros A B C. apply Bool.andb_true_iff in C. destruct C as [C D]. split; [exact A |]. split; [apply N.leb_le; exact B |]. split; [apply N.leb_le; exact C | apply N.ltb_lt; exact D].
Qed.
Lemma ex_targets_normal : normal ex_target_1 /\ normal ex_target_2 /\ normal ex_target_3 /\ normal ex_target_4.
Proof. split; [|split; [|split]]; (apply ex_normal; vm_compute; reflexivity). Qed.
(* a power of 256 is a power of two *)
Lemma ex_not_power a : 2 ^ N.log2 a <> a -> forall e, a <> 256 ^ e.
Proof.
  intros H e E. apply H. assert (X : 256 ^ e = 2 ^ (8 * e)) by (change 256 with (2 ^ 8); rewrite <- N.pow_mul_r; reflexivity).
  rewrite E, X, N.log2_pow2 by lia. reflexivity.
Qed.
