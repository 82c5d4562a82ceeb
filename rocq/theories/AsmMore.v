(* The texts of opcodes *)
From Coq Require Import Lia ZifyBool ZifyNat ZifyN.
From Verif Require Import Base BaseProofs TextModel Bip44Model ScriptModel AsmModel AsmSpec AsmProofs.
Local Open Scope N_scope.

Definition named_codes : list byte := xff :: map (fun n => n2b (N.of_nat n)) (List.seq 0 0xba).
Lemma in_named o : named o -> In o named_codes.
Proof.
  intros [L | ->]; [right|left; reflexivity]. apply in_map_iff. exists (N.to_nat (b2n o)). split; [rewrite N2Nat.id; apply n2b_b2n|]. apply List.in_seq. lia.
Qed.
Lemma op_text_exact a b : named a -> named b -> op_text a = op_text b <-> a = b.
Proof.
  intros A B. split; [|intros ->; reflexivity]. apply (distinct_inj op_text named_codes); [vm_compute; reflexivity|apply in_named; exact A|apply in_named; exact B].
Qed.
Lemma op_text_size o : 1 <= b2n o <= 75 -> op_text o = to_string (b2n o).
Proof. intros L. unfold op_text. replace ((1 <=? b2n o) && (b2n o <=? 75)) with true by lia. reflexivity. Qed.
