From Coq Require Import String.
From Verif Require Import Base TextModel ScriptModel ScriptSpec AsmModel AsmSpec.
Local Open Scope list_scope.
Local Open Scope N_scope.

(* ---- examples *)
Definition ex_script : bytes := [x00; x02; xab; xcd; x76; x52].
Lemma asm_example : is_minimal_script ex_script = Ret true /\ asm false ex_script = Ret (text "0 abcd OP_DUP OP_2") /\ asm true ex_script = Ret (text "0 ABCD OP_DUP OP_2").
Proof. repeat split; vm_compute; reflexivity. Qed.
Lemma asm_refuted : exists a b, a <> b /\ forall up, asm up a = asm up b /\ exists t, asm up a = Ret t.
Proof. exists [x01; xaa], [x4c; x01; xaa]. split; [discriminate|]. intros [|]; (split; [vm_compute; reflexivity|]); eexists; vm_compute; reflexivity. Qed.
Lemma empty_refuted up : asm up [] = Ret [] /\ asm up [x4c; x00] = Ret [] /\ decompile [x4c; x00] = Ret [{| i_op := x4c; i_data := [] |}].
Proof. destruct up; repeat split; vm_compute; reflexivity. Qed.
Lemma asm_throws_example up : asm up [x02; x01] = Throw (X_Invalid E_PUSH_SIZE) /\ asm up [xba] = Throw (X_Invalid E_BAD_OPCODE) /\ asm up [x6a; x05] = Throw (X_Invalid E_PUSH_SIZE).
Proof. destruct up; repeat split; vm_compute; reflexivity. Qed.
Lemma instr_example up : instr_fits {| i_op := x01; i_data := [xaa] |} /\ named x01 /\ instr_text false {| i_op := x01; i_data := [xaa] |} = text "push_size_1{aa}" /\ instr_text up {| i_op := x00; i_data := [] |} = text "push_empty{}" /\
  asm_instr up {| i_op := xba; i_data := [] |} = asm_instr up {| i_op := xbb; i_data := [] |}.
Proof.
  split; [split; intros X; [vm_compute in X; discriminate X|reflexivity]|]. split; [left; reflexivity|]. destruct up; repeat split; vm_compute; reflexivity.
Qed.
