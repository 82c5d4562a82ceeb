(* C132: the functions on byte strings and numbers offered besides the script machine *)
From Verif Require Import Base ScriptModel NumModel NumSpec MachineModel MachineSpec NumLibModel NumLibSpec NumLibProofs.
Local Open Scope N_scope.

Theorem C132_bitwise x y : combined N.land x y (bit_and x y) /\ combined N.lor x y (bit_or x y) /\
  combined N.lxor x y (bit_xor x y).
Proof. exact (bitwise_exact x y). Qed.
Print Assumptions C132_bitwise.

Theorem C132_unique f x y r r' : combined f x y r -> combined f x y r' -> r = r'.
Proof. exact (combined_unique f x y r r'). Qed.
Print Assumptions C132_unique.

Theorem C132_swap x y : bit_and x y = bit_and y x /\ bit_or x y = bit_or y x /\ bit_xor x y = bit_xor y x.
Proof. exact (bitwise_swap x y). Qed.
Print Assumptions C132_swap.

(* the opcodes take strings of one length only; on those the functions agree with them *)
Theorem C132_opcodes X cf x y r a :
  effect X cf OP_AND (y :: x :: r) a = (if len x =? len y then Some (bit_and x y :: r, a) else None) /\
  effect X cf OP_OR (y :: x :: r) a = (if len x =? len y then Some (bit_or x y :: r, a) else None) /\
  effect X cf OP_XOR (y :: x :: r) a = (if len x =? len y then Some (bit_xor x y :: r, a) else None) /\
  effect X cf OP_INVERT (x :: r) a = Some (bit_not x :: r, a).
Proof. exact (bitwise_opcodes X cf x y r a). Qed.
Print Assumptions C132_opcodes.

Theorem C132_opcodes_refuted X cf :
  ~ (forall x y r a, effect X cf OP_AND (y :: x :: r) a = Some (bit_and x y :: r, a)).
Proof. exact (bitwise_opcodes_refuted X cf). Qed.
Print Assumptions C132_opcodes_refuted.

(* when adding zero bytes would give the same *)
Theorem C132_zero x y :
  (plain x y -> zero_combined N.land x y (bit_and x y) /\ zero_combined N.lor x y (bit_or x y)) /\
  (zero_combined N.lxor x y (bit_xor x y) <-> plain x y).
Proof. exact (zero_exact x y). Qed.
Print Assumptions C132_zero.

Theorem C132_zero_refuted : ~ (forall x y, zero_combined N.land x y (bit_and x y)).
Proof. exact zero_refuted. Qed.
Print Assumptions C132_zero_refuted.

Theorem C132_not x : len (bit_not x) = len x /\ le_val x + le_val (bit_not x) + 1 = pow256 (length x) /\
  bit_not (bit_not x) = x.
Proof. exact (not_exact x). Qed.
Print Assumptions C132_not.

Theorem C132_left x n r :
  (str_left x n = inr r <-> len r = n /\ exists t, x = r ++ t) /\ (str_left x n = inl InvalidRange <-> len x < n).
Proof. exact (left_exact x n r). Qed.
Print Assumptions C132_left.

(* the version on bytes is right exactly if range with one argument gives the first bytes *)
Theorem C132_left_bytes x n r :
  (num_left false x n = str_left x n) /\
  (num_left true x n = inr r <-> exists t, len t = n /\ x = t ++ r) /\
  (num_left true x n = inl InvalidRange <-> len x < n).
Proof. exact (left_rest x n r). Qed.
Print Assumptions C132_left_bytes.

Theorem C132_left_iff rest : (forall x n, num_left rest x n = str_left x n) <-> rest = false.
Proof. exact (left_iff rest). Qed.
Print Assumptions C132_left_iff.

Theorem C132_right x n r :
  (num_right x n = inr r <-> len r = n /\ exists t, x = t ++ r) /\ (num_right x n = inl InvalidRange <-> len x < n).
Proof. exact (right_exact x n r). Qed.
Print Assumptions C132_right.

(* the version on strings stops early if more than half is asked for *)
Theorem C132_right_string x n r :
  (str_right x n = inr r <->
    exists t u, x = t ++ r ++ u /\ len r + len u = n /\ len r = N.min n (len x - n)) /\
  (str_right x n = inl InvalidRange <-> len x < n).
Proof. exact (string_right_exact x n r). Qed.
Print Assumptions C132_right_string.

Theorem C132_right_iff x n : str_right x n = num_right x n <-> len x < n \/ 2 * n <= len x.
Proof. exact (string_right_iff x n). Qed.
Print Assumptions C132_right_iff.

Theorem C132_right_refuted : ~ (forall x n, str_right x n = num_right x n).
Proof. exact string_right_refuted. Qed.
Print Assumptions C132_right_refuted.

Theorem C132_split x n a b :
  (num_split x n = inr (a, b) <-> x = num_cat a b /\ len a = n) /\ (num_split x n = inl InvalidRange <-> len x < n).
Proof. exact (split_exact x n a b). Qed.
Print Assumptions C132_split.

Theorem C132_parts X cf x n r a :
  effect X cf OP_SPLIT (n :: x :: r) a =
    match index cf n (len x) with
    | Some k => match num_split x k with inr (u, v) => Some (v :: u :: r, a) | inl _ => None end
    | None => None
    end /\
  effect X cf OP_LEFT (n :: x :: r) a =
    match index cf n (len x) with
    | Some k => match str_left x k with inr u => Some (u :: r, a) | inl _ => None end
    | None => None
    end /\
  effect X cf OP_RIGHT (n :: x :: r) a =
    match index cf n (len x) with
    | Some k => match num_right x k with inr u => Some (u :: r, a) | inl _ => None end
    | None => None
    end /\
  effect X cf OP_CAT (n :: x :: r) a = Some (num_cat x n :: r, a).
Proof. exact (parts_opcodes X cf x n r a). Qed.
Print Assumptions C132_parts.

Theorem C132_bool x y n m : number_of x n -> number_of y m ->
  bool_not x = (n =? 0)%Z /\ bool_and x y = negb (n =? 0)%Z && negb (m =? 0)%Z /\
  bool_or x y = negb (n =? 0)%Z || negb (m =? 0)%Z.
Proof. exact (bool_exact x y n m). Qed.
Print Assumptions C132_bool.

(* a negative number of one byte is extended with its sign *)
Example C132_example : bit_and [x81] [xff; xff] = [x01; x80] /\ bit_or [x81] [x10; x00] = [x11; x80] /\
  bit_xor [] [x0f] = [x0f] /\ bit_not [x0f] = [xf0] /\
  str_right [x01; x02; x03] 2 = inr [x02] /\ num_right [x01; x02; x03] 2 = inr [x02; x03] /\
  num_left true [x01; x02; x03] 1 = inr [x02; x03] /\ num_split [x01; x02; x03] 1 = inr ([x01], [x02; x03]) /\
  plain [x01] [xff; xff] /\ ~ plain [x81] [xff; xff].
Proof.
  repeat (split; [vm_compute; reflexivity|]). split.
  - split; vm_compute; congruence.
  - intros (P & _). specialize (P eq_refl). vm_compute in P. discriminate P.
Qed.
Example C132_bool_example : number_of [x80] 0 /\ number_of [x05; x80] (-5).
Proof. split; apply NumProofs.number_of_iff; vm_compute; reflexivity. Qed.
