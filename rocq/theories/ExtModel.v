(* Extended-format transactions, amounts, fee rates and transaction designs.
   Source: pay/extended.cpp, include/gigamonkey/pay/extended.hpp, include/gigamonkey/satoshi.hpp,
   include/gigamonkey/fees.hpp. *)
From Verif Require Import Base WireModel ScriptModel MachineModel SighashModel.
Local Open Scope N_scope.

(* ---------------------------------------------------------------- amounts *)
(* satoshi.hpp 33-43: sums of int64_little, a type of the data library.  What the library gives when the
   sum does not fit 64 bits is left to [ovf] *)
Definition fits64 (z : Z) : bool := (- 9223372036854775808 <=? z)%Z && (z <? 9223372036854775808)%Z.
Definition satoshi_add (ovf : Z -> Z) (a b : Z) : Z := if fits64 (a + b) then (a + b)%Z else ovf (a + b)%Z.
Definition satoshi_sub (ovf : Z -> Z) (a b : Z) : Z := if fits64 (a - b) then (a - b)%Z else ovf (a - b)%Z.
(* two's complement *)
Definition wrap64 (z : Z) : Z := ((z + 9223372036854775808) mod 18446744073709551616 - 9223372036854775808)%Z.

(* ---------------------------------------------------------------- extended transactions *)
(* extended.hpp 32-66 *)
Record xinput := { xi_input : input; xi_prevout : output }.
(* extended.hpp 68-112 *)
Record xtx := { xt_version : Z; xt_inputs : list xinput; xt_outputs : list output; xt_locktime : N }.

(* extended.hpp 114-120 *)
Definition xinput_write (i : xinput) : bytes := input_write (xi_input i) ++ output_write (xi_prevout i).
Definition xinput_read : reader xinput :=
  do i <- input_read; do p <- output_read; rd_ret {| xi_input := i; xi_prevout := p |}.
(* extended.hpp 122-127 *)
Definition xtx_marker : bytes := [x00; x00; x00; x00; x00; xef].
Definition xtx_write (t : xtx) : bytes :=
  sle 4 (xt_version t) ++ xtx_marker ++ var_seq_write xinput_write (xt_inputs t) ++
  var_seq_write output_write (xt_outputs t) ++ le 4 (xt_locktime t).
(* extended.hpp 129-133: six bytes are skipped *)
Definition xtx_read : reader xtx :=
  do v <- rd_sle 4; do u <- rd_skip 6; do i <- var_seq_read xinput_read; do o <- var_seq_read output_read; do l <- rd_le 4;
  rd_ret {| xt_version := v; xt_inputs := i; xt_outputs := o; xt_locktime := l |}.
(* extended.hpp 159-161 *)
Definition xinput_size (i : xinput) : N := input_size (xi_input i) + output_size (xi_prevout i).
(* extended.cpp 6-14 (sums assumed below 2^64) *)
Definition xtx_size (t : xtx) : N :=
  14 + var_int_size (N.of_nat (length (xt_inputs t))) + var_int_size (N.of_nat (length (xt_outputs t))) +
  fold_left (fun s i => s + xinput_size i) (xt_inputs t) 0 +
  fold_left (fun s o => s + output_size o) (xt_outputs t) 0.
(* extended.cpp 16-28 *)
Definition xinput_bytes (i : xinput) : option bytes := buffer_write (xinput_size i) (xinput_write i).
Definition xtx_bytes (t : xtx) : option bytes := buffer_write (xtx_size t) (xtx_write t).
(* extended.hpp 180-184 *)
Definition xtx_plain (t : xtx) : tx :=
  {| tx_version := xt_version t; tx_inputs := map xi_input (xt_inputs t); tx_outputs := xt_outputs t; tx_locktime := xt_locktime t |}.

Section Sums.
Variable ovf : Z -> Z.
(* extended.hpp 135-149 *)
Definition xtx_spent (t : xtx) : Z := fold_left (fun x i => satoshi_add ovf (out_value (xi_prevout i)) x) (xt_inputs t) 0%Z.
Definition xtx_sent (t : xtx) : Z := fold_left (fun x o => satoshi_add ovf (out_value o) x) (xt_outputs t) 0%Z.
Definition xtx_fee (t : xtx) : Z := satoshi_sub ovf (xtx_spent t) (xtx_sent t).
(* extended.hpp 155-157 *)
Definition xinput_valid (i : xinput) : outcome ixn bool :=
  match input_valid (xi_input i) with Ret true => Ret (output_valid (xi_prevout i)) | x => x end.
Fixpoint xinputs_valid (l : list xinput) : outcome ixn bool :=
  match l with
  | [] => Ret true
  | i :: r => match xinput_valid i with Ret true => xinputs_valid r | x => x end
  end.
(* extended.hpp 83-88 *)
Definition xtx_valid (t : xtx) : outcome ixn bool :=
  match xt_inputs t, xt_outputs t with
  | [], _ => Ret false
  | _, [] => Ret false
  | i :: r, outs =>
      match xinputs_valid (i :: r) with
      | Ret v =>
          Ret ((v || (match r with [] => outpoint_eqb (in_ref (xi_input i)) outpoint_zero && (length (out_script (xi_prevout i)) =? 0)%nat | _ => false end))
               && forallb output_valid outs && (xtx_sent t <=? xtx_spent t)%Z)
      | x => x
      end
  end.
End Sums.

(* ---------------------------------------------------------------- fee rates *)
(* satoshi.hpp 48-56 *)
Record rate := { rt_satoshis : Z; rt_bytes : N }.
Definition rate_default : rate := {| rt_satoshis := 0; rt_bytes := 0 |}.
(* static_cast<int64> of a uint64 *)
Definition as_int64 (n : N) : Z := if n <? 9223372036854775808 then Z.of_N n else (Z.of_N n - 18446744073709551616)%Z.
(* satoshi.hpp 77-83: None is signed overflow *)
Definition rate_sides (a b : rate) : option (Z * Z) :=
  let l := (rt_satoshis a * as_int64 (rt_bytes b))%Z in
  let r := (rt_satoshis b * as_int64 (rt_bytes a))%Z in
  if fits64 l && fits64 r then Some (l, r) else None.
Definition rate_compare (a b : rate) : option comparison :=
  match rate_sides a b with Some (l, r) => Some (l ?= r)%Z | None => None end.
Definition rate_eqb (a b : rate) : option bool :=
  match rate_sides a b with Some (l, r) => Some (l =? r)%Z | None => None end.
(* satoshi.hpp 73-75 *)
Definition rate_valid (a : rate) : bool := negb (rt_bytes a =? 0).

(* doubles: a number that is not negative is kept as a fraction.  The exponents that occur here are far from
   the limits.  [double n d] is the double nearest to n / d, and of two the one whose last bit is zero *)
Definition half_even (n d : N) : N :=
  let q := n / d in let r := n mod d in
  if 2 * r <? d then q else if d <? 2 * r then q + 1 else if N.even q then q else q + 1.
(* the exponent e of n / d: 2^e <= n / d < 2^(e+1) *)
Definition exponent (n d : N) : Z :=
  let k := (Z.of_N (N.log2 n) - Z.of_N (N.log2 d))%Z in
  if (0 <=? k)%Z then (if n <? d * 2 ^ Z.to_N k then (k - 1)%Z else k)
  else (if n * 2 ^ Z.to_N (- k) <? d then (k - 1)%Z else k).
Definition double (n d : N) : N * N :=
  if n =? 0 then (0, 1)
  else let u := (exponent n d - 52)%Z in
       if (0 <=? u)%Z then (half_even n (d * 2 ^ Z.to_N u) * 2 ^ Z.to_N u, 1)
       else (half_even (n * 2 ^ Z.to_N (- u)) d, 2 ^ Z.to_N (- u)).
Definition double_mul (x y : N * N) : N * N := double (fst x * fst y) (snd x * snd y).
Definition double_div (x y : N * N) : N * N := double (fst x * snd y) (snd x * fst y).
Definition double_ceil (x : N * N) : N := (fst x + snd x - 1) / snd x.
Definition double_floor (x : N * N) : N := fst x / snd x.
Inductive fee_exn := F_division_by_zero.
(* satoshi.hpp 62-65.  Undef: the result does not fit an int64 *)
Definition calculate_fee (v : rate) (size : N) : outcome fee_exn Z :=
  if rt_bytes v =? 0 then Throw F_division_by_zero
  else let q := double_div (double_mul (double (Z.abs_N (rt_satoshis v)) 1) (double size 1)) (double (rt_bytes v) 1) in
       let z := if (rt_satoshis v <? 0)%Z then (- Z.of_N (double_floor q))%Z else Z.of_N (double_ceil q) in
       if fits64 z then Ret z else Undef.

(* ---------------------------------------------------------------- designs *)
(* fees.hpp 46-77; InputScriptSoFar only goes into script_so_far, see RedeemModel *)
Record dinput := { di_input : iinput; di_prevout : output; di_expected : N }.
Record design := { ds_version : Z; ds_inputs : list dinput; ds_outputs : list output; ds_locktime : N }.
(* fees.hpp 103-105 *)
Definition dinput_size (i : dinput) : N := 40 + var_int_size (di_expected i) + di_expected i.
(* fees.hpp 112-120: the number of inputs is used for both counts *)
Definition design_size (d : design) : N :=
  8 + var_int_size (N.of_nat (length (ds_inputs d))) + var_int_size (N.of_nat (length (ds_inputs d))) +
  fold_left (fun s i => s + dinput_size i) (ds_inputs d) 0 +
  fold_left (fun s o => s + output_size o) (ds_outputs d) 0.
(* fees.hpp 122-136 *)
Definition design_spent (ovf : Z -> Z) (d : design) : Z := fold_left (fun x i => satoshi_add ovf (out_value (di_prevout i)) x) (ds_inputs d) 0%Z.
Definition design_sent (ovf : Z -> Z) (d : design) : Z := fold_left (fun x o => satoshi_add ovf (out_value o) x) (ds_outputs d) 0%Z.
Definition design_fee (ovf : Z -> Z) (d : design) : Z := satoshi_sub ovf (design_spent ovf d) (design_sent ovf d).
(* fees.hpp 138-140 and extended.hpp 151-153 *)
Definition design_rate (ovf : Z -> Z) (d : design) : rate := {| rt_satoshis := design_fee ovf d; rt_bytes := design_size d |}.
Definition xtx_rate (ovf : Z -> Z) (t : xtx) : rate := {| rt_satoshis := xtx_fee ovf t; rt_bytes := xtx_size t |}.
(* fees.hpp 143-147 *)
Definition design_incomplete (d : design) : itx :=
  {| it_version := ds_version d; it_inputs := map di_input (ds_inputs d); it_outputs := ds_outputs d; it_locktime := ds_locktime d |}.
(* fees.hpp 71-73 *)
Definition dinput_complete (i : dinput) (s : bytes) : xinput :=
  {| xi_input := iinput_complete (di_input i) s; xi_prevout := di_prevout i |}.
(* fees.hpp 149-154 *)
Definition design_complete (d : design) (scripts : list bytes) : outcome ixn xtx :=
  if Nat.eqb (length scripts) (length (ds_inputs d)) then
    Ret {| xt_version := ds_version d; xt_inputs := map2 dinput_complete (ds_inputs d) scripts;
           xt_outputs := ds_outputs d; xt_locktime := ds_locktime d |}
  else Throw X_logic_error.
