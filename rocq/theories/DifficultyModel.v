(* Difficulties, which are doubles, and what is converted to and from them.
   Source: work.cpp 89-155, include/gigamonkey/work/target.hpp 83-118, 190-196, 270-280,
   include/gigamonkey/boost/boost.hpp 740-746.
   Doubles are those of ExtModel.v: fractions, each operation giving the nearest number of 53 bits, with exponents
   without bound; the exponents that occur for a target are between -33 and 256.
   Not modelled: sums, differences and products of difficulties, hashpower (one operation on doubles each). *)
From Verif Require Import Base WireModel ExtModel ScriptModel WorkModel BoostModel BoostRedeemModel.
Local Open Scope N_scope.

(* a double: a number that is not negative, infinity, or something that is not >= 0 (negative, or not a number) *)
Inductive float := Num (x : N * N) | Infinity | Other.

(* target.hpp 112-115 *)
Definition difficulty_unit : N := 0x00000000FFFF0000000000000000000000000000000000000000000000000000.
(* compact::difficulty, target.hpp 270-274.  The conversions from integers to double are taken to give the nearest
   double.  A positive number divided by zero is infinity *)
Definition difficulty_of (c : N) : float :=
  if expand c =? 0 then Infinity else Num (double_div (double difficulty_unit 1) (double (expand c) 1)).
(* work.cpp 92, 146: the quotient of the unit by a difficulty *)
Definition absolute_of (x : N * N) : N * N := double_div (double difficulty_unit 1) x.
(* compact (difficulty), work.cpp 89-141.  None: the loop does not end (the quotient is infinite, see WorkModel.v).
   A quotient that is negative or not a number is not > 1, and by infinity it is zero *)
Definition compact_of_difficulty (f : float) : option N :=
  match f with
  | Num x => if fst x =? 0 then None
             else compact_of_quotient (fst (absolute_of x)) (N.log2 (snd (absolute_of x)))
  | Infinity | Other => compact_of_quotient 0 0
  end.
(* difficulty::operator uint256, work.cpp 143-155.  frexp gives a mantissa from 1/2 to 1 and its exponent, which is
   [exponent + 1]; with its leading bit the mantissa is a number of 53 bits.  The external
   standard_binary_interchange_format_mantissa_bits<64> is taken to be 52.  None: the shift is by a
   negative number, or the exponent of infinity is not specified *)
Definition number_of_difficulty (f : float) : option N :=
  match f with
  | Other => Some 0
  | Infinity => None
  | Num x =>
    if fst x =? 0 then None
    else let v := absolute_of x in
         let e := exponent (fst v) (snd v) in
         let bits := if (0 <=? e - 52)%Z then fst v / (snd v * 2 ^ Z.to_N (e - 52)) else fst v * 2 ^ Z.to_N (52 - e) / snd v in
         if (0 <=? e - 52)%Z then Some (N.shiftl bits (Z.to_N (e + 1 - 52 - 1)) mod 2 ^ 256) else None
  end.
(* comparisons, target.hpp 224-246, of two numbers *)
Definition float_ltb (a b : float) : bool :=
  match a, b with
  | Num x, Num y => fst x * snd y <? fst y * snd x
  | Num _, Infinity => true
  | _, _ => false
  end.
Definition float_eqb (a b : float) : bool :=
  match a, b with
  | Num x, Num y => fst x * snd y =? fst y * snd x
  | Infinity, Infinity => true
  | _, _ => false
  end.

(* boost.hpp 744-746; of a negative value only that it is negative.  A number divided by infinity is zero; a difficulty got from a target is never zero *)
Definition profit (value : Z) (f : float) : float :=
  match f with
  | Num x => if (value <? 0)%Z then Other else Num (double_div (double (Z.to_N value) 1) x)
  | Infinity => Num (0, 1)
  | Other => Other
  end.
Section Candidate.
Variable neg1 : bytes.
Variable ovf : Z -> Z.
(* boost.hpp 740-742 *)
Definition candidate_difficulty (c : bcand) : outcome sexn float :=
  match output_read neg1 (bn_script c) with
  | Ret o => Ret (difficulty_of (bo_target o))
  | Throw e => Throw e
  | Undef => Undef
  end.
Definition candidate_profitability (c : bcand) : outcome sexn float :=
  match candidate_difficulty c with
  | Ret f => Ret (profit (candidate_value ovf c) f)
  | Throw e => Throw e
  | Undef => Undef
  end.
End Candidate.
