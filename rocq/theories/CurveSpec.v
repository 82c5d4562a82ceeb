(* The group of the curve y^2 = x^3 + 7 over the field of 2^256 - 2^32 - 977 elements (SEC 2), with its
   points kept as triples (x, y, z) standing for (x / z^2, y / z^3).  The library calls libsecp256k1; it is
   made concrete only to run the model on known values, and nothing is proved of it. *)
From Verif Require Import Base.
Local Open Scope Z_scope.

Definition cv_p : Z := 0xFFFFFFFFFFFFFFFFFFFFFFFFFFFFFFFFFFFFFFFFFFFFFFFFFFFFFFFEFFFFFC2F.
Definition cv_mask : Z := 0xFFFFFFFFFFFFFFFFFFFFFFFFFFFFFFFFFFFFFFFFFFFFFFFFFFFFFFFFFFFFFFFF.
Definition cv_order : Z := 0xFFFFFFFFFFFFFFFFFFFFFFFFFFFFFFFEBAAEDCE6AF48A03BBFD25E8CD0364141.
(* 2^256 is 2^32 + 977 in the field *)
Definition cv_fold (x : Z) : Z := Z.land x cv_mask + 0x1000003D1 * Z.shiftr x 256.
Definition cv_red (x : Z) : Z :=
  let y := cv_fold (cv_fold (cv_fold x)) in if y <? cv_p then y else y - cv_p.
Definition cv_times (a b : Z) : Z := cv_red (a * b).
Definition cv_minus (a b : Z) : Z := if b <=? a then a - b else a + cv_p - b.
Definition cv_plus (a b : Z) : Z := let s := a + b in if s <? cv_p then s else s - cv_p.
Fixpoint cv_pow (b : Z) (e : positive) : Z :=
  match e with
  | xH => b
  | xO e' => let h := cv_pow b e' in cv_times h h
  | xI e' => let h := cv_pow b e' in cv_times (cv_times h h) b
  end.
(* p - 2 and (p + 1) / 4 *)
Definition cv_inv (a : Z) : Z := cv_pow a 0xFFFFFFFFFFFFFFFFFFFFFFFFFFFFFFFFFFFFFFFFFFFFFFFFFFFFFFFEFFFFFC2D%positive.
Definition cv_sqrt (a : Z) : Z := cv_pow a 0x3FFFFFFFFFFFFFFFFFFFFFFFFFFFFFFFFFFFFFFFFFFFFFFFFFFFFFFFBFFFFF0C%positive.

Definition cv_jac : Type := Z * Z * Z.
Definition cv_zero : cv_jac := (1, 1, 0).
Definition cv_double (a : cv_jac) : cv_jac :=
  match a with
  | (x, y, z) =>
      if (z =? 0) || (y =? 0) then cv_zero
      else
        let yy := cv_times y y in
        let s := cv_times 4 (cv_times x yy) in
        let m := cv_times 3 (cv_times x x) in
        let x3 := cv_minus (cv_times m m) (cv_times 2 s) in
        (x3, cv_minus (cv_times m (cv_minus s x3)) (cv_times 8 (cv_times yy yy)), cv_times 2 (cv_times y z))
  end.
Definition cv_add (a b : cv_jac) : cv_jac :=
  match a, b with
  | (x1, y1, z1), (x2, y2, z2) =>
      if z1 =? 0 then b else if z2 =? 0 then a
      else
        let zz1 := cv_times z1 z1 in
        let zz2 := cv_times z2 z2 in
        let u1 := cv_times x1 zz2 in
        let u2 := cv_times x2 zz1 in
        let s1 := cv_times y1 (cv_times z2 zz2) in
        let s2 := cv_times y2 (cv_times z1 zz1) in
        if u1 =? u2 then if s1 =? s2 then cv_double a else cv_zero
        else
          let h := cv_minus u2 u1 in
          let r := cv_minus s2 s1 in
          let hh := cv_times h h in
          let hhh := cv_times h hh in
          let v := cv_times u1 hh in
          let x3 := cv_minus (cv_minus (cv_times r r) hhh) (cv_times 2 v) in
          (x3, cv_minus (cv_times r (cv_minus v x3)) (cv_times s1 hhh), cv_times h (cv_times z1 z2))
  end.
Fixpoint cv_mul (k : positive) (a : cv_jac) : cv_jac :=
  match k with
  | xH => a
  | xO k' => cv_double (cv_mul k' a)
  | xI k' => cv_add a (cv_double (cv_mul k' a))
  end.
Definition cv_G : cv_jac :=
  (0x79BE667EF9DCBBAC55A06295CE870B07029BFCDB2DCE28D959F2815B16F81798,
   0x483ADA7726A3C4655DA4FBFC0E1108A8FD17B448A68554199C47D08FFB10D4B8, 1).
(* None is the point at infinity *)
Definition cv_affine (a : cv_jac) : option (Z * Z) :=
  match a with
  | (x, y, z) =>
      if z =? 0 then None
      else let i := cv_inv z in let ii := cv_times i i in Some (cv_times x ii, cv_times y (cv_times i ii))
  end.
Definition cv_base (n : N) : cv_jac := match n with N0 => cv_zero | Npos k => cv_mul k cv_G end.
(* SEC 1, 2.3.3: the encoding of n times the base point *)
Definition cv_encode (compressed : bool) (n : N) : bytes :=
  match cv_affine (cv_base n) with
  | Some (x, y) =>
      if compressed then (if Z.even y then x02 else x03) :: be 32 (Z.to_N x) else x04 :: be 32 (Z.to_N x) ++ be 32 (Z.to_N y)
  | None => []
  end.
