(* 32-bit floating point numbers of IEEE 754 (binary32: 24 digits, exponents below 128),
   from the standard library, and their text with one digit after the point. *)
From Coq Require Import String ZArith Floats.SpecFloat.
From Verif Require Import Base S_Text.
Local Open Scope Z_scope.

(* `x as f32` *)
Definition as_f32 (x : N) : spec_float := binary_normalize 24 128 (Z.of_N x) 0 false.
(* `a / b` *)
Definition div_f32 (a b : spec_float) : spec_float := SFdiv 24 128 a b.

(* t tenths are nearest to m * 2^e (e <= 0 here), and even when two are equally near *)
Definition nearest_tenths (m e : Z) (t : Z) : Prop :=
  2 * Z.abs (10 * m - t * 2 ^ (- e)) < 2 ^ (- e) \/
  2 * Z.abs (10 * m - t * 2 ^ (- e)) = 2 ^ (- e) /\ Z.even t = true.
(* `{:.1}` of a number that is not negative and has a fraction, or of zero *)
Definition one_decimal (f : spec_float) (s : string) : Prop :=
  match f with
  | S754_zero false => s = "0.0"%string
  | S754_finite false m e => e <= 0 /\ exists t, nearest_tenths (Z.pos m) e (Z.of_N t) /\ tenths s t
  | _ => False
  end.
