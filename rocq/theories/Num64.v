(** IEEE-754 binary64 (Flocq), rounding to nearest even, with infinities and a
    single NaN. The three libm functions used by the code are parameters:
    nothing is assumed about them. Assumes the compiler evaluates each operation
    in binary64 without contraction (the default on x86-64 SSE2). *)
Require Import ZArith.
From Flocq Require Import Core.Zaux Core.FLX IEEE754.BinarySingleNaN.
Require Import Verif.Num.

Definition b64 : Set := binary_float 53 1024.

Definition b64_prec_gt_0 : FLX.Prec_gt_0 53 := eq_refl.
Definition b64_prec_lt_emax : Prec_lt_emax 53 1024 := eq_refl.
#[export] Existing Instance b64_prec_gt_0.
#[export] Existing Instance b64_prec_lt_emax.

Definition b64_plus : b64 -> b64 -> b64 := Bplus mode_NE.
Definition b64_minus : b64 -> b64 -> b64 := Bminus mode_NE.
Definition b64_mult : b64 -> b64 -> b64 := Bmult mode_NE.
Definition b64_div : b64 -> b64 -> b64 := Bdiv mode_NE.
Definition b64_sqrt : b64 -> b64 := Bsqrt mode_NE.

(** Conversion of an integer to double (round to nearest even). *)
Definition b64_Z (z : Z) : b64 := binary_normalize 53 1024 _ _ mode_NE z 0 false.

(** The decimal literal m / 10^k. Both operands are exact for |m| < 2^53 and
    k <= 22, which holds for every literal of the code, so that the single
    division rounds correctly. *)
Definition b64_dec (m : Z) (k : positive) : b64 :=
  b64_div (b64_Z m) (b64_Z (Z.pow_pos 10 k)).

(** glibc M_PI = 3.14159265358979323846 as a double: 884279719003555 / 2^48. *)
Definition b64_pi : b64 := binary_normalize 53 1024 _ _ mode_NE 884279719003555 (-48) false.

(** C99 fmin: a NaN argument is ignored if the other one is a number. *)
Definition b64_fmin (a b : b64) : b64 :=
  if is_nan a then b else if is_nan b then a else if Bltb b a then b else a.

Definition Num64 (fsin fcos ftan : b64 -> b64) : Num := {|
  num := b64;
  nadd := b64_plus; nsub := b64_minus; nmul := b64_mult; ndiv := b64_div;
  nopp := Bopp; nabs := Babs; nsqrt := b64_sqrt;
  nsin := fsin; ncos := fcos; ntan := ftan;
  nfmin := b64_fmin; nlt := Bltb; neq := Beqb;
  nZ := b64_Z; ndec := b64_dec; npi := b64_pi
|}.
