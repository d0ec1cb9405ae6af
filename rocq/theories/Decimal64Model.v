(** Conversions between decimal text and binary64 as done by the C library
    (correctly rounded, to nearest even), for the parameters of ParseModel.

    Simplification: infinities and NaN are not printed or read. *)
Require Import ZArith QArith Qreals Reals List Bool.
From Flocq Require Import Core.Core IEEE754.BinarySingleNaN.
Require Import Verif.Num Verif.Num64.
Local Open Scope R_scope.

Definition radix10 : radix := Build_radix 10 eq_refl.

Definition exp64 : Z -> Z := FLT_exp (-1074) 53.

(** strtod: the nearest double, none if it overflows. *)
Definition strtod64 (neg : bool) (q : Q) : option b64 :=
  let y := round radix2 exp64 ZnearestE (Q2R q) in
  let m := Ztrunc (scaled_mantissa radix2 exp64 y) in
  if Rlt_bool (Rabs y) (bpow radix2 1024)
  then Some (binary_normalize 53 1024 _ _ mode_NE (if neg then - m else m)%Z (cexp radix2 exp64 y) neg)
  else None.

(** Removal of trailing zeros of a decimal number *)
Fixpoint strip (fuel : nat) (m e : Z) : Z * Z :=
  match fuel with
  | O => (m, e)
  | S f => if (m mod 10 =? 0)%Z then strip f (m / 10) (e + 1) else (m, e)
  end.

(** printf("%g"): the nearest number of six digits. *)
Definition printf64 (x : b64) : bool * Z * Z :=
  if Req_bool (B2R x) 0 then (Bsign x, 0, 0)%Z
  else
    let z := round radix10 (FLX_exp 6) ZnearestE (Rabs (B2R x)) in
    let (m, e) := strip 6 (Ztrunc (scaled_mantissa radix10 (FLX_exp 6) z)) (cexp radix10 (FLX_exp 6) z) in
    (Bsign x, m, e).
