(** Exact arithmetic: the operations over Coq's reals. Simplification with
    respect to the code: no rounding, [M_PI] is pi, decimal literals are exact,
    and there are no NaNs or infinities (division by zero gives an unspecified
    real, so theorems about this instance exclude it by hypothesis). *)
Require Import ZArith Reals.
Require Import Verif.Num.
Local Open Scope R_scope.

Definition Rltb (a b : R) : bool := if Rlt_dec a b then true else false.
Definition Reqb (a b : R) : bool := if Req_EM_T a b then true else false.

Definition NumR : Num := {|
  num := R;
  nadd := Rplus; nsub := Rminus; nmul := Rmult; ndiv := Rdiv;
  nopp := Ropp; nabs := Rabs; nsqrt := sqrt;
  nsin := sin; ncos := cos; ntan := tan;
  nfmin := Rmin; nlt := Rltb; neq := Reqb;
  nZ := IZR;
  ndec := fun m k => IZR m / IZR (Z.pow_pos 10 k);
  npi := PI
|}.
