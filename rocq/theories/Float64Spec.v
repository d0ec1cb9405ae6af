(** What is asked of sine, cosine and tangent in doubles: absolute errors of at most
    2^-52 (glibc documents less than one unit in the last place). *)
Require Import Reals.
From Flocq Require Import IEEE754.BinarySingleNaN.
Require Import Verif.Num Verif.Num64 Verif.Vec Verif.GeomSpec.
Local Open Scope R_scope.

Definition u : R := / 4503599627370496.   (* 2^-52 *)
Definition accurate (fsin fcos : b64 -> b64) : Prop := forall x : b64, is_finite x = true ->
  is_finite (fsin x) = true /\ is_finite (fcos x) = true /\
  Rabs (B2R (fsin x) - sin (B2R x)) <= u /\ Rabs (B2R (fcos x) - cos (B2R x)) <= u.
(** A tangent with a relative and absolute error of 2^-52, up to 89 degrees. *)
Definition accurate_tan (ftan : b64 -> b64) : Prop := forall x : b64, is_finite x = true -> Rabs (B2R x) <= 156 / 100 ->
  is_finite (ftan x) = true /\ Rabs (B2R (ftan x) - tan (B2R x)) <= u * (1 + Rabs (tan (B2R x))).

(** The point three doubles stand for. *)
Definition reals {fsin fcos ftan} (p : vec (Num64 fsin fcos ftan)) : point := pt (B2R (vx p)) (B2R (vy p)) (B2R (vz p)).
Definition finite_vec {fsin fcos ftan} (p : vec (Num64 fsin fcos ftan)) : Prop :=
  is_finite (vx p) = true /\ is_finite (vy p) = true /\ is_finite (vz p) = true.
(** Coordinate-wise distance. *)
Definition within (d : R) (p q : point) : Prop :=
  Rabs (px p - px q) <= d /\ Rabs (py p - py q) <= d /\ Rabs (pz p - pz q) <= d.
