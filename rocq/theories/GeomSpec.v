(** Elementary geometry over the reals, written independently of the code. *)
Require Import Reals.
Require Import Verif.Num Verif.NumR Verif.Vec.
Local Open Scope R_scope.

(** A point of space, coordinates in metres from the centre of the Earth. *)
Definition point : Type := vec NumR.
Definition px (p : point) : R := vx p.
Definition py (p : point) : R := vy p.
Definition pz (p : point) : R := vz p.
Definition pt (x y z : R) : point := @V NumR x y z.

Definition inner (a b : point) : R := px a * px b + py a * py b + pz a * pz b.
Definition norm (a : point) : R := sqrt (inner a a).
Definition minus (a b : point) : point := pt (px a - px b) (py a - py b) (pz a - pz b).
Definition plus (a b : point) : point := pt (px a + px b) (py a + py b) (pz a + pz b).
Definition scale (k : R) (a : point) : point := pt (k * px a) (k * py a) (k * pz a).
Definition cross (a b : point) : point :=
  pt (py a * pz b - pz a * py b) (pz a * px b - px a * pz b) (px a * py b - py a * px b).
Definition distance (a b : point) : R := norm (minus b a).

(** The point at fraction t of the straight segment from a to b. *)
Definition on_segment (a b : point) (t : R) : point := plus a (scale t (minus b a)).

(** No point of the segment between a and b is in the closed ball of radius r. *)
Definition unobstructed (r : R) (a b : point) : Prop :=
  forall t : R, 0 <= t <= 1 -> r < norm (on_segment a b t).

(** Elevation (radians) over the local horizon at which a station at g sees s. *)
Definition elevation (g s : point) : R :=
  asin (inner (minus s g) g / (norm (minus s g) * norm g)).
