(** Circular orbits over the reals, written independently of the code.
    Angles in radians, lengths in metres, times in seconds unless named _km. *)
Require Import ZArith Reals.
Require Import Verif.Num Verif.NumR Verif.Vec Verif.GeomSpec.
Local Open Scope R_scope.

(** Seconds of a simulation time given in nanoseconds. *)
Definition sec (t : Z) : R := IZR t / 1000000000.

Definition earth_radius_km : R := 6371009 / 1000.

(** Unit normal of the plane inclined by [i] against the equatorial plane, whose
    northernmost point has longitude [lam]. *)
Definition plane_normal (i lam : R) : point :=
  pt (- sin i * cos lam) (- sin i * sin lam) (cos i).

(** The point of the circle of radius [r] in that plane, at the angle [th] from
    the northernmost point, counted counter-clockwise about the normal. *)
Definition circle_point (r i lam th : R) : point :=
  pt (r * (cos th * (cos i * cos lam) - sin th * sin lam))
     (r * (cos th * (cos i * sin lam) + sin th * cos lam))
     (r * (cos th * sin i)).

(** Speed on a circular orbit of radius [r_km] with the code's GM
    (39.8600436e4 km^3/s^2, so that the result is in m/s). *)
Definition circular_speed (r_km : R) : R := 100000 * sqrt (39.8600436 / r_km).

(** Angular rate at which the code advances a satellite: orbital speed over the
    radius of the Earth (not of the orbit), backwards above 90 degrees. *)
Definition angular_rate (r_km i : R) : R :=
  (if Rlt_dec (PI / 2) i then -1 else 1) * circular_speed r_km / (1000 * earth_radius_km).

(** Angular speed of the Earth's rotation assumed by the code (24 h days). *)
Definition earth_rate : R := 2 * PI / 86400.

(** Trajectory: orbit radius [r_km], inclination [i], longitude [lon] of the
    northernmost point and angle [off] at time 0. *)
Definition trajectory (r_km i lon off tau : R) : point :=
  circle_point (1000 * r_km) i (lon + earth_rate * tau) (angular_rate r_km i * tau + off).

Definition zhat : point := pt 0 0 1.

(** [v] is the derivative of the curve [c] at [tau]. *)
Definition derivative_at (c : R -> point) (tau : R) (v : point) : Prop :=
  derivable_pt_lim (fun x => px (c x)) tau (px v) /\
  derivable_pt_lim (fun x => py (c x)) tau (py v) /\
  derivable_pt_lim (fun x => pz (c x)) tau (pz v).
