(** The path a satellite should follow after a history of calls, over the reals. *)
Require Import ZArith Reals List.
Require Import Verif.Num Verif.NumR Verif.Vec Verif.MobilityModel Verif.GeomSpec Verif.OrbitSpec Verif.MobilitySpec.
Local Open Scope R_scope.

(** Start longitude and start angle: first and second component of the vector
    passed to SetPosition last, 0 before the first call. *)
Definition longitude_at (ops : list (mop NumR)) : R := fst (@last_start NumR (0, 0) ops).
Definition offset_at (ops : list (mop NumR)) : R := snd (@last_start NumR (0, 0) ops).

(** Altitude in km and inclination in degrees, as written last ([alt] and [incl]
    at construction). *)
Definition altitude_after (alt : R) (ops : list (mop NumR)) : R := @last_altitude NumR alt ops.
Definition inclination_after (incl : R) (ops : list (mop NumR)) : R := @last_inclination NumR incl ops.

(** Position in metres as a function of the time in seconds. *)
Definition path (alt incl : R) (ops : list (mop NumR)) : R -> point :=
  trajectory (earth_radius_km + altitude_after alt ops)
             (inclination_after incl ops * PI / 180)
             (longitude_at ops) (offset_at ops).
