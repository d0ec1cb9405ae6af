(** Contacts between a ground station and a satellite. *)
Require Import ZArith Reals.
Require Import Verif.Num Verif.NumR Verif.AllocModel Verif.NetModel Verif.HelperModel Verif.GeomSpec Verif.OrbitSpec Verif.NetSpec Verif.NetRunSpec Verif.ConstellationSpec.
Local Open Scope R_scope.

(** Angle by which a satellite moves along its orbit in a second. *)
Definition pace (o : leoorbit NumR) : R := Rabs (angular_rate (earth_radius_km + lo_alt o) (lo_inc o * PI / 180)).

(** One of two devices hears the other. *)
Definition in_touch (has_mob : nat -> bool) (w : world NumR) (c a b : nat) : Prop :=
  hears has_mob w c a b = true \/ hears has_mob w c b a = true.
