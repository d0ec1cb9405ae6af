(** What the propagation models should compute, over the reals. *)
Require Import Reals.
Require Import Verif.Num Verif.NumR Verif.Vec Verif.LossModel Verif.GeomSpec.
Local Open Scope R_scope.

(** Earth radius used by the inter-satellite and by the ground link model (m). *)
Definition isl_earth_radius : R := 6371009.
Definition leo_earth_radius : R := 6371010.

Definition radians (deg : R) : R := deg * PI / 180.

(** A LeoPropagationLossModel whose attributes were set to these values
    (ElevationAngle in degrees, losses in dB). *)
Definition leo_model (elevation_deg atmospheric fspl margin : R) : leoloss NumR :=
  @mkLeoLoss NumR (@SetElevationAngle NumR elevation_deg) atmospheric fspl margin.

Definition budget (tx atmospheric fspl margin : R) : R := tx - atmospheric - fspl - margin.

(** Slant range at which the line of sight of a satellite at radius [h], under
    depression angle [e] against the satellite's horizontal, meets the sphere of
    radius [rad]. *)
Definition slant_range (rad h e : R) : R :=
  sqrt ((h * sin e) * (h * sin e) + h * h - rad * rad) - h * sin e.

Definition farther (a b : point) : R := Rmax (norm a) (norm b).
