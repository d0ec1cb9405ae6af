(** Where ground stations set up in doubles are meant to be. *)
Require Import ZArith Reals List.
From Flocq Require Import IEEE754.BinarySingleNaN.
Require Import Verif.Base Verif.Num Verif.NumR Verif.Num64 Verif.Vec Verif.AllocModel Verif.GeomSpec Verif.OrbitSpec Verif.AllocSpec.
Local Open Scope R_scope.

(** [g] is a ground station of InstallGrid or InstallLocations; [G] is where it is
    in exact arithmetic. *)
Definition ground_station {fsin fcos ftan : b64 -> b64} (g : vec (Num64 fsin fcos ftan)) (G : point) : Prop :=
  (exists L M l i, InstallGrid L M = Ok l /\ nth_error l i = Some g /\ (0 < L < 4294967295)%Z /\ (0 < M < 4294967296)%Z /\
     G = grid_point L M (grid L M (Z.of_nat i))) \/
  (exists l i lat lon, nth_error (InstallLocations l) i = Some g /\ nth_error l i = Some (mkLatLong lat lon) /\
     is_finite (lat : b64) = true /\ Rabs (B2R (lat : b64)) <= 360 /\ is_finite (lon : b64) = true /\ Rabs (B2R (lon : b64)) <= 360 /\
     G = sphere_point (2 * B2R (lat : b64) * PI / 180) (B2R (lon : b64) * PI / 180)).

(** The trajectory of the satellite in a place (plane, number) of an orbit with
    parameters in doubles. *)
Definition sat_path64 {fsin fcos ftan : b64 -> b64} (o : leoorbit (Num64 fsin fcos ftan)) (ps : Z * Z) (t : R) : point :=
  trajectory (earth_radius_km + B2R (lo_alt o : b64)) (B2R (lo_inc o : b64) * PI / 180)
    (turn (fst ps) (lo_planes o)) (turn (snd ps) (lo_sats o)) t.

(** Altitudes up to a million km, inclinations up to a full turn. *)
Definition sane_orbit {fsin fcos ftan : b64 -> b64} (o : leoorbit (Num64 fsin fcos ftan)) : Prop :=
  is_finite (lo_alt o : b64) = true /\ 0 <= B2R (lo_alt o : b64) <= 1000000 /\ is_finite (lo_inc o : b64) = true /\ Rabs (B2R (lo_inc o : b64)) <= 360.
