(** Which places on Earth the satellites of a plane, or of all planes, reach. *)
Require Import ZArith Reals List.
Require Import Verif.Base Verif.Num Verif.NumR Verif.Vec Verif.AllocModel Verif.FrameModel Verif.NetModel Verif.HelperModel
  Verif.GeomSpec Verif.OrbitSpec Verif.AllocSpec Verif.LossSpec Verif.NetSpec Verif.ConstellationSpec.
Local Open Scope R_scope.

(** Length of what is left of [g] when it is projected to the plane through the centre of
    the Earth that has the unit normal [n]. *)
Definition in_plane (g n : point) : R := norm (minus g (scale (inner n g) n)).

(** Normal of the orbital plane [p] of [o] at time [tau]. *)
Definition orbit_normal (o : leoorbit NumR) (p tau : Z) : point :=
  plane_normal (lo_inc o * PI / 180) (turn p (lo_planes o) + earth_rate * sec tau).

(** By the law of cosines, a point at distance [r] from the centre is at distance [D] from
    [g] if its inner product with [g] is this. *)
Definition law_of_cosines (r D : R) (g : point) : R := (norm g * norm g + r * r - D * D) / 2.

(** On a LEO channel: device [d] of a station at [g], and device [dev p j] of the satellite in place [j] of
    plane [p]. Either is loud enough for the loss
    model not to cut it off where there is a line of sight. *)
Definition station_and_fleet (junk : point) (precision : Z) (os : list (leoorbit NumR)) (pos : nat -> Z -> point) (has_mob : nat -> bool)
    (e atm fspl margin : R) (w : world NumR) (c d : nat) (g : point) (o : leoorbit NumR) (dev : Z -> Z -> nat) (planes : Z -> Prop) : Prop :=
  let strong x := -900 <= g_txp (d_cfg (w_dev w x)) - atm - fspl - margin in
  (exists b, node_of w d = Some b /\ has_mob b = true /\ pos b (w_now w) = g) /\ strong d /\
  (forall p j, planes p -> (0 <= j < lo_sats o)%Z -> strong (dev p j) /\
     exists a, node_of w (dev p j) = Some a /\ has_mob a = true /\ satellite junk precision os (pos a) o (p, j)) /\
  c_loss (w_chan w c) = Some (leo_loss pos (leo_model e atm fspl margin)).
