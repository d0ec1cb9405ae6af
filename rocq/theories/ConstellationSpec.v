(** Satellites that are left alone by the program, and what their network should do. *)
Require Import ZArith Reals List.
Require Import Verif.Base Verif.Num Verif.NumR Verif.Vec Verif.MobilityModel Verif.GeomSpec Verif.OrbitSpec Verif.AllocModel Verif.AllocSpec.
Import ListNotations.
Local Open Scope Z_scope.

Section Alone.
  Context {N : Num}.
  (** Nothing but time passing and the simulator running the pending updates. *)
  Definition passive (op : mop N) : Prop := op = OFire \/ exists t, op = OAdvance t.

  (** [s] is what becomes of [s0] until time [t]: all updates due before [t] have
      run; one due at [t] may have. *)
  Definition left_alone (junk : vec N) (s0 : mob N) (t : Z) (s : mob N) : Prop :=
    exists ops, Forall passive ops /\ mrun junk s0 ops = Ok s /\ s_now s = t /\ Forall (fun x => t <= x) (s_pending s).

  (** [path] tells where GetPosition finds the satellite. *)
  Definition moves (junk : vec N) (s0 : mob N) (path : Z -> vec N) : Prop :=
    forall t, 0 <= t -> exists s, left_alone junk s0 t s /\ path t = DoGetPosition junk s.
End Alone.

(** [tau] is the instant whose position is reported at time [t]: the last multiple
    of the precision, at a multiple itself also the one before; the present for
    precision 0; the start for a negative one. *)
Definition refreshed (precision t tau : Z) : Prop :=
  (0 < precision /\ exists k, 0 <= k /\ tau = k * precision /\ tau <= t <= tau + precision) \/
  (precision = 0 /\ tau = t) \/
  (precision < 0 /\ tau = 0).

(** The trajectory of the satellite in a place (plane, number) of an orbit. *)
Definition sat_path (o : leoorbit NumR) (ps : Z * Z) (tau : Z) : point :=
  trajectory (earth_radius_km + lo_alt o)%R (lo_inc o * PI / 180)%R (turn (fst ps) (lo_planes o)) (turn (snd ps) (lo_sats o)) (sec tau).

(** The speed at which a satellite can change its position (m/s): that along its
    orbit as the code advances it, and that of the turning Earth. *)
Definition ground_speed (r_km i : R) : R := (1000 * r_km * (Rabs (angular_rate r_km i) + earth_rate))%R.

(** [path] is where a node finds itself whose mobility model is the satellite in
    the place [ps] of the orbit [o], installed at time 0 with the others of [os]. *)
Definition satellite {N : Num} (junk : vec N) (precision : Z) (os : list (leoorbit N)) (path : Z -> vec N) (o : leoorbit N) (ps : Z * Z) : Prop :=
  exists nodes i s, InstallOrbits precision junk 0 os = Ok nodes /\ nth_error nodes i = Some s /\
    nth_error (concat (map satellites os)) i = Some (o, ps) /\ moves junk s path.
