(** What the scenarios of the two example programs should consist of. *)
Require Import ZArith Reals List Bool String.
From Flocq Require Import IEEE754.BinarySingleNaN.
Require Import Verif.NumR Verif.Num64 Verif.GeomSpec Verif.Base Verif.Num Verif.Vec Verif.MobilityModel Verif.AllocModel Verif.LossModel Verif.FrameModel Verif.NetModel
  Verif.HelperModel Verif.LeoHelperModel Verif.ScenarioModel Verif.AllocSpec Verif.NetRunSpec Verif.HelperSpec Verif.LeoHelperSpec Verif.ConstellationSpec.
Import ListNotations.
Local Open Scope Z_scope.

Section Spec.
  Context {N : Num}.

  (** Satellites in the order of their nodes, and how many gateways a grid has: the
      product of two uint32_t. *)
  Definition fleet (o : options N) : list (leoorbit N * (Z * Z)) := List.concat (map satellites (op_orbits o)).
  Definition gateways (o : options N) : nat := Z.to_nat ((op_latGws o * op_lonGws o) mod 2 ^ 32).
  (** The two users are the last nodes. *)
  Definition client (o : options N) : nat := (List.length (fleet o) + gateways o)%nat.
  Definition server (o : options N) : nat := S (client o).

  (** The options are values of their C++ types. *)
  Definition well_typed (o : options N) : Prop :=
    Forall (fun x => u16 (lo_planes x) /\ u16 (lo_sats x)) (op_orbits o) /\ 0 <= op_latGws o < 2 ^ 32 /\ 0 <= op_lonGws o < 2 ^ 32.
  (** What can be set up: orbits that can be installed, a known link class, and no more
      nodes than a 16 bit network has addresses. *)
  Definition feasible (o : options N) : Prop :=
    Forall installable (op_orbits o) /\ In (op_constellation o) (map ps_name published) /\ Z.of_nat (S (server o)) <= 65534.

  (** The positions by node are those of the scenario. *)
  Definition placed (junk : vec N) (s : scenario N) (pos : nat -> Z -> vec N) : Prop :=
    (forall i m, nth_error (sc_sats s) i = Some m -> moves junk m (pos i)) /\
    (forall j g, nth_error (sc_stations s) j = Some g -> forall t, pos (List.length (sc_sats s) + j)%nat t = g).

  (** The addresses of a network with [n] devices, the first being [d]. *)
  Definition addressed (base : Z) (d n : nat) : list (nat * Z) := map (fun i => ((d + i)%nat, base + 1 + Z.of_nat i)) (seq 0 n).

  (** The networks: one device of the link class [p] on every node, named like the node,
      and, if enabled, one more on every satellite. *)
  Definition built (pos : nat -> Z -> vec N) (seconds : num N -> Z) (o : options N) (p : preset) (w : world N) : Prop :=
    let n := List.length (fleet o) in
    let m := S (server o) in
    w_now w = 0 /\ at_rest w /\
    (forall x, (x < m)%nat -> set_up w x x (Z.of_nat x + 1) (if Nat.ltb x n then Sat else Gnd) 0 x /\
       let g := d_cfg (w_dev w x) in
       g_bps g = ps_rate p /\ g_gap g = 0 /\ g_txp g = ndec N (ps_eirp p) 1 /\ g_gain g = ndec N (ps_gain p) 1 /\ g_loss g = nZ N 0 /\
       g_thr g = nZ N (-1000) /\ g_err g = None) /\
    star w 0 0 n (m - n) 1 /\
    c_loss (w_chan w 0%nat) = Some (leo_loss pos (preset_loss p)) /\ c_delay (w_chan w 0%nat) = Some (constant_speed pos seconds (nZ N 299702458)) /\
    (forall i, (i < n)%nat -> op_islEnabled o = true -> set_up w (m + i) i (Z.of_nat (m + i) + 1) Plain 1 i /\
       let g := d_cfg (w_dev w (m + i)) in
       g_bps g = op_rate o /\ g_gap g = 0 /\ g_txp g = nZ N 1 /\ g_thr g = nZ N (-1000) /\ g_err g = None) /\
    (op_islEnabled o = true -> c_kind (w_chan w 1%nat) = IslChannel /\ c_link (w_chan w 1%nat) = seq m n /\
       c_loss (w_chan w 1%nat) = Some (isl_loss pos) /\ c_delay (w_chan w 1%nat) = Some (constant_speed pos seconds (nZ N 299792458))) /\
    (forall x, (m + (if op_islEnabled o then n else 0) <= x)%nat -> d_chan (w_dev w x) = None).

  (** Where station [j] is meant to be in exact arithmetic: the gateways on the grid of
      C15, the users, as GetEarthPosition places them, at twice their latitude from the
      pole. *)
  Definition place (val : num N -> R) (o : options N) (j : nat) : point :=
    if Nat.ltb j (gateways o) then grid_point (op_latGws o) (op_lonGws o) (grid (op_latGws o) (op_lonGws o) (Z.of_nat j))
    else let u := if Nat.eqb j (gateways o) then op_source o else op_destination o in
         sphere_point (2 * val (ll_lat u) * PI / 180)%R (val (ll_lon u) * PI / 180)%R.
End Spec.

(** A user's coordinates in doubles, in degrees. *)
Definition coordinates {fsin fcos ftan : b64 -> b64} (u : latlong (Num64 fsin fcos ftan)) : Prop :=
  is_finite (ll_lat u : b64) = true /\ (Rabs (B2R (ll_lat u : b64)) <= 360)%R /\ is_finite (ll_lon u : b64) = true /\ (Rabs (B2R (ll_lon u : b64)) <= 360)%R.
