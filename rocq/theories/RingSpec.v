(** Satellites that follow each other in one orbital plane. *)
Require Import ZArith Reals List.
Require Import Verif.Base Verif.Num Verif.NumR Verif.FrameModel Verif.NetModel Verif.NetSpec Verif.OrbitSpec Verif.AllocModel Verif.ConstellationSpec Verif.HelperModel Verif.RelaySpec Verif.GeomSpec.
Import ListNotations.
Local Open Scope Z_scope.

(** Half the angle between places [j] and [k] of a plane of [S] satellites. *)
Definition half_gap (S j k : Z) : R := (PI * IZR (j - k) / IZR S)%R.

(** All positions that are reported at time [t] are those of one instant. *)
Definition one_instant (precision t : Z) : Prop := precision <= 0 \/ t mod precision <> 0.

(** Orbit radius, metres. *)
Definition radius (o : leoorbit NumR) : R := (1000 * (earth_radius_km + lo_alt o))%R.

(** Devices [dev 0], [dev 1], ... on the inter-satellite channel [c], on the satellites in
    the places j, j + 1, ... of plane [pl] of orbit [o]: attached, up, with a unicast
    address, idle and without waiting packets, with a queue that admits one, and able to
    receive what the device before sends. *)
Definition ring_device (junk : point) (precision : Z) (os : list (leoorbit NumR)) (pos : nat -> Z -> point) (has_mob : nat -> bool)
    (tx_time : Z -> Z -> Z) (w : world NumR) (c : nat) (o : leoorbit NumR) (pl j : Z) (dev : nat -> nat) (i : nat) : Prop :=
  let d := w_dev w (dev i) in let g := d_cfg d in
  (exists a, g_node g = Some a /\ has_mob a = true /\ satellite junk precision os (pos a) o (pl, (j + Z.of_nat i) mod lo_sats o)) /\
  d_chan d = Some c /\ nth_error (c_link (w_chan w c)) (d_id d) = Some (dev i) /\ d_up d = true /\
  d_busy d = false /\ d_q d = [] /\
  (exists admit, d_queue d = Some admit /\ forall f, admit [] f = true) /\
  (forall n, 0 <= tx_time (g_bps g) n + g_gap g) /\
  (0 <= g_addr g < 2 ^ 48 /\ g_addr g <> 2 ^ 48 - 1 /\ Z.testbit (g_addr g) 40 = false) /\
  (-900 <= g_txp g)%R /\ g_err g = None /\ g_rxcb g = true /\
  (g_thr g <= effective_power g (g_txp (d_cfg (w_dev w (dev (pred i))))))%R.

(** The path along the ring. *)
Definition ring_path (c : nat) (dev : nat -> nat) (n : nat) : list hop :=
  map (fun i => mkHop (dev i) c (dev (S i))) (seq 0 n).
