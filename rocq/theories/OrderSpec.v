(** The order in which frames pass from one device to another. *)
Require Import ZArith Reals List Sorted.
Require Import Verif.Base Verif.Num Verif.NumR Verif.Vec Verif.GeomSpec Verif.OrbitSpec Verif.FrameModel Verif.NetModel Verif.NetSpec Verif.AllocModel Verif.ConstellationSpec.
Import ListNotations.
Local Open Scope Z_scope.

(** What a list of receptions says about those from src to dst: time and frame. *)
Definition between (src dst : nat) (l : list (Z * pkt * nat * nat)) : list (Z * pkt) :=
  flat_map (fun x => match x with (t, p, s, d) => if Nat.eqb s src && Nat.eqb d dst then [(t, p)] else [] end)%bool l.

(** Frames that left src for dst, in the order of departure: departure, frame, time
    on the way. *)
Definition crossings (src dst : nat) (l : trace) : list (Z * pkt * Z) :=
  flat_map (fun x => match snd x with
                     | TxRx _ p s d _ delay => if Nat.eqb s src && Nat.eqb d dst then [(fst x, p, delay)] else []
                     | _ => [] end)%bool l.
Definition departure (x : Z * pkt * Z) : Z := fst (fst x).
Definition frame (x : Z * pkt * Z) : pkt := snd (fst x).
Definition arrival (x : Z * pkt * Z) : Z := fst (fst x) + snd x.

(** Conversion of seconds to whole nanoseconds: monotonic, and exact on them. *)
Definition rounding (seconds : R -> Z) : Prop :=
  forall x y k, (x <= y + sec k)%R -> seconds x <= seconds y + k.

(** Positions reported with a lag (ns): the distance between those of two instants
    is what the speed (m/s) allows in the time between them and the lag. *)
Definition drifts (from : Z) (path : Z -> point) (speed : R) (lag : Z) : Prop :=
  forall t t', from <= t <= t' -> (distance (path t) (path t') <= speed * sec (t' - t + lag))%R.

(** An end of a link: a satellite up to 40000 km high, or something that stays where it is. *)
Definition link_end (junk : point) (precision : Z) (os : list (leoorbit NumR)) (path : Z -> point) : Prop :=
  (exists o ps, satellite junk precision os path o ps /\ (0 <= lo_alt o <= 40000)%R) \/ exists g, forall t, path t = g.

(** Between the departures of any two frames there is at least a 4999th of the precision. *)
Definition tx_spaced (precision : Z) (src dst : nat) (l : trace) : Prop :=
  forall l1 x l2 y l3, crossings src dst l = l1 ++ x :: l2 ++ y :: l3 -> precision <= 4999 * (departure y - departure x).
