(** Where a received frame comes from. *)
Require Import ZArith List Bool.
Require Import Verif.Base Verif.Num Verif.FrameModel Verif.NetModel Verif.NetSpec Verif.NetRunSpec.
Import ListNotations.
Local Open Scope Z_scope.

(** In the execution [ops] from [start], frame p was handed by src to its channel c in
    one step; that transmission was for dst, the link was open then, and T is that
    time plus the delay of the link. *)
Definition origin {N : Num} crc fcs tx_time has_mob (start : world N) (ops : list (op N)) (T : Z) (dst src : nat) (p : pkt) (power : num N) : Prop :=
  exists ops1 o ops2 w w1 new c dest tx gap,
    ops = ops1 ++ o :: ops2 /\ run crc fcs tx_time has_mob start ops1 = Ok w /\ step crc fcs tx_time has_mob w o = Ok w1 /\
    w_log w1 = w_log w ++ new /\ In (w_now w1, ToChannel src c p dest tx gap) new /\ d_chan (w_dev w1 src) = Some c /\
    recipient w1 c src dest dst /\ hears has_mob w1 c src dst = true /\
    T = w_now w1 + delay_to has_mob w1 c src dst tx /\ power = power_at has_mob w1 c src dst.

(** What device d checked before it passed on, at time T, the frame p from src: it is not
    its own, it is whole, strong enough, not rejected by the error model, and for d. *)
Definition accepted {N : Num} crc fcs (w : world N) (T : Z) (d src : nat) (payload : list Z) (q from to own : Z) (p : pkt) (power : num N) : Prop :=
  let g := d_cfg (w_dev w d) in
  src <> d /\ Decapsulate crc fcs (p_bytes p) = Ok (Frame payload q from to) /\ own = g_addr g /\
  nlt N (effective_power g power) (g_thr g) = false /\ (forall f, g_err g = Some f -> f T p = false) /\
  (to = 2 ^ 48 - 1 \/ to = g_addr g \/ Z.testbit to 40 = true).

(** Operations that send, let time pass or run events; devices, channels and models
    stay as configured. *)
Definition traffic {N : Num} (o : op N) : Prop :=
  match o with OSend _ _ _ _ | OAdvance _ | ORun | OLinkDown _ | OSetQueue _ _ => True | _ => False end.
