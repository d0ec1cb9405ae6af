(** What the accounting properties speak about: readings of a trace. *)
Require Import ZArith String List Bool.
Require Import Verif.Base Verif.Num Verif.FrameModel Verif.NetModel Verif.NetSpec.
Import ListNotations.
Local Open Scope Z_scope.

(** What a user of the options expects in the file, without the byte count: time, device,
    source, packet. *)
Definition noted (traceDrops traceTxRx : bool) (x : Z * obs) : list (Z * nat * string * pkt) :=
  match snd x with
  | MacTxDrop d p => if traceDrops then [(fst x, d, "MacTxDrop"%string, p)] else []
  | PhyTxDrop d p => if traceDrops then [(fst x, d, "PhyTxDrop"%string, p)] else []
  | MacRxDrop d p => if traceDrops then [(fst x, d, "MacRxDrop"%string, p)] else []
  | PhyRxDrop d p => if traceDrops then [(fst x, d, "PhyRxDrop"%string, p)] else []
  | MacTx d p => if traceTxRx then [(fst x, d, "MacTx"%string, p)] else []
  | MacRx d p => if traceTxRx then [(fst x, d, "MacRx"%string, p)] else []
  | _ => []
  end.
Definition total (f : pkt -> Z) (l : list pkt) : Z := fold_right (fun p s => f p + s) 0 l.

(** Calls of Send on d among operations. *)
Definition sends_on {N : Num} (d : nat) (ops : list (op N)) : nat :=
  length (filter (fun o => match o with OSend d' _ _ _ => Nat.eqb d' d | _ => false end) ops).

(** Number of observations of d of one kind. *)
Definition at_dev (d : nat) (f : obs -> option nat) (l : trace) : nat :=
  length (filter (fun x => match f (snd x) with Some d' => Nat.eqb d' d | None => false end) l).
Definition phy_rx_end (o : obs) : option nat := match o with PhyRxEnd d _ _ => Some d | _ => None end.
Definition phy_rx_drop (o : obs) : option nat := match o with PhyRxDrop d _ => Some d | _ => None end.
Definition mac_rx_drop (o : obs) : option nat := match o with MacRxDrop d _ => Some d | _ => None end.
Definition mac_rx (o : obs) : option nat := match o with MacRx d _ => Some d | _ => None end.
(** Receptions at d that the channels scheduled, and those that are still to come. *)
Definition coming (d : nat) (l : list (Z * pkt * nat * nat)) : nat :=
  length (filter (fun x => Nat.eqb (snd x) d) l).

(** Receptions at d which neither PhyRxDrop nor MacRx of d follows before the next one. *)
Definition hear (d : nat) (s : bool * nat) (x : Z * obs) : bool * nat :=
  match snd x with
  | PhyRxEnd d' _ _ => if Nat.eqb d' d then (true, (if fst s then 1 else 0) + snd s)%nat else s
  | PhyRxDrop d' _ | MacRx d' _ => if Nat.eqb d' d then (false, snd s) else s
  | _ => s
  end.
Definition unreported (d : nat) (l : trace) : nat :=
  let s := fold_left (hear d) l (false, O) in ((if fst s then 1 else 0) + snd s)%nat.

(** The next event is the reception of a good frame that is for another host. *)
Definition for_another {N : Num} crc fcs (d : nat) (w : world N) : Prop :=
  exists t p src power r, w_events w = (t, RxEvent d p src power) :: r /\ src <> d /\
    ~ phy_drop crc fcs (d_cfg (w_dev w d)) t p power /\
    kind_of (g_addr (d_cfg (w_dev w d))) (frame_dst (p_bytes p)) POtherHost.
