(** What the properties on attributes, disposal and flow control of devices speak about. *)
Require Import ZArith List Bool.
Require Import Verif.Base Verif.Num Verif.FrameModel Verif.NetModel Verif.NetSpec Verif.TraceModel Verif.LifeModel.
Import ListNotations.
Local Open Scope Z_scope.

(** The calls of an execution that concern the network. *)
Definition net_ops {N : Num} (l : list (call N)) : list (op N) :=
  flat_map (fun o => match o with YNet o => [o] | _ => [] end) l.
(** Calls that set or read attributes, and SendFrom. *)
Definition idle_call {N : Num} (o : call N) : Prop :=
  match o with YSetMtu _ _ | YSetIfIndex _ _ | YSendFrom _ _ _ _ _ => True | _ => False end.
Definition disposes {N : Num} (o : call N) : Prop := match o with YDispose _ => True | _ => False end.
(** The last value written. *)
Definition last_mtu {N : Num} (d : nat) (l : list (call N)) (default : Z) : Z :=
  fold_left (fun v o => match o with YSetMtu d' m => if Nat.eqb d' d then m mod 2 ^ 16 else v | _ => v end) l default.
Definition last_index {N : Num} (d : nat) (l : list (call N)) (default : option Z) : option Z :=
  fold_left (fun v o => match o with YSetIfIndex d' i => if Nat.eqb d' d then Some i else v | _ => v end) l default.

Definition net_or_idle {N : Num} (o : call N) : Prop := match o with YNet _ => True | _ => idle_call o end.
(** States that some sequence of calls and simulator events leads to. *)
Definition yreachable {N : Num} crc fcs tx_time has_mob (y : system N) : Prop :=
  exists dk ck ops, yrun crc fcs tx_time has_mob (new_system (initial dk ck)) ops = Ok y.

(** Two outcomes that agree up to a relation between results. *)
Definition agree {A B : Type} (R : A -> B -> Prop) (x : res A) (y : res B) : Prop :=
  match x, y with
  | Ok a, Ok b => R a b
  | Abort e, Abort f => e = f
  | UB e, UB f => e = f
  | _, _ => False
  end.

(** Nothing will call device d by itself: no event is pending for it, it is on no
    inter-satellite channel and in no index of a LEO channel. *)
Definition apart {N : Num} (d : nat) (w : world N) : Prop :=
  (forall t dest, ~ In (t, TxComplete d dest) (w_events w)) /\
  (forall t p src power, ~ In (t, RxEvent d p src power) (w_events w)) /\
  (forall c, match c_kind (w_chan w c) with
             | IslChannel => ~ In d (c_link (w_chan w c))
             | LeoChannel => forall a, ~ In (a, d) (c_gnd (w_chan w c)) /\ ~ In (a, d) (c_sat (w_chan w c))
             end).
(** A channel whose delays are not negative now. *)
Definition timed {N : Num} (w : world N) (c : nat) : Prop :=
  forall f a b, c_delay (w_chan w c) = Some f -> 0 <= f a b (w_now w).
(** Operations that are not calls of device d. *)
Definition elsewhere_op {N : Num} (d : nat) (o : op N) : Prop :=
  match o with
  | OSend e _ _ _ | OSet e _ | OSetQueue e _ | OAttach e _ | OLinkDown e => e <> d
  | _ => True
  end.
(** Worlds that agree on everything but device d. *)
Definition same_but {N : Num} (d : nat) (w v : world N) : Prop :=
  w_now v = w_now w /\ w_chan v = w_chan w /\ w_events v = w_events w /\ w_log v = w_log w /\
  (forall e, e <> d -> w_dev v e = w_dev w e).

(** Bytes waiting in the queue of a device; bytes that interface q was told to be
    waiting: enqueued less dequeued. *)
Definition bytes (l : list pkt) : Z := fold_right (fun p n => Z.of_nat (length (p_bytes p)) + n) 0 l.
Definition told (q : nat) (notes : list (nat * source * pkt)) : Z :=
  fold_right (fun x n => let '(i, s, p) := x in
                if Nat.eqb i q then match s with
                                    | SEnqueue => Z.of_nat (length (p_bytes p)) + n
                                    | SDequeue => n - Z.of_nat (length (p_bytes p))
                                    | _ => n end
                else n) 0 notes.
(** Calls that leave the queues, their connections and the devices alone. *)
Definition keeps_queues {N : Num} (o : call N) : Prop :=
  match o with
  | YConnect _ _ | YInitialize _ | YDispose _ => False
  | YNet (OSetQueue _ _) => False
  | _ => True
  end.

(** The last value that the operations of a list gave to something. *)
Definition last_given {N : Num} {A : Type} (f : op N -> option A) (ops : list (op N)) (default : A) : A :=
  fold_left (fun v o => match f o with Some x => x | None => v end) ops default.
(** The settings of device d among the operations. *)
Definition given {N : Num} {A : Type} (d : nat) (f : setting N -> option A) (o : op N) : option A :=
  match o with OSet e s => if Nat.eqb e d then f s else None | _ => None end.

(** Calls that have nothing to do with the queue of d and its interface. *)
Definition leaves_queue {N : Num} (d : nat) (o : call N) : Prop :=
  match o with
  | YConnect e _ | YInitialize e | YDispose e | YAggregate e (Some _) | YNet (OSetQueue e _) => e <> d
  | _ => True
  end.
