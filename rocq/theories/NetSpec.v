(** What the device and channel properties speak about: executions, and readings
    of a trace (the timed observations of an execution, oldest first). *)
Require Import ZArith List Bool.
Require Import Verif.Base Verif.Num Verif.FrameModel Verif.NetModel.
Import ListNotations.
Local Open Scope Z_scope.

Definition trace : Type := list (Z * obs).

(** States that some sequence of API calls and simulator events leads to. *)
Definition reachable {N : Num} crc fcs tx_time has_mob (w : world N) : Prop :=
  exists dk ck ops, run crc fcs tx_time has_mob (initial dk ck) ops = Ok w.

(** Deliveries over channel c from device src (on node a) to a device on node b.
    Received power, delay, and whether the channel refuses for lack of power: *)
Section Link.
  Context {N : Num}.
  Variable has_mob : nat -> bool.
  Variable w : world N.
  Variables c src : nat.
  Definition link_power (a b : nat) : num N :=
    let txPower := g_txp (d_cfg (w_dev w src)) in
    if has_mob a && has_mob b
    then match c_loss (w_chan w c) with Some f => f txPower a b (w_now w) | None => txPower end
    else txPower.
  Definition link_delay (a b : nat) (txTime : Z) : Z :=
    if has_mob a && has_mob b
    then match c_delay (w_chan w c) with Some f => f a b (w_now w) | None => 0 end
    else txTime.
  Definition cut_off (a b : nat) : bool :=
    match c_loss (w_chan w c) with
    | Some f => has_mob a && has_mob b &&
                nlt N (f (g_txp (d_cfg (w_dev w src))) a b (w_now w)) (nZ N (-900))
    | None => false end.

  (** The same for a destination device. *)
  Definition hears (dst : nat) : bool :=
    match node_of w src, node_of w dst with Some a, Some b => negb (cut_off a b) | _, _ => false end.
  Definition power_at (dst : nat) : num N :=
    match node_of w src, node_of w dst with Some a, Some b => link_power a b | _, _ => nZ N 0 end.
  Definition delay_to (dst : nat) (txTime : Z) : Z :=
    match node_of w src, node_of w dst with Some a, Some b => link_delay a b txTime | _, _ => 0 end.

  (** [w'] differs from [w] by the receptions of p scheduled at [dsts]. *)
  Definition receptions (p : pkt) (txTime : Z) (dsts : list nat) (w' : world N) : Prop :=
    w_now w' = w_now w /\ w_dev w' = w_dev w /\ w_chan w' = w_chan w /\
    w_log w' = w_log w ++ map (fun dst => (w_now w, TxRx c p src dst txTime (delay_to dst txTime))) dsts /\
    w_events w' = fold_left (fun l dst => insert_event (w_now w + delay_to dst txTime, RxEvent dst p src (power_at dst)) l)
                            dsts (w_events w).
End Link.

(** Events pending for the end of a transmission of device d. *)
Definition ends {N : Num} (d : nat) (events : list (Z * ev N)) : list Z :=
  flat_map (fun x => match snd x with
                     | TxComplete d' _ => if Nat.eqb d' d then [fst x] else []
                     | _ => [] end) events.

(** Packets whose transmission by d has begun, or has ended. *)
Definition begun (d : nat) (l : trace) : list pkt :=
  flat_map (fun x => match snd x with PhyTxBegin d' p => if Nat.eqb d' d then [p] else [] | _ => [] end) l.
Definition ended (d : nat) (l : trace) : list pkt :=
  flat_map (fun x => match snd x with PhyTxEnd d' p => if Nat.eqb d' d then [p] else [] | _ => [] end) l.
Definition sniffed (d : nat) (l : trace) : list pkt :=
  flat_map (fun x => match snd x with Sniffer d' p => if Nat.eqb d' d then [p] else [] | _ => [] end) l.
Definition mac_tx (d : nat) (l : trace) : list pkt :=
  flat_map (fun x => match snd x with MacTx d' p => if Nat.eqb d' d then [p] else [] | _ => [] end) l.
Definition mac_tx_drop (d : nat) (l : trace) : list pkt :=
  flat_map (fun x => match snd x with MacTxDrop d' p => if Nat.eqb d' d then [p] else [] | _ => [] end) l.

(** Beginnings (true) and ends (false) of transmissions of d. *)
Definition tx_marks (d : nat) (l : trace) : list (bool * pkt) :=
  flat_map (fun x => match snd x with
                     | PhyTxBegin d' p => if Nat.eqb d' d then [(true, p)] else []
                     | PhyTxEnd d' p => if Nat.eqb d' d then [(false, p)] else []
                     | _ => [] end) l.
Inductive alternating : list (bool * pkt) -> Prop :=
| alt_nil : alternating []
| alt_open : forall p, alternating [(true, p)]
| alt_pair : forall p l, alternating l -> alternating ((true, p) :: (false, p) :: l).

(** Is d between the beginning and the end of a transmission? *)
Definition transmitting (d : nat) (l : trace) : bool :=
  negb (Nat.eqb (length (begun d l)) (length (ended d l))).

(** Link state of d. *)
Definition link (d : nat) (l : trace) : bool :=
  fold_left (fun s x => match snd x with LinkChange d' b => if Nat.eqb d' d then b else s | _ => s end) l false.

Section Spec.
  Variable crc : list Z -> Z.
  Variable fcs : bool.

  (** The frame a Send makes of a packet. *)
  Definition frame_of (p : pkt) (dest proto own : Z) : pkt :=
    mkPkt (p_uid p) (AddHeader crc fcs own dest proto (p_bytes p)).

  (** Frames of the packets accepted by Send on d, with the time. *)
  Definition accepted (d : nat) (l : trace) : list (Z * pkt) :=
    flat_map (fun x => match snd x with
                       | Sent d' p dest q own true => if Nat.eqb d' d then [(fst x, frame_of p dest q own)] else []
                       | _ => [] end) l.
  (** Frames of all packets given to Send on d while its link was up. *)
  Fixpoint sent_up (d : nat) (up : bool) (l : trace) : list pkt :=
    match l with
    | [] => []
    | (_, LinkChange d' b) :: r => sent_up d (if Nat.eqb d' d then b else up) r
    | (_, Sent d' p dest q own _) :: r =>
        if Nat.eqb d' d && up then frame_of p dest q own :: sent_up d up r else sent_up d up r
    | _ :: r => sent_up d up r
    end.

  (** Reference transmitter: a line of waiting packets with their arrival times,
      and the time from which the transmitter is free. Each transmission must be of
      the packet at the head of the line, at the first moment both are there. *)
  Definition serve (d : nat) (s : option (list (Z * pkt) * option Z)) (x : Z * obs)
    : option (list (Z * pkt) * option Z) :=
    match s with
    | None => None
    | Some (line, free) =>
        match x with
        | (t, Sent d' p dest q own true) =>
            if Nat.eqb d' d then Some (line ++ [(t, frame_of p dest q own)], free) else s
        | (_, QueueSet d') => if Nat.eqb d' d then Some ([], free) else s
        | (t, ToChannel d' _ p _ txTime gap) =>
            if negb (Nat.eqb d' d) then s else
            match line with
            | (arrival, f) :: r =>
                let start := match free with Some u => Z.max arrival u | None => arrival end in
                if (t =? start) && (p_uid p =? p_uid f) && (if list_eq_dec Z.eq_dec (p_bytes p) (p_bytes f) then true else false)
                then Some (r, Some (t + txTime + gap)) else None
            | [] => None
            end
        | _ => s
        end
    end.
  (** Since some moment before the first packet was accepted, the queue of d has
      not been replaced. *)
  Definition queue_kept (d : nat) (l : trace) : Prop := exists l0 l1, l = l0 ++ l1 /\ accepted d l0 = [] /\
    forall t, ~ In (t, QueueSet d) l1.
  Definition service (d : nat) (l : trace) : option (list (Z * pkt) * option Z) :=
    fold_left (serve d) l (Some ([], None)).
End Spec.

(** Packets given to the channel by d: time, packet, transmission time plus gap. *)
Definition transmissions (d : nat) (l : trace) : list (Z * pkt * Z) :=
  flat_map (fun x => match snd x with
                     | ToChannel d' _ p _ txTime gap => if Nat.eqb d' d then [(fst x, p, txTime + gap)] else []
                     | _ => [] end) l.

(** Start times of customers arriving at [arrivals] and being served for
    [durations], one after the other, first come first served. *)
Fixpoint first_come (free : option Z) (arrivals durations : list Z) : list Z :=
  match arrivals, durations with
  | a :: ar, u :: ur =>
      let start := match free with Some f => Z.max a f | None => a end in
      start :: first_come (Some (start + u)) ar ur
  | _, _ => []
  end.

(** Power at the antenna output of a receiver. *)
Definition effective_power {N : Num} (g : cfg N) (rxPower : num N) : num N :=
  match g_kind g with Plain => rxPower | Gnd | Sat => nadd N (nsub N rxPower (g_loss g)) (g_gain g) end.

(** A frame whose last four bytes are not the checksum of the rest. *)
Definition bad_fcs (crc : list Z -> Z) (fcs : bool) (bytes : list Z) : Prop :=
  fcs = true /\ forall body trailer, bytes = body ++ trailer -> length trailer = 4%nat ->
                 of_le trailer <> crc body mod 2 ^ 32.

(** Reasons to drop a frame at the physical layer. *)
Definition phy_drop {N : Num} (crc : list Z -> Z) (fcs : bool) (g : cfg N) (now : Z) (p : pkt) (rxPower : num N) : Prop :=
  nlt N (effective_power g rxPower) (g_thr g) = true \/
  (exists f, g_err g = Some f /\ f now p = true) \/
  bad_fcs crc fcs (p_bytes p).

(** Destination and source in a frame. *)
Definition frame_dst (bytes : list Z) : Z := of_be (firstn 6 bytes).
Definition frame_src (bytes : list Z) : Z := of_be (firstn 6 (skipn 6 bytes)).

(** The kinds of destination, for a device with address [own]. *)
Definition kind_of (own dst : Z) (t : ptype) : Prop :=
  match t with
  | PBroadcast => dst = 2 ^ 48 - 1
  | PHost => dst = own /\ dst <> 2 ^ 48 - 1
  | PMulticast => dst <> own /\ dst <> 2 ^ 48 - 1 /\ Z.testbit dst 40 = true
  | POtherHost => dst <> own /\ dst <> 2 ^ 48 - 1 /\ Z.testbit dst 40 = false
  end.

(** The latest accepted Send of d that found it not transmitting, in trace l,
    was for [dest]. *)
Definition opened (d : nat) (dest : Z) (l : trace) : Prop :=
  exists l1 l2 t p q own, l = l1 ++ (t, Sent d p dest q own true) :: l2 /\ transmitting d l1 = false /\
  forall l3 l4 t' p' dest' q' own', l2 = l3 ++ (t', Sent d p' dest' q' own' true) :: l4 ->
    transmitting d (l1 ++ (t, Sent d p dest q own true) :: l3) = true.

(** Executions from [w] in which no device out of [who] gets another address or
    another type while it is attached to a LEO channel. *)
Definition keeps {N : Num} (who : nat -> Prop) (w : world N) (o : op N) : Prop :=
  match o with
  | OSet d (CAddress _) | OSet d (CType _) =>
      who d -> forall c, c_kind (w_chan w c) = LeoChannel -> ~ In d (c_link (w_chan w c))
  | _ => True
  end.
Fixpoint steady {N : Num} crc fcs tx_time has_mob (who : nat -> Prop) (w : world N) (ops : list (op N)) : Prop :=
  match ops with
  | [] => True
  | o :: r => keeps who w o /\
      match step crc fcs tx_time has_mob w o with
      | Ok w1 => steady crc fcs tx_time has_mob who w1 r
      | _ => True
      end
  end.

(** Different devices attached to c have different addresses. *)
Definition distinct_addresses {N : Num} (w : world N) (c : nat) : Prop :=
  forall x y, In x (c_link (w_chan w c)) -> In y (c_link (w_chan w c)) -> addr_of w x = addr_of w y -> x = y.

(** Receptions (time, packet, sender, receiver) that were scheduled, that took
    place, and that are pending. *)
Definition scheduled (l : trace) : list (Z * pkt * nat * nat) :=
  flat_map (fun x => match snd x with TxRx _ p src dst _ delay => [(fst x + delay, p, src, dst)] | _ => [] end) l.
Definition performed (l : trace) : list (Z * pkt * nat * nat) :=
  flat_map (fun x => match snd x with
                     | PhyRxEnd d p src => [(fst x, p, src, d)]
                     | MacRxDrop d p => [(fst x, p, d, d)]
                     | _ => [] end) l.
Definition waiting {N : Num} (l : list (Z * ev N)) : list (Z * pkt * nat * nat) :=
  flat_map (fun x => match snd x with RxEvent dst p src _ => [(fst x, p, src, dst)] | _ => [] end) l.
