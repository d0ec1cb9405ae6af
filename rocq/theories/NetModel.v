(** Devices and channels in the simulator: model/mock-net-device.{h,cc},
    model/leo-mock-net-device.{h,cc}, model/mock-channel.{h,cc},
    model/isl-mock-channel.cc, model/leo-mock-channel.cc.

    Simplifications, for all of this file: objects are named by natural numbers
    (every number names a device and a channel in its initial state until it is
    configured); a packet given to Send is not shared with another packet; trace
    sinks and callbacks do not call back into the device in the middle of an
    operation (what a receive callback sends is a later Send at the same time);
    less than 2^31 attachments per channel; Time does not overflow; DoDispose, the
    NetDeviceQueueInterface and attributes that the data path does not read are in
    LifeModel.v. *)
Require Import ZArith List Bool.
Require Import Verif.Base Verif.Num Verif.FrameModel.
Import ListNotations.
Local Open Scope Z_scope.
Local Open Scope res_scope.

Definition upd {A : Type} (f : nat -> A) (i : nat) (v : A) : nat -> A :=
  fun j => if Nat.eqb j i then v else f j.

(** ns3::Address: a Mac48Address (as a 48-bit number) or something else. *)
Inductive address : Type :=
| Mac (a : Z)
| OtherAddress.

(** Packet: its uid and its bytes. *)
Record pkt : Type := mkPkt { p_uid : Z; p_bytes : list Z }.

Definition broadcast : Z := 281474976710655.
(** Mac48Address::IsGroup: lowest bit of the first byte *)
Definition is_group (a : Z) : bool := Z.odd (a / 1099511627776).

(** Class and DeviceType of a device (leo-mock-net-device.h:41-47). *)
Inductive dkind : Type := Plain | Gnd | Sat.
Inductive ckind : Type := IslChannel | LeoChannel.
Inductive ptype : Type := PBroadcast | PHost | PMulticast | POtherHost.

Section Net.
  Variable N : Num.
  (** Checksum function, Node::ChecksumEnabled, DataRate::CalculateBytesTxTime
      (rate, bytes; in ns), and which nodes have a mobility model. *)
  Variable crc : list Z -> Z.
  Variable fcs : bool.
  Variable tx_time : Z -> Z -> Z.
  Variable has_mob : nat -> bool.

  (** Attributes and pointers set from outside. *)
  Record cfg : Type := mkCfg {
    g_kind : dkind;
    g_node : option nat;
    g_addr : Z;
    g_bps : Z;
    g_gap : Z;
    g_thr : num N;
    g_txp : num N;
    g_gain : num N;
    g_loss : num N;
    g_err : option (Z -> pkt -> bool);   (* error model: verdict by time and packet *)
    g_rxcb : bool;                       (* receive callback installed *)
    g_pcb : bool                         (* promiscuous callback installed *)
  }.

  (** mock-net-device.h, members. [d_queue] is the admission rule of the queue
      object, [d_q] its content. *)
  Record dev : Type := mkDev {
    d_cfg : cfg;
    d_queue : option (list pkt -> pkt -> bool);
    d_q : list pkt;
    d_busy : bool;             (* m_txMachineState == BUSY *)
    d_cur : option pkt;        (* m_currentPkt *)
    d_chan : option nat;       (* m_channel *)
    d_id : nat;                (* m_channelDevId *)
    d_up : bool                (* m_linkUp *)
  }.

  (** mock-channel.h:148-160 and leo-mock-channel.h:86-92. Loss and delay models
      are functions of the (transmit power and the) two nodes and the time. *)
  Record chan : Type := mkChan {
    c_kind : ckind;
    c_link : list nat;
    c_gnd : list (Z * nat);    (* m_groundDevices, by increasing address *)
    c_sat : list (Z * nat);    (* m_satelliteDevices *)
    c_loss : option (num N -> nat -> nat -> Z -> num N);
    c_delay : option (nat -> nat -> Z -> Z)
  }.

  (** Pending simulator events. *)
  Inductive ev : Type :=
  | TxComplete (d : nat) (dest : Z)                               (* mock-net-device.cc:335 *)
  | RxEvent (dst : nat) (p : pkt) (src : nat) (power : num N).    (* mock-channel.cc:193-199 *)

  (** What can be observed from outside: trace sources, callbacks, plus the calls
      [Sent] (a Send of a packet with a destination, protocol, the device's address
      at that time, and the result), [ToChannel] (the call of the channel's
      TransmitStart) and [QueueSet]. The receive callbacks carry the sending
      device, and RxCallback the destination and the receiver's own address, as
      ghost information. *)
  Inductive obs : Type :=
  | Sent (d : nat) (p : pkt) (dest proto own : Z) (ok : bool)
  | MacTx (d : nat) (p : pkt)
  | MacTxDrop (d : nat) (p : pkt)
  | PhyTxBegin (d : nat) (p : pkt)
  | PhyTxEnd (d : nat) (p : pkt)
  | PhyTxDrop (d : nat) (p : pkt)
  | Sniffer (d : nat) (p : pkt)
  | PromiscSniffer (d : nat) (p : pkt)
  | ToChannel (d c : nat) (p : pkt) (dest txTime gap : Z)
  | TxRx (c : nat) (p : pkt) (src dst : nat) (txTime delay : Z)
  | PhyRxEnd (d : nat) (p : pkt) (src : nat)
  | PhyRxDrop (d : nat) (p : pkt)
  | MacRxDrop (d : nat) (p : pkt)
  | MacRx (d : nat) (p : pkt)
  | MacPromiscRx (d : nat) (p : pkt)
  | RxCallback (d src : nat) (payload : list Z) (proto from to own : Z)
  | PromiscCallback (d src : nat) (payload : list Z) (proto from to : Z) (t : ptype)
  | LinkChange (d : nat) (up : bool)
  | QueueSet (d : nat).

  (** Clock, devices, channels, pending events by time (equal times: in order of
      scheduling), and the timed observations, oldest first. *)
  Record world : Type := mkWorld {
    w_now : Z;
    w_dev : nat -> dev;
    w_chan : nat -> chan;
    w_events : list (Z * ev);
    w_log : list (Z * obs)
  }.

  Definition log1 (w : world) (o : obs) : world :=
    mkWorld (w_now w) (w_dev w) (w_chan w) (w_events w) (w_log w ++ [(w_now w, o)]).
  Definition set_dev (w : world) (d : nat) (x : dev) : world :=
    mkWorld (w_now w) (upd (w_dev w) d x) (w_chan w) (w_events w) (w_log w).
  Definition set_chan (w : world) (c : nat) (x : chan) : world :=
    mkWorld (w_now w) (w_dev w) (upd (w_chan w) c x) (w_events w) (w_log w).

  Definition addr_of (w : world) (d : nat) : Z := g_addr (d_cfg (w_dev w d)).
  Definition node_of (w : world) (d : nat) : option nat := g_node (d_cfg (w_dev w d)).

  (** Simulator::Schedule and ScheduleWithContext (ns-3 core). *)
  Fixpoint insert_event (x : Z * ev) (l : list (Z * ev)) : list (Z * ev) :=
    match l with
    | [] => [x]
    | y :: r => if fst y <=? fst x then y :: insert_event x r else x :: y :: r
    end.
  Definition schedule (w : world) (delay : Z) (e : ev) : res world :=
    if delay <? 0 then Abort NegativeDelay
    else Ok (mkWorld (w_now w) (w_dev w) (w_chan w)
                     (insert_event (w_now w + delay, e) (w_events w)) (w_log w)).

  (** ** Channels *)

  (** model/mock-channel.cc:116-129 *)
  Definition GetPropagationDelay (ch : chan) (a b : nat) (now : Z) : Z :=
    match c_delay ch with Some f => f a b now | None => 0 end.

  (** model/mock-channel.cc:165-208 *)
  Definition Deliver (w : world) (c : nat) (p : pkt) (src dst : nat) (txTime : Z) : res (bool * world) :=
    match node_of w src, node_of w dst with
    | Some a, Some b =>
        let ch := w_chan w c in
        let txPower := g_txp (d_cfg (w_dev w src)) in
        let go (rxPower : num N) (delay : Z) : res (bool * world) :=
          let* w1 := schedule w delay (RxEvent dst p src rxPower) in
          Ok (true, log1 w1 (TxRx c p src dst txTime delay)) in
        if has_mob a && has_mob b then
          match c_loss ch with
          | Some f =>
              let rxPower := f txPower a b (w_now w) in
              if nlt N rxPower (nZ N (-900)) then Ok (false, w)
              else go rxPower (GetPropagationDelay ch a b (w_now w))
          | None => go txPower (GetPropagationDelay ch a b (w_now w))
          end
        else go txPower txTime
    | _, _ => UB NullDeref
    end.

  (** The loops over destinations; the result tells whether any succeeded. *)
  Fixpoint deliver_all (w : world) (c : nat) (p : pkt) (src : nat) (dsts : list nat) (txTime : Z)
    : res (bool * world) :=
    match dsts with
    | [] => Ok (false, w)
    | d :: r => let* (b1, w1) := Deliver w c p src d txTime in
                let* (b2, w2) := deliver_all w1 c p src r txTime in
                Ok (b1 || b2, w2)
    end.

  (** Elements of a list at positions other than i (counting from [k]). *)
  Fixpoint except_at (k i : nat) (l : list nat) : list nat :=
    match l with
    | [] => []
    | x :: r => if Nat.eqb k i then except_at (S k) i r else x :: except_at (S k) i r
    end.

  (** model/mock-channel.cc:133-144 *)
  Definition GetDevice (w : world) (c : nat) (a : Z) : option nat :=
    find (fun d => addr_of w d =? a) (c_link (w_chan w c)).

  (** model/isl-mock-channel.cc:56-96 *)
  Definition IslTransmitStart (w : world) (c : nat) (p : pkt) (srcId : nat) (dest txTime : Z)
    : res (bool * world) :=
    match nth_error (c_link (w_chan w c)) srcId with
    | None => Ok (false, w)
    | Some src =>
        match GetDevice w c dest with
        | Some dst => Deliver w c p src dst txTime
        | None =>
            if dest =? broadcast
            then let* (_, w1) := deliver_all w c p src (except_at 0 srcId (c_link (w_chan w c))) txTime in
                 Ok (true, w1)
            else Ok (false, w)
        end
    end.

  Definition indexed (a : Z) (m : list (Z * nat)) : bool := existsb (fun x => fst x =? a) m.

  (** model/leo-mock-channel.cc:55-108; [dest] is only logged. *)
  Definition LeoTransmitStart (w : world) (c : nat) (p : pkt) (devId : nat) (dest txTime : Z)
    : res (bool * world) :=
    let ch := w_chan w c in
    match nth_error (c_link ch) devId with
    | None => Ok (false, w)
    | Some src =>
        let fromGround := indexed (addr_of w src) (c_gnd ch) in
        let fromSpace := indexed (addr_of w src) (c_sat ch) in
        if fromGround && fromSpace then Abort AssertSides
        else if fromGround then deliver_all w c p src (map snd (c_sat ch)) txTime
        else if fromSpace then deliver_all w c p src (map snd (c_gnd ch)) txTime
        else Ok (false, w)
    end.

  Definition ChannelTransmitStart (w : world) (c : nat) (p : pkt) (srcId : nat) (dest txTime : Z)
    : res (bool * world) :=
    match c_kind (w_chan w c) with
    | IslChannel => IslTransmitStart w c p srcId dest txTime
    | LeoChannel => LeoTransmitStart w c p srcId dest txTime
    end.

  (** std::map operator[] assignment and erase, on lists ordered by key *)
  Fixpoint index_set (a : Z) (d : nat) (m : list (Z * nat)) : list (Z * nat) :=
    match m with
    | [] => [(a, d)]
    | (k, x) :: r => if a <? k then (a, d) :: (k, x) :: r
                     else if a =? k then (a, d) :: r
                     else (k, x) :: index_set a d r
    end.
  Definition index_erase (a : Z) (m : list (Z * nat)) : list (Z * nat) :=
    filter (fun x => negb (fst x =? a)) m.

  (** model/mock-channel.cc:93-99, model/leo-mock-channel.cc:111-129 *)
  Definition ChannelAttach (w : world) (c d : nat) : res world :=
    let ch := w_chan w c in
    let push g s := Ok (set_chan w c (mkChan (c_kind ch) (c_link ch ++ [d]) g s (c_loss ch) (c_delay ch))) in
    match c_kind ch, g_kind (d_cfg (w_dev w d)) with
    | IslChannel, _ => push (c_gnd ch) (c_sat ch)
    | LeoChannel, Gnd => push (index_set (addr_of w d) d (c_gnd ch)) (c_sat ch)
    | LeoChannel, Sat => push (c_gnd ch) (index_set (addr_of w d) d (c_sat ch))
    | LeoChannel, Plain => UB BadCast
    end.

  (** model/mock-net-device.cc:540-554 *)
  Definition set_link (w : world) (d : nat) (up : bool) : world :=
    let x := w_dev w d in
    log1 (set_dev w d (mkDev (d_cfg x) (d_queue x) (d_q x) (d_busy x) (d_cur x) (d_chan x) (d_id x) up))
         (LinkChange d up).

  (** model/mock-net-device.cc:384-399 *)
  Definition Attach (w : world) (d c : nat) : res world :=
    let id := length (c_link (w_chan w c)) in
    let* w1 := ChannelAttach w c d in
    let x := w_dev w1 d in
    Ok (set_link (set_dev w1 d (mkDev (d_cfg x) (d_queue x) (d_q x) (d_busy x) (d_cur x) (Some c) id (d_up x)))
                 d true).

  (** model/mock-channel.cc:72-90 *)
  Definition BaseDetach (w : world) (c i : nat) : bool * world :=
    match nth_error (c_link (w_chan w c)) i with
    | Some d => if d_up (w_dev w d) then (true, set_link w d false) else (false, w)
    | None => (false, w)
    end.

  (** model/leo-mock-channel.cc:132-139 *)
  Definition ChannelDetach (w : world) (c i : nat) : res (bool * world) :=
    let ch := w_chan w c in
    match c_kind ch with
    | IslChannel => Ok (BaseDetach w c i)
    | LeoChannel =>
        match nth_error (c_link ch) i with
        | None => UB OutOfRange
        | Some d =>
            let a := addr_of w d in
            Ok (BaseDetach (set_chan w c (mkChan (c_kind ch) (c_link ch) (index_erase a (c_gnd ch))
                                                 (index_erase a (c_sat ch)) (c_loss ch) (c_delay ch))) c i)
        end
    end.

  (** ** Devices *)

  Definition set_tx (w : world) (d : nat) (q : list pkt) (busy : bool) (cur : option pkt) : world :=
    let x := w_dev w d in
    set_dev w d (mkDev (d_cfg x) (d_queue x) q busy cur (d_chan x) (d_id x) (d_up x)).

  (** model/mock-net-device.cc:316-347 *)
  Definition TransmitStart (w : world) (d : nat) (p : pkt) (dest : Z) : res (bool * world) :=
    let x := w_dev w d in
    if d_busy x then Abort AssertTx else
    let w1 := log1 (set_tx w d (d_q x) true (Some p)) (PhyTxBegin d p) in
    let txTime := tx_time (g_bps (d_cfg x)) (len (p_bytes p)) in
    let* w2 := schedule w1 (txTime + g_gap (d_cfg x)) (TxComplete d dest) in
    match d_chan x with
    | None => UB NullDeref
    | Some c =>
        let w3 := log1 w2 (ToChannel d c p dest txTime (g_gap (d_cfg x))) in
        let* (result, w4) := ChannelTransmitStart w3 c p (d_id x) dest txTime in
        if result then Ok (true, w4) else Ok (false, log1 w4 (PhyTxDrop d p))
    end.

  (** model/mock-net-device.cc:349-381 *)
  Definition DoTransmitComplete (w : world) (d : nat) (dest : Z) : res world :=
    let x := w_dev w d in
    if negb (d_busy x) then Abort AssertTx else
    match d_cur x with
    | None => Abort AssertTx
    | Some cur =>
        let w1 := log1 (set_tx w d (d_q x) false None) (PhyTxEnd d cur) in
        match d_queue x, d_q x with
        | None, _ => UB NullDeref
        | Some _, [] => Ok w1
        | Some _, p :: r =>
            let w2 := log1 (log1 (set_tx w1 d r false None) (Sniffer d p)) (PromiscSniffer d p) in
            let* (_, w3) := TransmitStart w2 d p dest in
            Ok w3
        end
    end.

  (** model/mock-net-device.cc:662-714. The address of the device is a
      Mac48Address, so that only the destination can fail to convert. *)
  Definition Send (w : world) (d : nat) (p : pkt) (dest : address) (protocolNumber : Z)
    : res (bool * world) :=
    let x := w_dev w d in
    let own := addr_of w d in
    match dest with
    | OtherAddress =>
        if d_up x then Abort BadAddress
        else Ok (false, log1 w (MacTxDrop d p))
    | Mac a =>
        if negb (d_up x)
        then Ok (false, log1 (log1 w (Sent d p a protocolNumber own false)) (MacTxDrop d p))
        else
          let frame := mkPkt (p_uid p) (AddHeader crc fcs own a protocolNumber (p_bytes p)) in
          let w1 := log1 w (MacTx d frame) in
          match d_queue x with
          | None => UB NullDeref
          | Some admit =>
              if admit (d_q x) frame then
                let w2 := log1 w1 (Sent d p a protocolNumber own true) in
                if d_busy x then Ok (true, set_tx w2 d (d_q x ++ [frame]) true (d_cur x))
                else
                  match d_q x ++ [frame] with
                  | [] => UB NullDeref
                  | h :: r =>
                      let w3 := log1 (log1 (set_tx w2 d r false (d_cur x)) (PromiscSniffer d h)) (Sniffer d h) in
                      let* (_, w4) := TransmitStart w3 d h a in
                      Ok (true, w4)
                  end
              else
                Ok (false, log1 (log1 w1 (Sent d p a protocolNumber own false))
                                (MacTxDrop d frame))
          end
    end.

  (** model/mock-net-device.cc:415-419, model/leo-mock-net-device.cc:76-79 *)
  Definition DoCalcRxPower (g : cfg) (rxPower : num N) : num N :=
    match g_kind g with
    | Plain => rxPower
    | _ => nadd N (nsub N rxPower (g_loss g)) (g_gain g)
    end.

  (** model/mock-net-device.cc:501-517 *)
  Definition classify (own dst : Z) : ptype :=
    if dst =? broadcast then PBroadcast
    else if dst =? own then PHost
    else if is_group dst then PMulticast
    else POtherHost.

  (** model/mock-net-device.cc:421-531 *)
  Definition Receive (w : world) (d : nat) (p : pkt) (src : nat) (rxPower : num N) : res world :=
    let g := d_cfg (w_dev w d) in
    if Nat.eqb src d then Ok (log1 w (MacRxDrop d p)) else
    let w1 := log1 w (PhyRxEnd d p src) in
    if nlt N (DoCalcRxPower g rxPower) (g_thr g) then Ok (log1 w1 (PhyRxDrop d p)) else
    if match g_err g with Some f => f (w_now w) p | None => false end
    then Ok (log1 w1 (PhyRxDrop d p)) else
    let* r := Decapsulate crc fcs (p_bytes p) in
    match r with
    | CrcError => Ok (log1 w1 (PhyRxDrop d (mkPkt (p_uid p) (firstn (length (p_bytes p) - 4) (p_bytes p)))))
    | Frame payload protocol from to =>
        let t := classify (g_addr g) to in
        let w2 := log1 w1 (PromiscSniffer d p) in
        let w3 := if g_pcb g
                  then log1 (log1 w2 (MacPromiscRx d p)) (PromiscCallback d src payload protocol from to t)
                  else w2 in
        match t with
        | POtherHost => Ok w3
        | _ => if g_rxcb g
               then Ok (log1 (log1 w3 (MacRx d p)) (RxCallback d src payload protocol from to (g_addr g)))
               else UB NullDeref
        end
    end.

  (** ** Configuration *)
  Inductive setting : Type :=
  | CType (sat : bool)                  (* leo-mock-net-device.cc, SetDeviceType *)
  | CNode (n : nat)                     (* mock-net-device.cc:732-737 *)
  | CAddress (a : Z)                    (* :581-586 *)
  | CRate (bps : Z)                     (* :301-306 *)
  | CGap (t : Z)                        (* :308-313 *)
  | CThreshold (x : num N)              (* :818-822 *)
  | CTxPower (x : num N)                (* :806-810 *)
  | CRxGain (x : num N)                 (* attributes, leo-mock-net-device.cc:45-54 *)
  | CRxLoss (x : num N)
  | CErrorModel (f : option (Z -> pkt -> bool))   (* :408-413 *)
  | CRxCallback                         (* :746-750 *)
  | CPromiscCallback.                   (* :752-756 *)

  Definition apply_setting (g : cfg) (s : setting) : cfg :=
    match s with
    | CType b => mkCfg (match g_kind g with Plain => Plain | _ => if b then Sat else Gnd end)
                  (g_node g) (g_addr g) (g_bps g) (g_gap g) (g_thr g) (g_txp g) (g_gain g) (g_loss g) (g_err g) (g_rxcb g) (g_pcb g)
    | CNode n => mkCfg (g_kind g) (Some n) (g_addr g) (g_bps g) (g_gap g) (g_thr g) (g_txp g) (g_gain g) (g_loss g) (g_err g) (g_rxcb g) (g_pcb g)
    | CAddress a => mkCfg (g_kind g) (g_node g) a (g_bps g) (g_gap g) (g_thr g) (g_txp g) (g_gain g) (g_loss g) (g_err g) (g_rxcb g) (g_pcb g)
    | CRate x => mkCfg (g_kind g) (g_node g) (g_addr g) x (g_gap g) (g_thr g) (g_txp g) (g_gain g) (g_loss g) (g_err g) (g_rxcb g) (g_pcb g)
    | CGap x => mkCfg (g_kind g) (g_node g) (g_addr g) (g_bps g) x (g_thr g) (g_txp g) (g_gain g) (g_loss g) (g_err g) (g_rxcb g) (g_pcb g)
    | CThreshold x => mkCfg (g_kind g) (g_node g) (g_addr g) (g_bps g) (g_gap g) x (g_txp g) (g_gain g) (g_loss g) (g_err g) (g_rxcb g) (g_pcb g)
    | CTxPower x => mkCfg (g_kind g) (g_node g) (g_addr g) (g_bps g) (g_gap g) (g_thr g) x (g_gain g) (g_loss g) (g_err g) (g_rxcb g) (g_pcb g)
    | CRxGain x => mkCfg (g_kind g) (g_node g) (g_addr g) (g_bps g) (g_gap g) (g_thr g) (g_txp g) x (g_loss g) (g_err g) (g_rxcb g) (g_pcb g)
    | CRxLoss x => mkCfg (g_kind g) (g_node g) (g_addr g) (g_bps g) (g_gap g) (g_thr g) (g_txp g) (g_gain g) x (g_err g) (g_rxcb g) (g_pcb g)
    | CErrorModel f => mkCfg (g_kind g) (g_node g) (g_addr g) (g_bps g) (g_gap g) (g_thr g) (g_txp g) (g_gain g) (g_loss g) f (g_rxcb g) (g_pcb g)
    | CRxCallback => mkCfg (g_kind g) (g_node g) (g_addr g) (g_bps g) (g_gap g) (g_thr g) (g_txp g) (g_gain g) (g_loss g) (g_err g) true (g_pcb g)
    | CPromiscCallback => mkCfg (g_kind g) (g_node g) (g_addr g) (g_bps g) (g_gap g) (g_thr g) (g_txp g) (g_gain g) (g_loss g) (g_err g) (g_rxcb g) true
    end.

  Definition Configure (w : world) (d : nat) (s : setting) : world :=
    let x := w_dev w d in
    set_dev w d (mkDev (apply_setting (d_cfg x) s) (d_queue x) (d_q x) (d_busy x) (d_cur x) (d_chan x) (d_id x) (d_up x)).

  (** model/mock-net-device.cc:401-406; the new queue is empty. *)
  Definition SetQueue (w : world) (d : nat) (admit : option (list pkt -> pkt -> bool)) : world :=
    let x := w_dev w d in
    log1 (set_dev w d (mkDev (d_cfg x) admit [] (d_busy x) (d_cur x) (d_chan x) (d_id x) (d_up x))) (QueueSet d).

  (** model/mock-channel.cc:158-162, 210-214 *)
  Definition SetPropagationLoss (w : world) (c : nat) (f : option (num N -> nat -> nat -> Z -> num N)) : world :=
    let ch := w_chan w c in
    set_chan w c (mkChan (c_kind ch) (c_link ch) (c_gnd ch) (c_sat ch) f (c_delay ch)).
  Definition SetPropagationDelay (w : world) (c : nat) (f : option (nat -> nat -> Z -> Z)) : world :=
    let ch := w_chan w c in
    set_chan w c (mkChan (c_kind ch) (c_link ch) (c_gnd ch) (c_sat ch) (c_loss ch) f).

  (** ** Executions *)
  Inductive op : Type :=
  | OSend (d : nat) (p : pkt) (dest : address) (protocolNumber : Z)
  | OSet (d : nat) (s : setting)
  | OSetQueue (d : nat) (admit : option (list pkt -> pkt -> bool))
  | OAttach (d c : nat)
  | ODetach (c i : nat)
  | OLinkDown (d : nat)               (* NotifyLinkDown is public *)
  | OSetLoss (c : nat) (f : option (num N -> nat -> nat -> Z -> num N))
  | OSetDelay (c : nat) (f : option (nat -> nat -> Z -> Z))
  | OAdvance (t : Z)                  (* the clock moves, not past a pending event *)
  | ORun.                             (* the simulator runs the next event *)

  Definition set_now (w : world) (t : Z) : world :=
    mkWorld t (w_dev w) (w_chan w) (w_events w) (w_log w).

  (** Simulator: run the first pending event at its time. *)
  Definition run_next (w : world) : res world :=
    match w_events w with
    | [] => Ok w
    | (t, e) :: r =>
        let w1 := mkWorld t (w_dev w) (w_chan w) r (w_log w) in
        match e with
        | TxComplete d dest => DoTransmitComplete w1 d dest
        | RxEvent dst p src power => Receive w1 dst p src power
        end
    end.

  Definition step (w : world) (o : op) : res world :=
    match o with
    | OSend d p dest q => let* (_, w1) := Send w d p dest q in Ok w1
    | OSet d s => Ok (Configure w d s)
    | OSetQueue d f => Ok (SetQueue w d f)
    | OAttach d c => Attach w d c
    | ODetach c i => let* (_, w1) := ChannelDetach w c i in Ok w1
    | OLinkDown d => Ok (set_link w d false)
    | OSetLoss c f => Ok (SetPropagationLoss w c f)
    | OSetDelay c f => Ok (SetPropagationDelay w c f)
    | OAdvance t =>
        if (w_now w <=? t) && match w_events w with [] => true | (t', _) :: _ => t <=? t' end
        then Ok (set_now w t) else Ok w
    | ORun => run_next w
    end.

  Fixpoint run (w : world) (ops : list op) : res world :=
    match ops with
    | [] => Ok w
    | o :: r => let* w1 := step w o in run w1 r
    end.

  (** ** Initial state: constructor and attribute defaults,
      model/mock-net-device.cc:48-92, 182-190, leo-mock-net-device.cc:39-54.
      Each number's class is given by [dk] and [ck]; a new LeoMockNetDevice is of
      type GND (EnumValue() is 0). *)
  Definition new_cfg (leo : bool) : cfg :=
    mkCfg (if leo then Gnd else Plain) None broadcast 32768 0 (nZ N (-1000)) (nZ N 1)
          (nZ N 0) (nZ N 0) None false false.
  Definition new_dev (leo : bool) : dev :=
    mkDev (new_cfg leo) None [] false None None 0 false.
  Definition new_chan (k : ckind) : chan := mkChan k [] [] [] None None.
  Definition initial (dk : nat -> bool) (ck : nat -> ckind) : world :=
    mkWorld 0 (fun d => new_dev (dk d)) (fun c => new_chan (ck c)) [] [].
End Net.

Arguments mkCfg {N}. Arguments g_kind {N} c. Arguments g_node {N} c. Arguments g_addr {N} c.
Arguments g_bps {N} c. Arguments g_gap {N} c. Arguments g_thr {N} c. Arguments g_txp {N} c.
Arguments g_gain {N} c. Arguments g_loss {N} c. Arguments g_err {N} c. Arguments g_rxcb {N} c. Arguments g_pcb {N} c.
Arguments mkDev {N}. Arguments d_cfg {N} d. Arguments d_queue {N} d. Arguments d_q {N} d. Arguments d_busy {N} d.
Arguments d_cur {N} d. Arguments d_chan {N} d. Arguments d_id {N} d. Arguments d_up {N} d.
Arguments mkChan {N}. Arguments c_kind {N} c. Arguments c_link {N} c. Arguments c_gnd {N} c. Arguments c_sat {N} c.
Arguments c_loss {N} c. Arguments c_delay {N} c.
Arguments TxComplete {N}. Arguments RxEvent {N}.
Arguments mkWorld {N}. Arguments w_now {N} w. Arguments w_dev {N} w. Arguments w_chan {N} w.
Arguments w_events {N} w. Arguments w_log {N} w.
Arguments log1 {N}. Arguments set_dev {N}. Arguments set_chan {N}. Arguments addr_of {N}. Arguments node_of {N}.
Arguments insert_event {N}. Arguments schedule {N}. Arguments GetPropagationDelay {N}.
Arguments Deliver {N}. Arguments deliver_all {N}. Arguments GetDevice {N}.
Arguments IslTransmitStart {N}. Arguments LeoTransmitStart {N}. Arguments ChannelTransmitStart {N}.
Arguments ChannelAttach {N}. Arguments set_link {N}. Arguments Attach {N}. Arguments BaseDetach {N}.
Arguments ChannelDetach {N}. Arguments set_tx {N}. Arguments TransmitStart {N}. Arguments DoTransmitComplete {N}.
Arguments Send {N}. Arguments DoCalcRxPower {N}. Arguments Receive {N}.
Arguments CType {N}. Arguments CNode {N}. Arguments CAddress {N}. Arguments CRate {N}. Arguments CGap {N}.
Arguments CThreshold {N}. Arguments CTxPower {N}. Arguments CRxGain {N}. Arguments CRxLoss {N}.
Arguments CErrorModel {N}. Arguments CRxCallback {N}. Arguments CPromiscCallback {N}.
Arguments apply_setting {N}. Arguments Configure {N}. Arguments SetQueue {N}.
Arguments SetPropagationLoss {N}. Arguments SetPropagationDelay {N}.
Arguments OSend {N}. Arguments OSet {N}. Arguments OSetQueue {N}. Arguments OAttach {N}. Arguments ODetach {N}.
Arguments OLinkDown {N}. Arguments OSetLoss {N}. Arguments OSetDelay {N}. Arguments OAdvance {N}. Arguments ORun {N}.
Arguments set_now {N}. Arguments run_next {N}. Arguments step {N}. Arguments run {N}.
Arguments new_cfg {N}. Arguments new_dev {N}. Arguments new_chan {N}. Arguments initial {N}.
