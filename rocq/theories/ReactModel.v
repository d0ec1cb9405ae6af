(** Upper layers that send from within callbacks.

    In [NetModel.v] a receive callback is only recorded, and what the layers above make
    of it comes as a later call of Send. Here they call Send before the callback
    returns, as IP forwarding or an application that answers does. The same goes for the
    functions connected to the trace sources that a reception fires, to that of the end
    of a transmission, and for link change callbacks. Not covered: functions connected
    to the trace sources that Send itself fires, and calls other than Send. *)
Require Import ZArith List Bool.
Require Import Verif.Base Verif.Num Verif.FrameModel Verif.NetModel Verif.NetSpec.
Import ListNotations.
Local Open Scope Z_scope.
Local Open Scope res_scope.

(** A call of Send: device, packet, destination, protocol. *)
Definition sending : Type := (nat * pkt * address * Z)%type.

Section React.
  Context {N : Num}.
  Variable crc : list Z -> Z.
  Variable fcs : bool.
  Variable tx_time : Z -> Z -> Z.
  Variable has_mob : nat -> bool.
  (** What is sent in answer to the last observation of a trace. The whole history is
      given, so that this may depend on any state the upper layers keep. *)
  Variable react : trace -> list sending.
  Notation world := (world N).

  Fixpoint sends (w : world) (l : list sending) : res world :=
    match l with
    | [] => Ok w
    | (d, p, dest, q) :: r => let* (_, w1) := Send crc fcs tx_time has_mob w d p dest q in sends w1 r
    end.

  (** An observation, and what is sent before the callback or trace sink returns. *)
  Definition fire (w : world) (o : obs) : res world :=
    let w1 := log1 w o in sends w1 (react (w_log w1)).

  (** model/mock-net-device.cc:421-531; members are read when the code reads them. *)
  Definition ReceiveR (w : world) (d : nat) (p : pkt) (src : nat) (rxPower : num N) : res world :=
    if Nat.eqb src d then fire w (MacRxDrop d p) else
    let* w1 := fire w (PhyRxEnd d p src) in
    let g := d_cfg (w_dev w1 d) in
    if nlt N (DoCalcRxPower g rxPower) (g_thr g) then fire w1 (PhyRxDrop d p) else
    if match g_err g with Some f => f (w_now w1) p | None => false end then fire w1 (PhyRxDrop d p) else
    let* r := Decapsulate crc fcs (p_bytes p) in
    match r with
    | CrcError => fire w1 (PhyRxDrop d (mkPkt (p_uid p) (firstn (length (p_bytes p) - 4) (p_bytes p))))
    | Frame payload protocol from to =>
        let t := classify (g_addr g) to in
        let* w2 := fire w1 (PromiscSniffer d p) in
        let* w3 := if g_pcb (d_cfg (w_dev w2 d))
                   then let* w3 := fire w2 (MacPromiscRx d p) in
                        fire w3 (PromiscCallback d src payload protocol from to t)
                   else Ok w2 in
        match t with
        | POtherHost => Ok w3
        | _ => let* w4 := fire w3 (MacRx d p) in
               let g4 := d_cfg (w_dev w4 d) in
               if g_rxcb g4 then fire w4 (RxCallback d src payload protocol from to (g_addr g4)) else UB NullDeref
        end
    end.

  (** model/mock-net-device.cc:349-381; m_currentPkt is cleared after the trace. *)
  Definition DoTransmitCompleteR (w : world) (d : nat) (dest : Z) : res world :=
    let x := w_dev w d in
    if negb (d_busy x) then Abort AssertTx else
    match d_cur x with
    | None => Abort AssertTx
    | Some cur =>
        let* w1 := fire (set_tx w d (d_q x) false (Some cur)) (PhyTxEnd d cur) in
        let x1 := w_dev w1 d in
        let w2 := set_tx w1 d (d_q x1) (d_busy x1) None in
        match d_queue x1, d_q x1 with
        | None, _ => UB NullDeref
        | Some _, [] => Ok w2
        | Some _, p :: r =>
            let w3 := log1 (log1 (set_tx w2 d r (d_busy x1) None) (Sniffer d p)) (PromiscSniffer d p) in
            let* (_, w4) := TransmitStart tx_time has_mob w3 d p dest in
            Ok w4
        end
    end.

  Definition run_nextR (w : world) : res world :=
    match w_events w with
    | [] => Ok w
    | (t, e) :: r =>
        let w1 := mkWorld t (w_dev w) (w_chan w) r (w_log w) in
        match e with
        | TxComplete d dest => DoTransmitCompleteR w1 d dest
        | RxEvent dst p src power => ReceiveR w1 dst p src power
        end
    end.

  (** Link change callbacks are the last thing Attach and Detach do
      (model/mock-net-device.cc:384-399, 540-554, mock-channel.cc:72-90). *)
  Definition stepR (w : world) (o : op N) : res world :=
    let answered (w1 : world) := sends w1 (react (w_log w1)) in
    match o with
    | OAttach d c => let* w1 := Attach w d c in answered w1
    | ODetach c i => let* (b, w1) := ChannelDetach w c i in if b then answered w1 else Ok w1
    | OLinkDown d => answered (set_link w d false)
    | ORun => run_nextR w
    | _ => step crc fcs tx_time has_mob w o
    end.
  Fixpoint runR (w : world) (ops : list (op N)) : res world :=
    match ops with
    | [] => Ok w
    | o :: r => let* w1 := stepR w o in runR w1 r
    end.
End React.
