(** The rest of MockNetDevice around the network model: attributes that the data path
    does not read, the NetDeviceQueueInterface, initialisation and disposal
    (model/mock-net-device.{h,cc}), and what LeoChannelHelper::Install does with the
    interface (helper/leo-channel-helper.cc:365-375, 384-394).

    Of ns-3 only this is kept: Object::Initialize and Object::Dispose call DoInitialize
    and DoDispose once; AggregateObject refuses a second object of a type and calls
    NotifyNewAggregate; ConnectQueueTraces connects an interface to the Enqueue, Dequeue
    and Drop sources of a queue, however often it is called. Interfaces are named by
    numbers. A queue given to SetQueue is a new one without connections. *)
Require Import ZArith List Bool.
Require Import Verif.Base Verif.Num Verif.FrameModel Verif.NetModel Verif.TraceModel.
Import ListNotations.
Local Open Scope Z_scope.
Local Open Scope res_scope.

(** Members of a device beside those of NetModel. *)
Record side : Type := mkSide {
  s_mtu : Z;                  (* m_mtu, mock-net-device.h:494 *)
  s_ifindex : option Z;       (* m_ifIndex, :480; not set by the constructor *)
  s_iface : option nat;       (* m_queueInterface, :475 *)
  s_object : option nat;      (* ns-3: the NetDeviceQueueInterface aggregated to the device *)
  s_conn : list nat;          (* ns-3: interfaces connected to the sources of the present queue *)
  s_initialized : bool;       (* ns-3: Object::m_initialized, m_disposed *)
  s_disposed : bool
}.

Section Life.
  Variable N : Num.
  Variable crc : list Z -> Z.
  Variable fcs : bool.
  Variable tx_time : Z -> Z -> Z.
  Variable has_mob : nat -> bool.

  (** The network, the further members, and the calls that interfaces got from queues:
      interface, source, frame. *)
  Record system : Type := mkSystem {
    y_net : world N;
    y_side : nat -> side;
    y_notes : list (nat * source * pkt)
  }.

  Definition set_side (y : system) (d : nat) (s : side) : system := mkSystem (y_net y) (upd (y_side y) d s) (y_notes y).

  (** mock-net-device.cc:779-792 *)
  Definition SetMtu (y : system) (d : nat) (mtu : Z) : bool * system :=
    let s := y_side y d in
    (true, set_side y d (mkSide (mtu mod 65536) (s_ifindex s) (s_iface s) (s_object s) (s_conn s) (s_initialized s) (s_disposed s))).
  Definition GetMtu (y : system) (d : nat) : Z := s_mtu (y_side y d).
  (** :556-567 *)
  Definition SetIfIndex (y : system) (d : nat) (index : Z) : system :=
    let s := y_side y d in
    set_side y d (mkSide (s_mtu s) (Some index) (s_iface s) (s_object s) (s_conn s) (s_initialized s) (s_disposed s)).
  Definition GetIfIndex (y : system) (d : nat) : res Z :=
    match s_ifindex (y_side y d) with Some i => Ok i | None => UB Uninit end.
  (** :716-724 *)
  Definition SendFrom (y : system) (d : nat) (p : pkt) (source dest : address) (protocolNumber : Z) : bool * system := (false, y).

  (** :271-286 *)
  Definition NotifyNewAggregate (s : side) : side :=
    match s_iface s with
    | None => match s_object s with
              | Some q => mkSide (s_mtu s) (s_ifindex s) (Some q) (s_object s) (s_conn s) (s_initialized s) (s_disposed s)
              | None => s
              end
    | Some _ => s
    end.
  (** ns-3, Object::AggregateObject: of an interface, or of an object of another type. *)
  Definition AggregateObject (y : system) (d : nat) (o : option nat) : res system :=
    let s := y_side y d in
    match o, s_object s with
    | Some _, Some _ => Abort AssertFailed
    | Some q, None => Ok (set_side y d (NotifyNewAggregate (mkSide (s_mtu s) (s_ifindex s) (s_iface s) (Some q) (s_conn s) (s_initialized s) (s_disposed s))))
    | None, _ => Ok (set_side y d (NotifyNewAggregate s))
    end.

  (** ns-3, NetDeviceQueue::ConnectQueueTraces, with the queue of d. *)
  Definition ConnectQueueTraces (y : system) (d q : nat) : res system :=
    match d_queue (w_dev (y_net y) d) with
    | None => UB NullDeref
    | Some _ =>
        let s := y_side y d in
        Ok (set_side y d (mkSide (s_mtu s) (s_ifindex s) (s_iface s) (s_object s) (s_conn s ++ [q]) (s_initialized s) (s_disposed s)))
    end.

  (** :254-269, called by Object::Initialize *)
  Definition DoInitialize (y : system) (d : nat) : res system :=
    match s_iface (y_side y d) with
    | None => Ok y
    | Some q => match d_queue (w_dev (y_net y) d) with
                | None => Abort AssertFailed
                | Some _ => ConnectQueueTraces y d q
                end
    end.
  Definition Initialize (y : system) (d : nat) : res system :=
    let s := y_side y d in
    if s_initialized s then Ok y
    else let* y1 := DoInitialize y d in
         let s1 := y_side y1 d in
         Ok (set_side y1 d (mkSide (s_mtu s1) (s_ifindex s1) (s_iface s1) (s_object s1) (s_conn s1) true (s_disposed s1))).

  (** :288-299, called by Object::Dispose *)
  Definition DoDispose (w : world N) (d : nat) : world N :=
    let x := w_dev w d in
    let g := d_cfg x in
    set_dev w d (mkDev (mkCfg (g_kind g) None (g_addr g) (g_bps g) (g_gap g) (g_thr g) (g_txp g) (g_gain g) (g_loss g)
                              None (g_rxcb g) (g_pcb g))
                       None [] (d_busy x) None None (d_id x) (d_up x)).
  Definition Dispose (y : system) (d : nat) : system :=
    let s := y_side y d in
    if s_disposed s then y
    else mkSystem (DoDispose (y_net y) d)
                  (upd (y_side y) d (mkSide (s_mtu s) (s_ifindex s) None (s_object s) [] (s_initialized s) true)) (y_notes y).

  (** A step of the network; its queues call the interfaces connected to them. *)
  Definition queue_reports (y : system) (l : list (Z * obs)) : list (nat * source * pkt) :=
    flat_map (fun x => let '(_, (d, s, p)) := x in
                       if of_queue s then map (fun q => (q, s, p)) (s_conn (y_side y d)) else []) (fired l).
  Definition net_step (y : system) (o : op N) : res system :=
    let* w := step crc fcs tx_time has_mob (y_net y) o in
    let notes := y_notes y ++ queue_reports y (skipn (List.length (w_log (y_net y))) (w_log w)) in
    let sides := match o with
                 | OSetQueue d _ => let s := y_side y d in
                     upd (y_side y) d (mkSide (s_mtu s) (s_ifindex s) (s_iface s) (s_object s) [] (s_initialized s) (s_disposed s))
                 | _ => y_side y end in
    Ok (mkSystem w sides notes).

  Inductive call : Type :=
  | YNet (o : op N)
  | YSetMtu (d : nat) (mtu : Z)
  | YSetIfIndex (d : nat) (index : Z)
  | YSendFrom (d : nat) (p : pkt) (source dest : address) (protocolNumber : Z)
  | YAggregate (d : nat) (o : option nat)
  | YConnect (d q : nat)
  | YInitialize (d : nat)
  | YDispose (d : nat).
  Definition ystep (y : system) (o : call) : res system :=
    match o with
    | YNet o => net_step y o
    | YSetMtu d m => Ok (snd (SetMtu y d m))
    | YSetIfIndex d i => Ok (SetIfIndex y d i)
    | YSendFrom d p a b q => Ok (snd (SendFrom y d p a b q))
    | YAggregate d q => AggregateObject y d q
    | YConnect d q => ConnectQueueTraces y d q
    | YInitialize d => Initialize y d
    | YDispose d => Ok (Dispose y d)
    end.
  Fixpoint yrun (y : system) (l : list call) : res system :=
    match l with
    | [] => Ok y
    | o :: r => let* y1 := ystep y o in yrun y1 r
    end.

  (** mock-net-device.cc:48-51, .h:484: the default MTU. *)
  Definition new_side : side := mkSide 1500 None None None [] false false.
  Definition new_system (w : world N) : system := mkSystem w (fun _ => new_side) [].

  (** helper/leo-channel-helper.cc:366-375 (and 385-394) for one device that has its
      address and node: interface q. *)
  Definition install_queue (d q c : nat) (admit : list pkt -> pkt -> bool) : list call :=
    [YNet (OSetQueue d (Some admit)); YConnect d q; YAggregate d (Some q); YNet (OAttach d c)].
End Life.

Arguments mkSystem {N}. Arguments y_net {N} s. Arguments y_side {N} s. Arguments y_notes {N} s.
Arguments set_side {N}. Arguments SetMtu {N}. Arguments GetMtu {N}. Arguments SetIfIndex {N}. Arguments GetIfIndex {N}.
Arguments SendFrom {N}. Arguments AggregateObject {N}. Arguments ConnectQueueTraces {N}. Arguments DoInitialize {N}.
Arguments Initialize {N}. Arguments DoDispose {N}. Arguments Dispose {N}. Arguments queue_reports {N}. Arguments net_step {N}.
Arguments YNet {N}. Arguments YSetMtu {N}. Arguments YSetIfIndex {N}. Arguments YSendFrom {N}. Arguments YAggregate {N}.
Arguments YConnect {N}. Arguments YInitialize {N}. Arguments YDispose {N}. Arguments ystep {N}. Arguments yrun {N}.
Arguments new_system {N}. Arguments install_queue {N}.
