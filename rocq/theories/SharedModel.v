(** Packet objects: Send works on the object its caller holds
    (model/mock-net-device.cc:662-714), and the queue and m_currentPkt keep a pointer to it.
    Channels hand out copies (model/mock-channel.cc:201), so that pending receptions are
    not affected.

    Simplifications: the receive callbacks get objects that are not sent again; a queue is
    not shared by devices; admission looks at the packets, not at the byte counter. *)
Require Import ZArith List Bool.
Require Import Verif.Base Verif.Num Verif.FrameModel Verif.NetModel.
Import ListNotations.
Local Open Scope Z_scope.
Local Open Scope res_scope.

Section Shared.
  Variable N : Num.
  Variable crc : list Z -> Z.
  Variable fcs : bool.
  Variable tx_time : Z -> Z -> Z.
  Variable has_mob : nat -> bool.

  (** What every object contains now, which objects wait at a device and which one it is
      transmitting, and the byte counter of its queue. *)
  Record hworld : Type := mkH {
    h_world : world N;
    h_obj : nat -> pkt;
    h_wait : nat -> list nat;
    h_cur : nat -> option nat;
    h_bytes : nat -> Z
  }.

  (** The packets of queues and transmitters, read from the objects. *)
  Definition refresh (w : world N) (obj : nat -> pkt) (wait : nat -> list nat) (cur : nat -> option nat) : world N :=
    mkWorld (w_now w)
      (fun d => let x := w_dev w d in
         mkDev (d_cfg x) (d_queue x) (map obj (wait d)) (d_busy x) (option_map obj (cur d)) (d_chan x) (d_id x) (d_up x))
      (w_chan w) (w_events w) (w_log w).

  Definition size (p : pkt) : Z := len (p_bytes p).

  (** ns-3 Queue<Packet>::DoDequeue (not in /repo): the counter must not be less than the
      size of the packet. *)
  Definition count_out (bytes : Z) (p : pkt) : res Z :=
    if bytes <? size p then Abort AssertFailed else Ok (bytes - size p).

  (** model/mock-net-device.cc:662-714 on the object [k]. AddHeader (line 683) changes the
      object, before the queue is asked. *)
  Definition SendObject (s : hworld) (d k : nat) (dest : address) (protocolNumber : Z) : res (bool * hworld) :=
    let x := w_dev (h_world s) d in
    let p := h_obj s k in
    match dest, d_up x with
    | Mac a, true =>
        let frame := mkPkt (p_uid p) (AddHeader crc fcs (addr_of (h_world s) d) a protocolNumber (p_bytes p)) in
        let obj := upd (h_obj s) k frame in
        let w := refresh (h_world s) obj (h_wait s) (h_cur s) in
        match d_queue x with
        | None => UB NullDeref
        | Some admit =>
            if admit (map obj (h_wait s d)) frame then
              let bytes := h_bytes s d + size frame in
              if d_busy x then
                let* (b, w1) := Send crc fcs tx_time has_mob w d p dest protocolNumber in
                Ok (b, mkH w1 obj (upd (h_wait s) d (h_wait s d ++ [k])) (h_cur s) (upd (h_bytes s) d bytes))
              else
                match h_wait s d ++ [k] with
                | [] => UB NullDeref
                | h :: r =>
                    let* rest := count_out bytes (obj h) in
                    let* (b, w1) := Send crc fcs tx_time has_mob w d p dest protocolNumber in
                    Ok (b, mkH w1 obj (upd (h_wait s) d r) (upd (h_cur s) d (Some h)) (upd (h_bytes s) d rest))
                end
            else
              let* (b, w1) := Send crc fcs tx_time has_mob w d p dest protocolNumber in
              Ok (b, mkH w1 obj (h_wait s) (h_cur s) (h_bytes s))
        end
    | _, _ =>
        let* (b, w1) := Send crc fcs tx_time has_mob (h_world s) d p dest protocolNumber in
        Ok (b, mkH w1 (h_obj s) (h_wait s) (h_cur s) (h_bytes s))
    end.

  (** The other operations, [OSend] not among them. The end of a transmission
      (mock-net-device.cc:349-381) takes the next object from the queue. *)
  Definition other (s : hworld) (o : op N) : res hworld :=
    let go wait cur bytes := let* w1 := step crc fcs tx_time has_mob (h_world s) o in Ok (mkH w1 (h_obj s) wait cur bytes) in
    match o with
    | OSetQueue d _ => go (upd (h_wait s) d []) (h_cur s) (upd (h_bytes s) d 0)
    | ORun =>
        match w_events (h_world s) with
        | (_, TxComplete d _) :: _ =>
            let x := w_dev (h_world s) d in
            match d_busy x, h_cur s d, d_queue x, h_wait s d with
            | true, Some _, Some _, h :: r =>
                let* rest := count_out (h_bytes s d) (h_obj s h) in
                go (upd (h_wait s) d r) (upd (h_cur s) d (Some h)) (upd (h_bytes s) d rest)
            | _, _, _, _ => go (h_wait s) (upd (h_cur s) d None) (h_bytes s)
            end
        | _ => go (h_wait s) (h_cur s) (h_bytes s)
        end
    | _ => go (h_wait s) (h_cur s) (h_bytes s)
    end.

  Inductive hop : Type :=
  | HSend (d k : nat) (dest : address) (protocolNumber : Z)
  | HOther (o : op N).

  Definition hstep (s : hworld) (o : hop) : res hworld :=
    match o with
    | HSend d k dest q => let* (_, s1) := SendObject s d k dest q in Ok s1
    | HOther (OSend _ _ _ _) => Ok s
    | HOther o => other s o
    end.
  Fixpoint hrun (s : hworld) (ops : list hop) : res hworld :=
    match ops with
    | [] => Ok s
    | o :: r => let* s1 := hstep s o in hrun s1 r
    end.

  Definition hstart (dk : nat -> bool) (ck : nat -> ckind) (obj : nat -> pkt) : hworld :=
    mkH (initial dk ck) obj (fun _ => []) (fun _ => None) (fun _ => 0).
End Shared.
Arguments mkH {N}. Arguments h_world {N} h. Arguments h_obj {N} h. Arguments h_wait {N} h. Arguments h_cur {N} h. Arguments h_bytes {N} h.
Arguments refresh {N}. Arguments SendObject {N}. Arguments other {N}. Arguments HSend {N}. Arguments HOther {N}.
Arguments hstep {N}. Arguments hrun {N}. Arguments hstart {N}.
