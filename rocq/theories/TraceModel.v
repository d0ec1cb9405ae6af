(** Pcap and Ascii tracing: EnablePcapInternal and EnableAsciiInternal of
    helper/isl-helper.cc, helper/leo-channel-helper.cc and helper/leo-helper.cc.

    Of ns-3's trace-helper only what these functions use is kept: files that are
    opened (and emptied) by name, written at a position of each opened stream's own,
    and sinks connected to trace sources. Simplifications: streams do not buffer; the
    bytes of a pcap header and record and of an ascii line are arbitrary functions;
    a path given to Config::Connect finds the device it was made from. The trace
    sources of the queue (ns-3) are read off the observations around the calls of
    Enqueue and Dequeue in Send and TransmitComplete. *)
Require Import ZArith List Bool String.
Require Import Verif.Base Verif.Num Verif.FrameModel Verif.NetModel.
Import ListNotations.
Local Open Scope Z_scope.
Local Open Scope res_scope.

(** Trace sources that sinks are connected to. *)
Inductive source : Type :=
| SPromiscSniffer | SMacRx | SPhyRxDrop   (* mock-net-device.cc:114-120, 158-162, 173-177 *)
| SEnqueue | SDequeue | SDrop.            (* Queue of ns-3 *)
Definition source_eqb (a b : source) : bool :=
  match a, b with
  | SPromiscSniffer, SPromiscSniffer | SMacRx, SMacRx | SPhyRxDrop, SPhyRxDrop
  | SEnqueue, SEnqueue | SDequeue, SDequeue | SDrop, SDrop => true
  | _, _ => false
  end.
Definition of_queue (s : source) : bool :=
  match s with SEnqueue | SDequeue | SDrop => true | _ => false end.

(** The firings among a list of observations: the queue fires Enqueue or Drop
    between MacTx and the result of Send, mock-net-device.cc:685-712, and Dequeue
    before the sniffers of a transmission, :376-379 and :696-699. *)
Fixpoint fired (l : list (Z * obs)) : list (Z * (nat * source * pkt)) :=
  match l with
  | [] => []
  | (t, o) :: r =>
      match o with
      | PromiscSniffer d p => [(t, (d, SPromiscSniffer, p))]
      | MacRx d p => [(t, (d, SMacRx, p))]
      | PhyRxDrop d p => [(t, (d, SPhyRxDrop, p))]
      | MacTx d p => [(t, (d, match r with (_, Sent _ _ _ _ _ true) :: _ => SEnqueue | _ => SDrop end, p))]
      | Sniffer d p => [(t, (d, SDequeue, p))]
      | _ => []
      end ++ fired r
  end.

(** The mark of an ascii line; a line of a shared stream also has the path the sink
    was connected with: node, device, class in the path, source. *)
Inductive mark : Type := MarkReceive | MarkEnqueue | MarkDequeue | MarkDrop.
Definition path : Type := (nat * nat * bool * source)%type.

(** A connected sink: the device (or the device whose queue), the source, the stream
    it writes to, and what it writes for a packet at a time. *)
Record sink : Type := mkSink {
  k_dev : nat;
  k_source : source;
  k_stream : nat;
  k_text : Z -> pkt -> list Z
}.

(** Files by name; open streams: name and position; connected sinks, oldest first; the
    streams that the program itself has opened. *)
Record tracing : Type := mkTracing {
  t_file : string -> option (list Z);
  t_stream : nat -> string * nat;
  t_count : nat;
  t_sinks : list sink;
  t_user : list nat
}.
Definition no_tracing : tracing := mkTracing (fun _ => None) (fun _ => (EmptyString, O)) O [] [].

Definition upd_file (g : string -> option (list Z)) (f : string) (v : list Z) : string -> option (list Z) :=
  fun x => if String.eqb x f then Some v else g x.

(** fstream of C++: opening with std::ios::out empties the file, *)
Definition open_file (tr : tracing) (f : string) : tracing :=
  mkTracing (upd_file (t_file tr) f []) (upd (t_stream tr) (t_count tr) (f, O)) (S (t_count tr)) (t_sinks tr) (t_user tr).
(** writing replaces what is there, or extends the file. *)
Definition overwrite (old : list Z) (pos : nat) (data : list Z) : list Z :=
  firstn pos (old ++ repeat 0 (pos - List.length old)) ++ data ++ skipn (pos + List.length data) old.
Definition write (tr : tracing) (i : nat) (data : list Z) : tracing :=
  let (f, pos) := t_stream tr i in
  let old := match t_file tr f with Some l => l | None => [] end in
  mkTracing (upd_file (t_file tr) f (overwrite old pos data))
            (upd (t_stream tr) i (f, (pos + List.length data)%nat)) (t_count tr) (t_sinks tr) (t_user tr).
Definition connect (tr : tracing) (k : sink) : tracing :=
  mkTracing (t_file tr) (t_stream tr) (t_count tr) (t_sinks tr ++ [k]) (t_user tr).

(** A firing calls the sinks connected to its source, in order of connection. *)
Definition hears_firing (k : sink) (e : nat * source * pkt) : bool :=
  let '(d, s, _) := e in Nat.eqb (k_dev k) d && source_eqb (k_source k) s.
Definition dispatch (tr : tracing) (x : Z * (nat * source * pkt)) : tracing :=
  fold_left (fun tr k => if hears_firing k (snd x) then write tr (k_stream k) (k_text k (fst x) (snd (snd x))) else tr)
            (t_sinks tr) tr.

(** The class whose tracing functions are called. *)
Inductive tracer : Type := ByIsl | ByLeoChannel | ByLeo.

Section Trace.
  Variable N : Num.
  Variable crc : list Z -> Z.
  Variable fcs : bool.
  Variable tx_time : Z -> Z -> Z.
  Variable has_mob : nat -> bool.
  (** ns-3: the file header and a record of a pcap file, an ascii line, and the names
      made of a prefix, a node and a device. *)
  Variable pcap_header : list Z.
  Variable pcap_record : Z -> pkt -> list Z.
  Variable ascii_line : mark -> option path -> Z -> pkt -> list Z.
  Variable pcap_name ascii_name : string -> nat -> nat -> string.

  Definition is_leo (w : world N) (d : nat) : bool :=
    match g_kind (d_cfg (w_dev w d)) with Plain => false | _ => true end.

  (** GetFilenameFromDevice of ns-3: the prefix must not be empty; the device's node
      is asked for its number. *)
  Definition file_name (name : string -> nat -> nat -> string) (w : world N) (prefix : string) (d : nat) (explicit : bool)
    : res string :=
    if explicit then Ok prefix
    else if String.eqb prefix EmptyString then Abort AssertFailed
    else match node_of w d with None => UB NullDeref | Some n => Ok (name prefix n d) end.

  (** isl-helper.cc:92-106 and leo-channel-helper.cc:224-239 *)
  Definition pcap_hook (w : world N) (tr : tracing) (prefix : string) (d : nat) (explicit : bool) : res tracing :=
    let* f := file_name pcap_name w prefix d explicit in
    let i := t_count tr in
    Ok (connect (write (open_file tr f) i pcap_header) (mkSink d SPromiscSniffer i pcap_record)).

  (** isl-helper.cc:77-107: [None] is a device that is not a MockNetDevice. *)
  Definition IslEnablePcap (w : world N) (tr : tracing) (prefix : string) (nd : option nat) (promiscuous explicit : bool)
    : res tracing :=
    match nd with None => Ok tr | Some d => pcap_hook w tr prefix d explicit end.
  (** leo-channel-helper.cc:210-240 *)
  Definition LeoChannelEnablePcap (w : world N) (tr : tracing) (prefix : string) (nd : option nat) (promiscuous explicit : bool)
    : res tracing :=
    match nd with None => Ok tr | Some d => if is_leo w d then pcap_hook w tr prefix d explicit else Ok tr end.
  (** leo-helper.cc:199-205 *)
  Definition LeoEnablePcap (w : world N) (tr : tracing) (prefix : string) (nd : option nat) (promiscuous explicit : bool)
    : res tracing :=
    let* tr1 := IslEnablePcap w tr prefix nd promiscuous explicit in
    let* tr2 := LeoChannelEnablePcap w tr1 prefix nd promiscuous explicit in
    LeoChannelEnablePcap w tr2 prefix nd promiscuous explicit.

  (** isl-helper.cc:141-180 and leo-channel-helper.cc:274-313: a file of its own *)
  Definition ascii_hook_file (w : world N) (tr : tracing) (prefix : string) (d : nat) (explicit : bool) : res tracing :=
    let* f := file_name ascii_name w prefix d explicit in
    let i := t_count tr in
    let tr1 := connect (open_file tr f) (mkSink d SMacRx i (ascii_line MarkReceive None)) in
    match d_queue (w_dev w d) with
    | None => UB NullDeref
    | Some _ =>
        let tr2 := connect tr1 (mkSink d SEnqueue i (ascii_line MarkEnqueue None)) in
        let tr3 := connect tr2 (mkSink d SDrop i (ascii_line MarkDrop None)) in
        let tr4 := connect tr3 (mkSink d SDequeue i (ascii_line MarkDequeue None)) in
        Ok (connect tr4 (mkSink d SPhyRxDrop i (ascii_line MarkDrop None)))
    end.
  (** isl-helper.cc:194-215 and leo-channel-helper.cc:327-348: the caller's stream [i];
      [leo] is the class named in the path. Config::Connect stops the program when
      nothing matches the path, as without a queue. *)
  Definition ascii_hook_stream (w : world N) (tr : tracing) (i d : nat) (leo : bool) : res tracing :=
    match node_of w d with
    | None => UB NullDeref
    | Some n =>
        let at_path s := Some (n, d, leo, s) in
        let tr1 := connect tr (mkSink d SMacRx i (ascii_line MarkReceive (at_path SMacRx))) in
        match d_queue (w_dev w d) with
        | None => Abort AssertFailed
        | Some _ =>
            let tr2 := connect tr1 (mkSink d SEnqueue i (ascii_line MarkEnqueue (at_path SEnqueue))) in
            let tr3 := connect tr2 (mkSink d SDequeue i (ascii_line MarkDequeue (at_path SDequeue))) in
            let tr4 := connect tr3 (mkSink d SDrop i (ascii_line MarkDrop (at_path SDrop))) in
            Ok (connect tr4 (mkSink d SPhyRxDrop i (ascii_line MarkDrop (at_path SPhyRxDrop))))
        end
    end.
  Definition ascii_hook (w : world N) (tr : tracing) (stream : option nat) (prefix : string) (d : nat) (explicit leo : bool)
    : res tracing :=
    match stream with
    | None => ascii_hook_file w tr prefix d explicit
    | Some i => ascii_hook_stream w tr i d leo
    end.

  (** isl-helper.cc:109-216 *)
  Definition IslEnableAscii (w : world N) (tr : tracing) (stream : option nat) (prefix : string) (nd : option nat) (explicit : bool)
    : res tracing :=
    match nd with None => Ok tr | Some d => ascii_hook w tr stream prefix d explicit false end.
  (** leo-channel-helper.cc:242-349 *)
  Definition LeoChannelEnableAscii (w : world N) (tr : tracing) (stream : option nat) (prefix : string) (nd : option nat) (explicit : bool)
    : res tracing :=
    match nd with
    | None => Ok tr
    | Some d => if is_leo w d then ascii_hook w tr stream prefix d explicit true else Ok tr
    end.
  (** leo-helper.cc:207-217 *)
  Definition LeoEnableAscii (w : world N) (tr : tracing) (stream : option nat) (prefix : string) (nd : option nat) (explicit : bool)
    : res tracing :=
    let* tr1 := IslEnableAscii w tr stream prefix nd explicit in
    let* tr2 := LeoChannelEnableAscii w tr1 stream prefix nd explicit in
    LeoChannelEnableAscii w tr2 stream prefix nd explicit.

  Definition EnablePcap (h : tracer) :=
    match h with ByIsl => IslEnablePcap | ByLeoChannel => LeoChannelEnablePcap | ByLeo => LeoEnablePcap end.
  Definition EnableAscii (h : tracer) :=
    match h with ByIsl => IslEnableAscii | ByLeoChannel => LeoChannelEnableAscii | ByLeo => LeoEnableAscii end.

  (** ** Executions with tracing *)
  Inductive trace_op : Type :=
  | TNet (o : op N)
  | TPcap (h : tracer) (prefix : string) (nd : option nat) (promiscuous explicit : bool)
  | TStream (f : string)                (* AsciiTraceHelper::CreateFileStream of ns-3 *)
  (* [stream]: the program's k-th stream *)
  | TAscii (h : tracer) (stream : option nat) (prefix : string) (nd : option nat) (explicit : bool).

  (** A new queue object has no sinks: mock-net-device.cc:401-406. *)
  Definition forget_queue (o : op N) (tr : tracing) : tracing :=
    match o with
    | OSetQueue d _ => mkTracing (t_file tr) (t_stream tr) (t_count tr)
                         (filter (fun k => negb (Nat.eqb (k_dev k) d && of_queue (k_source k))) (t_sinks tr)) (t_user tr)
    | _ => tr
    end.

  Definition trace_step (s : world N * tracing) (o : trace_op) : res (world N * tracing) :=
    let (w, tr) := s in
    match o with
    | TNet o =>
        let* w1 := step crc fcs tx_time has_mob w o in
        Ok (w1, fold_left dispatch (fired (skipn (List.length (w_log w)) (w_log w1))) (forget_queue o tr))
    | TPcap h prefix nd promiscuous explicit =>
        let* tr1 := EnablePcap h w tr prefix nd promiscuous explicit in Ok (w, tr1)
    | TStream f =>
        let tr1 := open_file tr f in
        Ok (w, mkTracing (t_file tr1) (t_stream tr1) (t_count tr1) (t_sinks tr1) (t_user tr ++ [t_count tr]))
    | TAscii h stream prefix nd explicit =>
        match stream with
        | Some k =>
            match nth_error (t_user tr) k with
            | None => UB NullDeref
            | Some i => let* tr1 := EnableAscii h w tr (Some i) prefix nd explicit in Ok (w, tr1)
            end
        | None => let* tr1 := EnableAscii h w tr None prefix nd explicit in Ok (w, tr1)
        end
    end.
  Fixpoint trace_run (s : world N * tracing) (l : list trace_op) : res (world N * tracing) :=
    match l with
    | [] => Ok s
    | o :: r => let* s1 := trace_step s o in trace_run s1 r
    end.
End Trace.

Arguments is_leo {N}. Arguments file_name {N}. Arguments pcap_hook {N}. Arguments IslEnablePcap {N}.
Arguments LeoChannelEnablePcap {N}. Arguments LeoEnablePcap {N}. Arguments ascii_hook_file {N}.
Arguments ascii_hook_stream {N}. Arguments ascii_hook {N}. Arguments IslEnableAscii {N}.
Arguments LeoChannelEnableAscii {N}. Arguments LeoEnableAscii {N}. Arguments EnablePcap {N}. Arguments EnableAscii {N}.
Arguments TNet {N}. Arguments TPcap {N}. Arguments TStream {N}. Arguments TAscii {N}.
Arguments forget_queue {N}. Arguments trace_step {N}. Arguments trace_run {N}.
