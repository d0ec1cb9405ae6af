(** What examples/leo-delay-tracing-example.cc sends and measures: the number of packets that
    its client is told to send, and the lines that its sink at the server writes.

    Simplifications: lines are tuples instead of text, without the uid of the packet (a
    reception does not keep it); the context is the device. Of ns-3 (not in /repo): the
    header SeqTsHeader, what UdpClient puts into its packets, and the forwarding of IPv4
    (decrement the TTL, drop at 0) without recomputed checksums, which are off by default. *)
Require Import ZArith Reals List Bool.
Require Import Flocq.Core.Raux.
Require Import Verif.Base Verif.FrameModel Verif.NetModel.
Import ListNotations.
Local Open Scope Z_scope.

(** Unsigned numbers in n bytes, network byte order. *)
Fixpoint be (n : nat) (x : Z) : list Z :=
  match n with O => [] | S k => be k (x / 256) ++ [x mod 256] end.
Definition unbe (l : list Z) : Z := fold_left (fun a b => a * 256 + b) l 0.

(** ns-3 SeqTsHeader: sequence number (uint32_t), then time step (uint64_t). *)
Definition seq_ts (seq ts : Z) : list Z := be 4 seq ++ be 8 ts.
(** ns-3 UdpClient::Send at time [now] with PacketSize 1024 (leo-delay-tracing-example.cc:210):
    the header and 1012 zeros; [headers] are those of UDP and IPv4. *)
Definition datagram (headers : list Z) (seq now : Z) : list Z := headers ++ seq_ts seq now ++ repeat 0 1012.

(** ns-3 Ipv4L3Protocol::IpForward: byte 8 is the TTL. *)
Definition IpForward (p : list Z) : option (list Z) :=
  match nth_error p 8 with
  | Some ttl => if ttl - 1 <=? 0 then None else Some (firstn 8 p ++ (ttl - 1) :: skipn 9 p)
  | None => None
  end.

Record echo : Type := mkEcho { e_time : Z; e_dev : nat; e_seq : Z; e_delay : Z }.

(** leo-delay-tracing-example.cc:33-40. Reading a header beyond the end of a packet is an
    error in ns-3; time steps are int64_t. *)
Definition EchoRx (now : Z) (d : nat) (packet : list Z) : res echo :=
  if (length packet <? 12)%nat then Abort ShortPacket
  else let seq := unbe (firstn 4 packet) in
       let ts := unbe (firstn 8 (skipn 4 packet)) in
       let ts := if ts <? 2 ^ 63 then ts else ts - 2 ^ 64 in
       Ok (mkEcho now d seq (now - ts)).

(** :213-214: the sink is connected to the server, which gets what comes in at its device
    [server] without the headers of IPv4 and UDP (28 bytes). *)
Definition server_lines (server : nat) (l : list (Z * obs)) : list (res echo) :=
  flat_map (fun x => match snd x with
                     | RxCallback d _ payload _ _ _ _ => if Nat.eqb d server then [EchoRx (fst x) d (skipn 28 payload)] else []
                     | _ => []
                     end) l.

(** :208: UintegerValue (duration / interval), [rnd] being the rounding of the division. The
    conversion to uint64_t is undefined out of range (a quotient by 0 is); the attribute takes 32 bits. *)
Definition MaxPackets (rnd : R -> R) (duration interval : R) : res Z :=
  if Req_bool interval 0 then UB IntOverflow else
  let n := Ztrunc (rnd (duration / interval)%R) in
  if ((n <? 0) || (2 ^ 64 <=? n))%bool then UB IntOverflow
  else if 2 ^ 32 <=? n then Abort AssertFailed
  else Ok n.
(** ns-3 UdpClient: the k-th packet (k < MaxPackets) is sent k intervals after the start,
    which is at time 0 (no Start is called; the calls are commented out, :251-252); :209. *)
Definition send_time (seconds : R -> Z) (interval : R) (k : Z) : Z := k * seconds interval.
(** :254 *)
Definition stop_time (seconds : R -> Z) (duration : R) : Z := seconds duration.
