(** The records of transfers and drops that examples/leo-delay-tracing-example.cc writes.

    Simplifications: of the lines written to the trace file only those of TracePacket are
    kept, as tuples instead of text; a context is the device and the name of the source;
    the serialized size of a packet (ns-3) is an arbitrary function. *)
Require Import ZArith String List Bool.
Require Import Verif.Base Verif.Num Verif.FrameModel Verif.NetModel.
Import ListNotations.
Local Open Scope Z_scope.
Local Open Scope res_scope.
Local Open Scope string_scope.

(** The trace sources of a device, model/mock-net-device.cc:97-177. *)
Definition trace_sources : list string :=
  ["MacTx"; "MacTxDrop"; "MacPromiscRx"; "MacRx"; "MacRxDrop"; "PhyTxBegin"; "PhyTxEnd"; "PhyTxDrop";
   "PhyRxBegin"; "PhyRxEnd"; "PhyRxDrop"; "Sniffer"; "PromiscSniffer"].

(** The source that fires with an observation; the places are cited in NetModel.v. *)
Definition firing (o : obs) : option (nat * string * pkt) :=
  match o with
  | MacTx d p => Some (d, "MacTx", p)
  | MacTxDrop d p => Some (d, "MacTxDrop", p)
  | PhyTxBegin d p => Some (d, "PhyTxBegin", p)
  | PhyTxEnd d p => Some (d, "PhyTxEnd", p)
  | PhyTxDrop d p => Some (d, "PhyTxDrop", p)
  | Sniffer d p => Some (d, "Sniffer", p)
  | PromiscSniffer d p => Some (d, "PromiscSniffer", p)
  | PhyRxEnd d p _ => Some (d, "PhyRxEnd", p)
  | PhyRxDrop d p => Some (d, "PhyRxDrop", p)
  | MacRxDrop d p => Some (d, "MacRxDrop", p)
  | MacRx d p => Some (d, "MacRx", p)
  | MacPromiscRx d p => Some (d, "MacPromiscRx", p)
  | _ => None
  end.

(** Config::Connect of ns-3 (not in /repo) for all devices. Where nothing is found, newer
    versions of ns-3 end the program ([strict]), older ones do nothing. *)
Definition Connect (strict : bool) (name : string) (sinks : list string) : res (list string) :=
  if existsb (String.eqb name) trace_sources then Ok (sinks ++ [name])%list
  else if strict then Abort AssertFailed else Ok sinks.
Fixpoint connect_all (strict : bool) (names : list string) (sinks : list string) : res (list string) :=
  match names with
  | [] => Ok sinks
  | n :: r => let* s := Connect strict n sinks in connect_all strict r s
  end.

(** leo-delay-tracing-example.cc:216-236 *)
Definition set_up_traces (strict traceDrops traceTxRx : bool) : res (list string) :=
  let* s := connect_all strict (if traceDrops then ["MacTxDrop"; "PhyTxDrop"; "MacRxDrop"; "PhyRxDrop"] else []) [] in
  connect_all strict (if traceTxRx then ["MacTx"; "MacRx"; "PhyRx"] else []) s.

Record line : Type := mkLine { l_time : Z; l_dev : nat; l_source : string; l_uid : Z; l_count : Z }.

Section TraceFile.
  Variable serialized : pkt -> Z.
  Variable sinks : list string.

  (** leo-delay-tracing-example.cc:42-48; the state is countBytes, a uint64_t, and the
      lines written. *)
  Definition TracePacket (now : Z) (d : nat) (name : string) (p : pkt) (s : Z * list line) : Z * list line :=
    let c := (fst s + serialized p) mod 2 ^ 64 in
    (c, (snd s ++ [mkLine now d name (p_uid p) c])%list).

  (** Every sink connected to the source is called. *)
  Definition watch (s : Z * list line) (x : Z * obs) : Z * list line :=
    match firing (snd x) with
    | Some (d, name, p) => fold_left (fun s n => if String.eqb n name then TracePacket (fst x) d name p s else s) sinks s
    | None => s
    end.
  Definition trace_lines (l : list (Z * obs)) : list line := snd (fold_left watch l (0, [])).
End TraceFile.
