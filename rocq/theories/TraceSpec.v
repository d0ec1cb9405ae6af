(** What the tracing properties speak about: what a capture of a device has to
    contain, read off a trace. *)
Require Import ZArith List Bool String.
Require Import Verif.Base Verif.Num Verif.FrameModel Verif.NetModel Verif.NetSpec Verif.TraceModel.
Import ListNotations.
Local Open Scope Z_scope.

(** What happened since: the observations of [w'] that [w] does not have. *)
Definition since {N : Num} (w w' : world N) : trace := skipn (List.length (w_log w)) (w_log w').

(** Frames on the air at device d: those whose transmission begins, and those
    received and not dropped by the receiver - whoever they are addressed to. *)
Fixpoint captured (d : nat) (l : trace) : list (Z * pkt) :=
  match l with
  | [] => []
  | (t, PhyTxBegin d' p) :: r => (if Nat.eqb d' d then [(t, p)] else []) ++ captured d r
  | (t, PhyRxEnd d' p _) :: r =>
      (if Nat.eqb d' d && negb match r with (_, PhyRxDrop _ _) :: _ => true | _ => false end then [(t, p)] else []) ++ captured d r
  | _ :: r => captured d r
  end.

(** Life of the packets: accepted or refused by Send for lack of space, taken out of
    the queue for transmission, dropped by the receiver, and received. [up] tells which
    links are up, [hooked] whose queue is still the one that was hooked. *)
Section History.
  Variable crc : list Z -> Z.
  Variable fcs : bool.
  Fixpoint history (up hooked : nat -> bool) (l : trace) : list (nat * source * Z * pkt) :=
    match l with
    | [] => []
    | (t, o) :: r =>
        match o with
        | LinkChange d b => history (upd up d b) hooked r
        | QueueSet d => history up (upd hooked d false) r
        | Sent d p dest q own ok =>
            (if up d && hooked d then [(d, if ok then SEnqueue else SDrop, t, frame_of crc fcs p dest q own)] else []) ++
            history up hooked r
        | PhyTxBegin d p => (if hooked d then [(d, SDequeue, t, p)] else []) ++ history up hooked r
        | MacRx d p => (d, SMacRx, t, p) :: history up hooked r
        | PhyRxDrop d p => (d, SPhyRxDrop, t, p) :: history up hooked r
        | _ => history up hooked r
        end
    end.
End History.

Definition mark_of (s : source) : mark :=
  match s with SEnqueue => MarkEnqueue | SDequeue => MarkDequeue | SMacRx => MarkReceive | _ => MarkDrop end.

(** How often a helper hooks a device of a LEO channel or of another mock channel,
    and the classes in the paths it uses. *)
Definition classes (h : tracer) (leo : bool) : list bool :=
  match h, leo with
  | ByIsl, _ => [false]
  | ByLeoChannel, true => [true]
  | ByLeoChannel, false => []
  | ByLeo, true => [false; true; true]
  | ByLeo, false => [false]
  end.

(** A line of the device's own file, and the lines of a stream to which helper h
    connected the devices [ds] in state w. *)
Section Lines.
  Variable ascii_line : mark -> option path -> Z -> pkt -> list Z.
  Definition own_line (d : nat) (x : nat * source * Z * pkt) : list Z :=
    let '(d', s, t, p) := x in if Nat.eqb d' d then ascii_line (mark_of s) None t p else [].
  Definition shared_lines {N : Num} (w : world N) (h : tracer) (ds : list nat) (x : nat * source * Z * pkt) : list Z :=
    let '(d, s, t, p) := x in
    flat_map (fun d' => if Nat.eqb d' d then
        flat_map (fun leo => match node_of w d with Some n => ascii_line (mark_of s) (Some (n, d, leo, s)) t p | None => [] end)
                 (classes h (is_leo w d))
      else []) ds.
End Lines.

(** No operation opens file f. *)
Section Names.
  Context {N : Num}.
  Variable pcap_name ascii_name : string -> nat -> nat -> string.
  Definition avoids (f : string) (o : trace_op N) : Prop :=
    match o with
    | TNet _ => True
    | TPcap _ prefix nd _ explicit => forall d, nd = Some d ->
        if explicit then prefix <> f else forall n, pcap_name prefix n d <> f
    | TStream g => g <> f
    | TAscii _ (Some _) _ _ _ => True
    | TAscii _ None prefix nd explicit => forall d, nd = Some d ->
        if explicit then prefix <> f else forall n, ascii_name prefix n d <> f
    end.
  (** No operation writes to the program's k-th stream. *)
  Definition leaves (k : nat) (o : trace_op N) : Prop :=
    match o with TAscii _ (Some j) _ _ _ => j <> k | _ => True end.
End Names.
