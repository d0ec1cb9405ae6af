(** Waypoint files: helper/leo-input-fstream-container.cc and the installation of
    satellites from waypoint files, helper/satellite-node-helper.cc.

    Simplifications: a file is the sequence of the waypoints that can be read from
    it before the first one that cannot (the end of the file or a malformed line);
    files do not change while they are open. A failing read of a waypoint leaves
    the position as it was and gives it a time converted from an uninitialised
    double (ns-3's operator >> for Time converts the empty string); its value here
    is an arbitrary function of how many reads have failed before. *)
Require Import ZArith List Bool String.
Require Import Verif.Base.
Import ListNotations.
Local Open Scope Z_scope.
Local Open Scope res_scope.

Section Waypoints.
  (** Positions; the origin; the files; times of failing reads. *)
  Variable P : Type.
  Variable origin : P.
  Variable files : string -> option (list (Z * P)).
  Variable junk : nat -> Z.

  Definition sample : Type := (Z * P)%type.

  (** leo-input-fstream-container.h:95-103. [r_in] is the open stream: all
      waypoints of the file and those that are still to be read. *)
  Record reader : Type := mkReader {
    r_path : string;
    r_last : Z;
    r_in : option (list sample * list sample);
    r_failures : nat
  }.

  (** leo-input-fstream-container.cc:47-57 *)
  Definition new_reader (path : string) (lastTime : Z) : reader := mkReader path lastTime None 0.

  (** Opening a file for reading from its beginning. *)
  Definition open (path : string) : option (list sample * list sample) :=
    match files path with Some l => Some (l, l) | None => None end.

  (** The loop leo-input-fstream-container.cc:85-88. Result: the sample, [updated],
      the rest of the stream, and whether a read failed. *)
  Fixpoint read_loop (last : Z) (s : sample) (updated : bool) (rest : list sample) (failures : nat)
    : sample * bool * list sample * nat :=
    if fst s <=? last then
      match rest with
      | [] => ((junk failures, snd s), updated, [], S failures)
      | s1 :: r => read_loop last s1 true r failures
      end
    else (s, updated, rest, failures).

  (** leo-input-fstream-container.cc:64-95. The stream of a file is never bad. *)
  Definition GetNextSample (r : reader) : res (bool * sample * reader) :=
    let input := match r_in r with Some x => Some x | None => open (r_path r) end in
    match input with
    | None => Abort AssertFailed
    | Some (all, rest) =>
        let '(s, updated, rest', f) := read_loop (r_last r) (0, origin) false rest (r_failures r) in
        Ok (updated, s, mkReader (r_path r) (if updated then fst s else r_last r) (Some (all, rest')) f)
    end.

  (** leo-input-fstream-container.cc:97-103 *)
  Definition SetFile (r : reader) (path : string) : reader :=
    mkReader path (r_last r) (open path) (r_failures r).

  (** leo-input-fstream-container.cc:111-117; on a stream that is not open,
      rewinding has no effect. *)
  Definition SetLastTime (r : reader) (lastTime : Z) : reader :=
    mkReader (r_path r) lastTime
             (match r_in r with Some (all, _) => Some (all, all) | None => None end) (r_failures r).

  (** Setting the attributes File and LastTime, leo-input-fstream-container.cc:33-42:
      only the members are assigned. *)
  Definition set_file_attribute (r : reader) (path : string) : reader :=
    mkReader path (r_last r) (r_in r) (r_failures r).
  Definition set_last_attribute (r : reader) (lastTime : Z) : reader :=
    mkReader (r_path r) lastTime (r_in r) (r_failures r).

  (** The loop satellite-node-helper.cc:59-63: the waypoints added to the mobility
      model, and the reader afterwards. As a relation, because it is a loop until
      GetNextSample returns false. *)
  Inductive drains : reader -> list sample -> reader -> Prop :=
  | drains_end : forall r s r', GetNextSample r = Ok (false, s, r') -> drains r [] r'
  | drains_next : forall r s r1 l r', GetNextSample r = Ok (true, s, r1) -> drains r1 l r' -> drains r (s :: l) r'.

  (** A sequence of successful calls of GetNextSample and what they returned. *)
  Inductive reads : reader -> list sample -> reader -> Prop :=
  | reads_nil : forall r, reads r [] r
  | reads_next : forall r s r1 l r', GetNextSample r = Ok (true, s, r1) -> reads r1 l r' -> reads r (s :: l) r'.

  (** satellite-node-helper.cc:47-71: the waypoints of the nodes, in order. *)
  Inductive installs : reader -> list string -> list (list sample) -> reader -> Prop :=
  | installs_nil : forall r, installs r [] [] r
  | installs_cons : forall r f fs l r1 ls r', drains (SetFile r f) l r1 -> installs r1 fs ls r' ->
      installs r (f :: fs) (l :: ls) r'.
End Waypoints.
Arguments mkReader {P}. Arguments r_path {P}. Arguments r_last {P}. Arguments r_in {P}. Arguments r_failures {P}.
Arguments new_reader {P}. Arguments open {P}. Arguments read_loop {P}. Arguments GetNextSample {P}.
Arguments SetFile {P}. Arguments SetLastTime {P}. Arguments set_file_attribute {P}. Arguments set_last_attribute {P}.
Arguments drains {P}. Arguments reads {P}. Arguments installs {P}.
