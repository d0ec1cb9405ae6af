(** C69-C70: pcap and ascii captures. [pcap_header], [pcap_record] and [ascii_line] are
    the bytes that ns-3 writes, [pcap_name] and [ascii_name] the file names it makes of
    a prefix, a node and a device. *)
Require Import ZArith List Bool String.
Require Import Verif.Base Verif.Num Verif.FrameModel Verif.NetModel Verif.NetSpec Verif.NetExamples
  Verif.TraceModel Verif.TraceSpec Verif.TraceRunProofs.
Import ListNotations.
Local Open Scope Z_scope.

Section Props.
  Context {N : Num}.
  Variable crc : list Z -> Z.
  Variable fcs : bool.
  Variable tx_time : Z -> Z -> Z.
  Variable has_mob : nat -> bool.
  Variable pcap_header : list Z.
  Variable pcap_record : Z -> pkt -> list Z.
  Variable ascii_line : mark -> option path -> Z -> pkt -> list Z.
  Variable pcap_name ascii_name : string -> nat -> nat -> string.
  Notation trace_run := (@trace_run N crc fcs tx_time has_mob pcap_header pcap_record ascii_line pcap_name ascii_name).
  Notation EnablePcap := (@EnablePcap N pcap_header pcap_record pcap_name).
  Notation EnableAscii := (@EnableAscii N ascii_line ascii_name).
  Notation avoids := (@avoids N pcap_name ascii_name).

  (** ** C69: whatever the flag [promiscuous], and however many streams are opened for
      the file: each frame on the air at the device is there once, in order. *)
  Theorem C69_capture : forall dk ck before w tr h prefix d promiscuous explicit f tr1 rest w' tr',
    trace_run (initial dk ck, no_tracing) before = Ok (w, tr) -> Forall (avoids f) before ->
    file_name pcap_name w prefix d explicit = Ok f ->
    EnablePcap h w tr prefix (Some d) promiscuous explicit = Ok tr1 ->
    Forall (avoids f) rest -> trace_run (w, tr1) rest = Ok (w', tr') ->
    t_file tr' f = match classes h (is_leo w d) with
                   | [] => None
                   | _ => Some (pcap_header ++ flat_map (fun x => pcap_record (fst x) (snd x)) (captured d (since w w')))
                   end.
  Proof. exact (pcap_capture crc fcs tx_time has_mob pcap_header pcap_record ascii_line pcap_name ascii_name). Qed.

  (** Enabling fails exactly when the file has no name. *)
  Theorem C69_enable : forall h w tr prefix d promiscuous explicit,
    (exists tr1, EnablePcap h w tr prefix (Some d) promiscuous explicit = Ok tr1) <->
    (classes h (is_leo w d) = [] \/ explicit = true \/ (prefix <> EmptyString /\ node_of w d <> None)).
  Proof.
    intros h w tr prefix d pr ex.
    assert (FN : (exists f, file_name pcap_name w prefix d ex = Ok f) <-> (ex = true \/ (prefix <> EmptyString /\ node_of w d <> None))).
    { unfold file_name. destruct ex; [split; eauto|]. destruct (String.eqb_spec prefix EmptyString) as [->|n].
      - split; [intros [f H]; discriminate|intros [H|[H _]]; [discriminate|contradiction]].
      - destruct (node_of w d); split; try (intros [f H]; discriminate); eauto.
        + intros _. right. split; [exact n|discriminate].
        + intros [H|[_ H]]; [discriminate|contradiction]. }
    assert (HK : forall a, (exists b, pcap_hook pcap_header pcap_record pcap_name w a prefix d ex = Ok b) <->
                 (exists f, file_name pcap_name w prefix d ex = Ok f)).
    { intros a. unfold pcap_hook. destruct (file_name pcap_name w prefix d ex) as [f|e|e]; cbn;
        split; intros [x H]; try discriminate; eauto. }
    assert (M : forall a b, (exists x, pcap_hook pcap_header pcap_record pcap_name w a prefix d ex = Ok x) ->
                (exists x, pcap_hook pcap_header pcap_record pcap_name w b prefix d ex = Ok x))
      by (intros a b H; apply HK; apply HK in H; exact H).
    destruct h; cbn; unfold LeoEnablePcap, IslEnablePcap, LeoChannelEnablePcap.
    - rewrite HK, FN. split; [auto|intros [H|H]; [discriminate|exact H]].
    - destruct (is_leo w d); [rewrite HK, FN; split; [auto|intros [H|H]; [discriminate|exact H]]|split; eauto].
    - destruct (is_leo w d).
      + rewrite <- FN, <- (HK tr). split.
        * intros [x H]. destruct (pcap_hook _ _ _ w tr prefix d ex) as [a|e|e] eqn:E; cbn in H; try discriminate. right. exists a. reflexivity.
        * intros [H|H]; [discriminate|]. destruct H as [a Ha]. rewrite Ha. cbn.
          destruct (M tr a) as [b Hb]; [exists a; exact Ha|]. rewrite Hb. cbn. apply (M tr b). exists a. exact Ha.
      + rewrite <- FN, <- (HK tr). split.
        * intros [x H]. destruct (pcap_hook _ _ _ w tr prefix d ex) as [a|e|e] eqn:E; cbn in H; try discriminate. right. exists a. reflexivity.
        * intros [H|H]; [discriminate|]. destruct H as [a Ha]. rewrite Ha. cbn. exists a. reflexivity.
  Qed.

  (** ** C70: the device's own file has one line per event; *)
  Theorem C70_own_file : forall dk ck before w tr h prefix d explicit f tr1 rest w' tr',
    trace_run (initial dk ck, no_tracing) before = Ok (w, tr) -> Forall (avoids f) before ->
    file_name ascii_name w prefix d explicit = Ok f ->
    EnableAscii h w tr None prefix (Some d) explicit = Ok tr1 ->
    Forall (avoids f) rest -> trace_run (w, tr1) rest = Ok (w', tr') ->
    t_file tr' f = match classes h (is_leo w d) with
                   | [] => None
                   | _ => Some (flat_map (own_line ascii_line d)
                                  (history crc fcs (fun x => d_up (w_dev w x)) (fun _ => true) (since w w')))
                   end.
  Proof. exact (ascii_capture crc fcs tx_time has_mob pcap_header pcap_record ascii_line pcap_name ascii_name). Qed.

  (** a stream of the program has as many as the helper has made connections. *)
  Theorem C70_shared_stream : forall dk ck before w tr h prefix explicit ds f w1 tr1 rest w' tr',
    trace_run (initial dk ck, no_tracing) before = Ok (w, tr) -> Forall (avoids f) before ->
    let k := List.length (t_user tr) in
    trace_run (w, tr) (TStream f :: map (fun d => TAscii h (Some k) prefix (Some d) explicit) ds) = Ok (w1, tr1) ->
    Forall (avoids f) rest -> Forall (leaves k) rest -> trace_run (w1, tr1) rest = Ok (w', tr') ->
    t_file tr' f = Some (flat_map (shared_lines ascii_line w h ds)
                           (history crc fcs (fun x => d_up (w_dev w x)) (fun _ => true) (since w w'))).
  Proof. exact (stream_capture crc fcs tx_time has_mob pcap_header pcap_record ascii_line pcap_name ascii_name). Qed.

  (** A device without a queue cannot be traced. *)
  Theorem C70_no_queue : forall h w tr stream prefix d explicit tr1,
    d_queue (w_dev w d) = None -> classes h (is_leo w d) <> [] ->
    EnableAscii h w tr stream prefix (Some d) explicit <> Ok tr1.
  Proof.
    intros h w tr stream prefix d ex tr1 Q C.
    assert (HK : forall a b leo, ascii_hook ascii_line ascii_name w a stream prefix d ex leo <> Ok b).
    { intros a b leo. destruct stream as [i|]; cbn.
      - unfold ascii_hook_stream. rewrite Q. destruct (node_of w d); discriminate.
      - unfold ascii_hook_file. destruct (file_name _ _ _ _ _); cbn; rewrite ?Q; discriminate. }
    destruct h; cbn in *; unfold LeoEnableAscii, IslEnableAscii, LeoChannelEnableAscii.
    - apply HK.
    - destruct (is_leo w d); [apply HK|contradiction].
    - destruct (ascii_hook _ _ w tr stream prefix d ex false) as [a|e|e] eqn:E; [destruct (HK _ _ _ E)|discriminate..].
  Qed.
End Props.
Print Assumptions C69_capture.
Print Assumptions C69_enable.
Print Assumptions C70_own_file.
Print Assumptions C70_shared_stream.
Print Assumptions C70_no_queue.

(** ** Examples: records and lines without times. *)
Definition ex_record (t : Z) (p : pkt) : list Z := [p_uid p].
Definition ex_line (m : mark) (o : option path) (t : Z) (p : pkt) : list Z :=
  [match m with MarkReceive => 1 | MarkEnqueue => 2 | MarkDequeue => 3 | MarkDrop => 4 end;
   match o with None => 0 | Some (_, _, leo, _) => if leo then 2 else 1 end; p_uid p].
Definition ex_name (prefix : string) (n d : nat) : string := prefix.
Definition traced (ops : list (trace_op NumZ)) : res (world NumZ * tracing) :=
  trace_run ex_crc true ex_tx ex_mob [0] ex_record ex_line ex_name ex_name (start, no_tracing) ops.

(** Satellite 3 hears what ground station 0 sends to satellite 1; the capture is not
    to be promiscuous. *)
Definition ex_leo : list (trace_op NumZ) :=
  map (@TNet NumZ) (leo4 0) ++
  [TPcap ByLeo "sat3" (Some 3%nat) false false; TPcap ByLeoChannel "gnd0" (Some 0%nat) false true;
   TNet (OSend 0 (packet 7) (Mac 2) 2048); TNet (OSend 0 (packet 8) (Mac 4) 2048)] ++ map (@TNet NumZ) (repeat ORun 6).
Example ex_C69 : holds (fun s =>
    t_file (snd s) "sat3" = Some [0; 7; 8] /\ t_file (snd s) "gnd0" = Some [0; 7; 8] /\ t_count (snd s) = 4%nat /\
    map (fun x => p_uid (snd x)) (captured 3 (w_log (fst s))) = [7; 8]) (traced ex_leo).
Proof. vm_compute. auto. Qed.

(** "promiscuous: if true, all packets are captured; otherwise only those of the
    device" is false. *)
Theorem C69_promiscuous_refuted : exists (ops rest : list (trace_op NumZ)) w tr w' tr' p,
  traced (ops ++ [TPcap ByLeo "sat3" (Some 3%nat) false false]) = Ok (w, tr) /\
  trace_run ex_crc true ex_tx ex_mob [0] ex_record ex_line ex_name ex_name (w, tr) rest = Ok (w', tr') /\
  t_file tr' "sat3" = Some ([0] ++ ex_record 0 p) /\
  map snd (captured 3 (w_log w')) = [p] /\
  frame_dst (p_bytes p) = addr_of w' 1 /\ frame_src (p_bytes p) = addr_of w' 0 /\ addr_of w' 3 <> addr_of w' 1.
Proof.
  set (ops := map (@TNet NumZ) (leo4 0) ++ [TPcap ByLeo "sat3" (Some 3%nat) false false]).
  set (rest := TNet (OSend 0 (packet 7) (Mac 2) 2048) :: map (@TNet NumZ) (repeat ORun 4)).
  assert (H : holds (fun s => holds (fun s' =>
      t_file (snd s') "sat3" = Some ([0] ++ ex_record 0 (frame_of ex_crc true (packet 7) 2 2048 1)) /\
      map snd (captured 3 (w_log (fst s'))) = [frame_of ex_crc true (packet 7) 2 2048 1] /\
      addr_of (fst s') 0 = 1 /\ addr_of (fst s') 1 = 2 /\ addr_of (fst s') 3 = 4)
    (trace_run ex_crc true ex_tx ex_mob [0] ex_record ex_line ex_name ex_name s rest)) (traced ops))
    by (vm_compute; auto 10).
  apply holds_ok in H as ([w tr] & E & H). apply holds_ok in H as ([w' tr'] & E' & F & C & A0 & A1 & A3).
  exists (map (@TNet NumZ) (leo4 0)), rest, w, tr, w', tr', (frame_of ex_crc true (packet 7) 2 2048 1).
  cbn [fst snd] in *. rewrite A0, A1, A3. split; [exact E|]. split; [exact E'|]. split; [exact F|]. split; [exact C|].
  split; [vm_compute; reflexivity|]. split; [vm_compute; reflexivity|discriminate].
Qed.
Print Assumptions C69_promiscuous_refuted.

(** One transmission, received by two satellites, is four events. Each gives three
    lines in the stream given to LeoHelper, one in a stream given to LeoChannelHelper and
    one in a file. After its queue is replaced only receptions of a device are seen. *)
Definition ex_ascii : list (trace_op NumZ) :=
  map (@TNet NumZ) (leo4 0) ++
  [TStream "leo"; TAscii ByLeo (Some 0%nat) "" (Some 0%nat) false; TAscii ByLeo (Some 0%nat) "" (Some 1%nat) false;
   TStream "ch"; TAscii ByLeoChannel (Some 1%nat) "" (Some 0%nat) false;
   TAscii ByLeo None "own" (Some 0%nat) true;
   TNet (OSend 0 (packet 7) (Mac 2) 2048)] ++ map (@TNet NumZ) (repeat ORun 4) ++
  [TNet (OSetQueue 0 (Some (fun q _ => (List.length q <? 2)%nat))); TNet (OSend 0 (packet 8) (Mac 2) 2048)] ++ map (@TNet NumZ) (repeat ORun 4).
Example ex_C70 : holds (fun s =>
    t_file (snd s) "leo" = Some [2;1;7; 2;2;7; 2;2;7; 3;1;7; 3;2;7; 3;2;7; 1;1;7; 1;2;7; 1;2;7; 1;1;8; 1;2;8; 1;2;8] /\
    t_file (snd s) "ch" = Some [2;2;7; 3;2;7] /\ t_file (snd s) "own" = Some [2;0;7; 3;0;7]) (traced ex_ascii).
Proof. vm_compute. auto. Qed.

(** "Each event of the device is one line of the stream" is false. *)
Theorem C70_once_refuted : exists (ops rest : list (trace_op NumZ)) w tr w' tr',
  traced (ops ++ [TStream "leo"; TAscii ByLeo (Some 0%nat) "" (Some 0%nat) false]) = Ok (w, tr) /\
  trace_run ex_crc true ex_tx ex_mob [0] ex_record ex_line ex_name ex_name (w, tr) rest = Ok (w', tr') /\
  map (fun x => snd (fst (fst x))) (filter (fun x => Nat.eqb (fst (fst (fst x))) 0)
    (history ex_crc true (fun d => d_up (w_dev w d)) (fun _ => true) (since w w'))) = [SEnqueue; SDequeue] /\
  t_file tr' "leo" = Some (let q := ex_line MarkEnqueue in let r := ex_line MarkDequeue in
    let mock := Some (0, 0, false, SEnqueue)%nat in let leo := Some (0, 0, true, SEnqueue)%nat in
    q mock 0 (packet 7) ++ q leo 0 (packet 7) ++ q leo 0 (packet 7) ++
    r mock 0 (packet 7) ++ r leo 0 (packet 7) ++ r leo 0 (packet 7)).
Proof.
  set (ops := map (@TNet NumZ) (leo4 0) ++ [TStream "leo"; TAscii ByLeo (Some 0%nat) "" (Some 0%nat) false]).
  set (rest := TNet (OSend 0 (packet 7) (Mac 2) 2048) :: map (@TNet NumZ) (repeat ORun 4)).
  assert (H : holds (fun s => holds (fun s' =>
      map (fun x => snd (fst (fst x))) (filter (fun x => Nat.eqb (fst (fst (fst x))) 0)
        (history ex_crc true (fun d => d_up (w_dev (fst s) d)) (fun _ => true) (since (fst s) (fst s')))) = [SEnqueue; SDequeue] /\
      t_file (snd s') "leo" = Some [2;1;7; 2;2;7; 2;2;7; 3;1;7; 3;2;7; 3;2;7])
    (trace_run ex_crc true ex_tx ex_mob [0] ex_record ex_line ex_name ex_name s rest)) (traced ops))
    by (vm_compute; auto 10).
  apply holds_ok in H as ([w tr] & E & H). apply holds_ok in H as ([w' tr'] & E' & F & C).
  exists (map (@TNet NumZ) (leo4 0)), rest, w, tr, w', tr'. cbn [fst snd] in *.
  split; [exact E|]. split; [exact E'|]. split; [exact F|]. exact C.
Qed.
Print Assumptions C70_once_refuted.
