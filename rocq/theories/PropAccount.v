(** C96: what the records of the delay program account for. *)
Require Import ZArith String List Bool Lia Permutation.
Require Import Verif.Base Verif.Num Verif.FrameModel Verif.NetModel Verif.NetSpec Verif.NetRunSpec Verif.NetSteps Verif.NetInv
  Verif.NetTxProofs Verif.NetDrainProofs Verif.NetExamples Verif.PropTx Verif.PropChan Verif.PropRun
  Verif.AccountModel Verif.AccountSpec Verif.AccountProofs.
Import ListNotations.
Local Open Scope Z_scope.

(** The file has one line for each observation of the sources asked for, in their order.
    The count on a line is the size of all packets on it and the lines before it, of
    whatever source and device. *)
Theorem C96_lines : forall serialized traceDrops traceTxRx sinks (l : trace),
  set_up_traces false traceDrops traceTxRx = Ok sinks ->
  let file := trace_lines serialized sinks l in
  let entries := flat_map (noted traceDrops traceTxRx) l in
  map (fun x => (l_time x, l_dev x, l_source x, l_uid x)) file = map (fun x => (fst x, p_uid (snd x))) entries /\
  forall i x, nth_error file i = Some x -> l_count x = total serialized (firstn (S i) (map snd entries)) mod 2 ^ 64.
Proof. intros serialized a b sinks l H. exact (lines_noted serialized a b sinks l H). Qed.
Print Assumptions C96_lines.

(** There is no source PhyRx: where ns-3 insists that something is connected, the program
    ends; otherwise there is no line of it. *)
Theorem C96_set_up : forall strict traceDrops traceTxRx,
  (exists sinks, set_up_traces strict traceDrops traceTxRx = Ok sinks) <-> (strict = false \/ traceTxRx = false).
Proof.
  intros [] [] []; (split; [intros [s H]; try discriminate H; auto|intros [H|H]; try discriminate H; eexists; reflexivity]).
Qed.
Print Assumptions C96_set_up.
Theorem C96_PhyRx_refuted : ~ exists serialized traceDrops sinks l x,
  set_up_traces false traceDrops true = Ok sinks /\ In x (trace_lines serialized sinks l) /\
  (l_source x = "PhyRx" \/ l_source x = "PhyRxEnd" \/ l_source x = "PhyRxBegin")%string.
Proof.
  intros (serialized & a & sinks & l & x & H & HI & S). destruct (C96_lines serialized a true sinks l H) as [M _].
  apply (in_map (fun x => (l_time x, l_dev x, l_source x, l_uid x))) in HI. rewrite M in HI.
  apply in_map_iff in HI as (y & E & HI). apply in_flat_map in HI as ([t o] & _ & HI).
  assert (F : l_source x = snd (fst y)) by (destruct y as [[[? ?] ?] ?]; cbn in E; injection E as _ _ -> _; reflexivity).
  rewrite F in S. unfold noted in HI. cbn [fst snd] in HI.
  destruct o, a; cbn in HI; try contradiction; destruct HI as [<-|[]]; cbn in S; intuition discriminate.
Qed.
Print Assumptions C96_PhyRx_refuted.

(** Every call of Send ends in a MacTxDrop, in the transmitter, or waits. *)
Theorem C96_sends : forall (N : Num) crc fcs tx_time has_mob dk ck ops (w : world N),
  NetModel.run crc fcs tx_time has_mob (initial dk ck) ops = Ok w -> forall d,
  sends_on d ops = (length (mac_tx_drop d (w_log w)) + length (accepted crc fcs d (w_log w)))%nat /\
  (queue_kept crc fcs d (w_log w) ->
   sends_on d ops = (length (mac_tx_drop d (w_log w)) + length (begun d (w_log w)) + length (d_q (w_dev w d)))%nat).
Proof.
  intros N crc fcs tx_time has_mob dk ck ops w H d.
  assert (S : sends_on d ops = (length (mac_tx_drop d (w_log w)) + length (accepted crc fcs d (w_log w)))%nat).
  { pose proof (sends_settled crc fcs tx_time has_mob ops _ _ d H) as S. unfold settled in S. cbn [initial w_log mac_tx_drop accepted flat_map length] in S.
    rewrite S. reflexivity. }
  split; [exact S|]. intros K.
  pose proof (C35_accepted_in_order N crc fcs tx_time has_mob w (ex_intro _ dk (ex_intro _ ck (ex_intro _ ops H))) d K) as A.
  apply (f_equal (@length _)) in A. rewrite map_length, app_length in A. lia.
Qed.
Print Assumptions C96_sends.

(** Every reception that a channel schedules is still to come, or is reported as dropped
    or as received, or is one of the unreported. *)
Theorem C96_receptions : forall (N : Num) crc fcs tx_time has_mob (w : world N), reachable crc fcs tx_time has_mob w -> forall d,
  coming d (scheduled (w_log w)) =
  (coming d (waiting (w_events w)) + at_dev d mac_rx_drop (w_log w) + at_dev d phy_rx_drop (w_log w) + at_dev d mac_rx (w_log w) +
   unreported d (w_log w))%nat.
Proof.
  intros N crc fcs tx_time has_mob w R d. destruct (C46_receptions_conserved N crc fcs tx_time has_mob w R) as [P _].
  unfold coming at 1. rewrite (perm_filter _ _ _ _ P), filter_app, app_length.
  pose proof (performed_dev d (w_log w)) as D. pose proof (reachable_balanced crc fcs tx_time has_mob w d R) as B.
  unfold coming in *. unfold balanced in B. lia.
Qed.
Print Assumptions C96_receptions.

(** The unreported are the good frames for other hosts. *)
Theorem C96_unreported : forall (N : Num) crc fcs tx_time has_mob (w : world N) o w', step crc fcs tx_time has_mob w o = Ok w' -> forall d,
  (unreported d (w_log w') = S (unreported d (w_log w)) <-> o = ORun /\ for_another crc fcs d w) /\
  (unreported d (w_log w') = unreported d (w_log w) <-> ~ (o = ORun /\ for_another crc fcs d w)).
Proof.
  intros N crc fcs tx_time has_mob w o w' H d. destruct (step_unreported crc fcs tx_time has_mob w o w' d H) as [(A & B & C)|(A & B)].
  - split; split; intros X; try tauto. lia.
  - split; split; intros X; try tauto. lia.
Qed.
Print Assumptions C96_unreported.

(** The same read off the file of a program that has come to rest, with both options on. *)
Definition lines_with (d : nat) (source : string) (file : list line) : nat :=
  length (filter (fun x => Nat.eqb (l_dev x) d && String.eqb (l_source x) source) file).
Lemma lines_entries : forall serialized sinks l d source, set_up_traces false true true = Ok sinks ->
  lines_with d source (trace_lines serialized sinks l) =
  length (filter (fun x : Z * nat * string * pkt => Nat.eqb (snd (fst (fst x))) d && String.eqb (snd (fst x)) source) (flat_map (noted true true) l)).
Proof.
  intros serialized sinks l d source H. destruct (C96_lines serialized true true sinks l H) as [M _]. unfold lines_with.
  set (f := fun y : Z * nat * string * Z => Nat.eqb (snd (fst (fst y))) d && String.eqb (snd (fst y)) source).
  assert (G : forall A (g : A -> Z * nat * string * Z) m, length (filter (fun x => f (g x)) m) = length (filter f (map g m))).
  { intros A g m. induction m as [|x r IH]; [reflexivity|]. cbn. destruct (f (g x)); cbn; rewrite IH; reflexivity. }
  pose proof (G _ (fun x => (l_time x, l_dev x, l_source x, l_uid x)) (trace_lines serialized sinks l)) as A.
  pose proof (G _ (fun x : Z * nat * string * pkt => (fst x, p_uid (snd x))) (flat_map (noted true true) l)) as B.
  rewrite M, <- B in A. exact A.
Qed.

Theorem C96_file : forall (N : Num) crc fcs tx_time has_mob dk ck ops (w : world N) serialized sinks,
  NetModel.run crc fcs tx_time has_mob (initial dk ck) ops = Ok w -> w_events w = [] -> set_up_traces false true true = Ok sinks ->
  let file := trace_lines serialized sinks (w_log w) in forall d,
  (queue_kept crc fcs d (w_log w) -> sends_on d ops = (lines_with d "MacTxDrop" file + length (ended d (w_log w)))%nat) /\
  coming d (scheduled (w_log w)) =
    (lines_with d "MacRxDrop" file + lines_with d "PhyRxDrop" file + lines_with d "MacRx" file + unreported d (w_log w))%nat.
Proof.
  intros N crc fcs tx_time has_mob dk ck ops w serialized sinks H E ST file d.
  assert (R : reachable crc fcs tx_time has_mob w) by (exists dk, ck, ops; exact H). unfold file.
  assert (C : forall l, lines_with d "MacTxDrop" (trace_lines serialized sinks l) = length (mac_tx_drop d l) /\
    lines_with d "MacRxDrop" (trace_lines serialized sinks l) = at_dev d mac_rx_drop l /\
    lines_with d "PhyRxDrop" (trace_lines serialized sinks l) = at_dev d phy_rx_drop l /\
    lines_with d "MacRx" (trace_lines serialized sinks l) = at_dev d mac_rx l).
  { intros l. rewrite !lines_entries by exact ST. unfold mac_tx_drop, at_dev. induction l as [|[t o] r (A & B & C & D)]; [auto|].
    cbn [flat_map filter]. rewrite !filter_app, !app_length, A, B, C, D. clear A B C D.
    destruct o; cbn; auto; destruct (Nat.eqb _ d); cbn; auto. }
  destruct (C (w_log w)) as (-> & -> & -> & ->). split.
  - intros K. destruct (C96_sends N crc fcs tx_time has_mob dk ck ops w H d) as [_ S]. rewrite (S K).
    pose proof (resting crc fcs tx_time has_mob w R E) as [_ Q]. destruct (Q d) as [B Q'].
    destruct (reachable_records crc fcs tx_time has_mob d w R) as ((M & CM & EM) & _). rewrite B, app_nil_r in EM.
    assert (EB : ended d (w_log w) = begun d (w_log w)) by (apply ended_begun; rewrite EM; exact CM).
    rewrite EB. assert (Z0 : d_q (w_dev w d) = []) by tauto. rewrite Z0. cbn. lia.
  - rewrite (C96_receptions N crc fcs tx_time has_mob w R d), E. reflexivity.
Qed.
Print Assumptions C96_file.

(** Not everything that is lost leaves a line: a broadcast between satellites that nobody
    hears is not reported, although traceDrops is on and the network has come to rest. *)
Definition ex_silent : list (op NumZ) :=
  isl3 10 ++ [OSetLoss 0 (Some (fun (_ : num NumZ) _ _ _ => (-1000 : num NumZ)));
              OSend 0 (packet 9) (Mac 281474976710655) 2048; ORun].
Theorem C96_silent_refuted : exists (ops : list (op NumZ)) w sinks, after true ops = Ok w /\ w_events w = [] /\
  set_up_traces false true false = Ok sinks /\ length (accepted ex_crc true 0 (w_log w)) = 1%nat /\
  (forall t c p src dst tx delay, ~ In (t, TxRx c p src dst tx delay) (w_log w)) /\
  forall serialized, trace_lines serialized sinks (w_log w) = [].
Proof.
  exists ex_silent. assert (X : holds (fun w => w_events w = [] /\ length (accepted ex_crc true 0 (w_log w)) = 1%nat /\
    existsb (fun x => match snd x with TxRx _ _ _ _ _ _ => true | _ => false end) (w_log w) = false /\
    flat_map (noted true false) (w_log w) = []) (after true ex_silent)) by (vm_compute; auto).
  apply holds_ok in X as (w & E & A & B & C & D). exists w, ["MacTxDrop"; "PhyTxDrop"; "MacRxDrop"; "PhyRxDrop"]%string.
  split; [exact E|]. split; [exact A|]. split; [reflexivity|]. split; [exact B|]. split.
  - intros t c p src dst tx delay HI.
    assert (T : existsb (fun x => match snd x with TxRx _ _ _ _ _ _ => true | _ => false end) (w_log w) = true)
      by (apply existsb_exists; eexists; split; [exact HI|reflexivity]). congruence.
  - intros serialized. destruct (C96_lines serialized true false _ (w_log w) eq_refl) as [M _]. rewrite D in M.
    destruct (trace_lines _ _ _); [reflexivity|discriminate].
Qed.
Print Assumptions C96_silent_refuted.

(** Device 0 sends four packets to device 1, of which its queue refuses one; device 2 is
    asked to send to nobody. *)
Example ex_C96 :
  let ops := isl3 0 ++ [OSend 0 (packet 7) (Mac 2) 2048; OSend 0 (packet 8) (Mac 2) 2048; OSend 0 (packet 9) (Mac 2) 2048;
                        OSend 0 (packet 10) (Mac 2) 2048; OSend 2 (packet 11) (Mac 77) 2048] ++ repeat ORun 12 in
  holds (fun w => w_events w = [] /\ sends_on 0 ops = 4%nat /\ length (ended 0 (w_log w)) = 3%nat /\ coming 1 (scheduled (w_log w)) = 3%nat /\
    holds (fun sinks => map (fun x => (l_dev x, l_source x, l_uid x, l_count x)) (trace_lines (fun p => p_uid p) sinks (w_log w)) =
      [(0%nat, "MacTx", 7, 7); (0%nat, "MacTx", 8, 15); (0%nat, "MacTx", 9, 24); (0%nat, "MacTx", 10, 34); (0%nat, "MacTxDrop", 10, 44);
       (2%nat, "MacTx", 11, 55); (2%nat, "PhyTxDrop", 11, 66); (1%nat, "MacRx", 7, 73); (1%nat, "MacRx", 8, 81); (1%nat, "MacRx", 9, 90)]%string)
      (set_up_traces false true true)) (after true ops).
Proof. vm_compute. auto 10. Qed.
(** On the LEO channel the satellite 3 also gets what the ground device 0 sends to 1. *)
Example ex_C96_unreported : holds (fun w => w_events w = [] /\ unreported 3 (w_log w) = 1%nat /\ unreported 1 (w_log w) = 0%nat /\
    at_dev 1 mac_rx (w_log w) = 1%nat /\ coming 3 (scheduled (w_log w)) = 1%nat)
  (after true (leo4 0 ++ [OSend 0 (packet 7) (Mac 2) 2048] ++ repeat ORun 6)).
Proof. vm_compute. auto 10. Qed.
