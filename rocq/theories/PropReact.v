(** C90: upper layers that send from within the callbacks of devices. *)
Require Import ZArith List Bool Lia Permutation.
Require Import Verif.Base Verif.Num Verif.FrameModel Verif.NetModel Verif.NetSpec Verif.NetSteps Verif.NetInv Verif.NetTxProofs
  Verif.ReactModel Verif.ReactSpec Verif.ReactProofs Verif.NetExamples.
Import ListNotations.
Local Open Scope Z_scope.

(** An execution in which answers are sent from within callbacks and trace sinks ends as
    one in which they are sent when the event is over: in the same state, with the same
    receptions and the same sends and transmissions in the same order. Only the order of
    receptions relative to the sends at the same instant differs. So what is proved of the
    states and traces of executions without answers holds with them. *)
Theorem C90_reentrant : forall (N : Num) crc fcs tx_time has_mob react, no_answer_to_end react ->
  forall (w0 : world N) ops w, runR crc fcs tx_time has_mob react w0 ops = Ok w ->
  exists ops' v, answered react ops ops' /\ NetModel.run crc fcs tx_time has_mob w0 ops' = Ok v /\ alike w v.
Proof. intros N crc fcs tx_time has_mob react Q w0 ops w H. eapply runR_open; [exact Q|apply alike_refl|exact H]. Qed.
Print Assumptions C90_reentrant.

(** Answers are sent at once: behind every observation of a reception the trace goes on
    with what sending its answers leaves. *)
Theorem C90_at_once : forall (N : Num) crc fcs tx_time has_mob react, no_answer_to_end react ->
  forall (w0 : world N) ops w, runR crc fcs tx_time has_mob react w0 ops = Ok w ->
  forall l x r, w_log w = w_log w0 ++ l ++ x :: r -> receiving (snd x) = true ->
  exists (w1 w2 : world N) r2, w_log w1 = w_log w0 ++ l ++ [x] /\
    sends crc fcs tx_time has_mob w1 (react (w_log w0 ++ l ++ [x])) = Ok w2 /\ w_log w = w_log w2 ++ r2.
Proof.
  intros N crc fcs tx_time has_mob react Q w0 ops w H l x r E RX.
  assert (P : prompt crc fcs tx_time has_mob react (w_log w0) w).
  { eapply prompt_run; [exact Q| |exact H]. split; [exists []; rewrite app_nil_r; reflexivity|].
    intros l' x' r' E' _. rewrite <- (app_nil_r (w_log w0)) in E' at 1. apply app_inv_head in E'. destruct l'; discriminate. }
  destruct P as [_ P]. destruct (P l x r E RX) as (w1 & w2 & r2 & A & B & C). exists w1, w2, r2. rewrite A in B. auto.
Qed.
Print Assumptions C90_at_once.

(** No assertion on the state of a transmitter fails, however packets are answered. *)
Theorem C90_no_assertion : forall (N : Num) crc fcs tx_time has_mob react, no_answer_to_end react ->
  forall (w0 : world N) ops, reachable crc fcs tx_time has_mob w0 ->
  runR crc fcs tx_time has_mob react w0 ops <> Abort AssertTx.
Proof. intros N crc fcs tx_time has_mob react Q w0 ops R. eapply runR_no_tx; [exact Q|apply alike_refl|exact R]. Qed.
Print Assumptions C90_no_assertion.

(** Every packet of protocol 2048 is sent back with protocol 2049; whoever overhears a
    packet sends a note of protocol 2050 to device 2. *)
Definition ex_answer (l : trace) : list sending :=
  match rev l with
  | (_, RxCallback d src payload q from to own) :: _ => if q =? 2048 then [(d, mkPkt 100 payload, Mac from, 2049)] else []
  | (_, PromiscCallback d src payload q from to t) :: _ => if q =? 2048 then [(d, mkPkt 200 [9], Mac 3, 2050)] else []
  | _ => []
  end.
Definition ex_ping : list (op NumZ) := isl3 0 ++ OSet 1 CPromiscCallback :: OSend 0 (packet 7) (Mac 2) 2048 :: repeat ORun 12.
Example ex_C90_quiet : no_answer_to_end ex_answer.
Proof. intros l t d p. unfold ex_answer. rewrite rev_app_distr. reflexivity. Qed.
(** The note leaves before the packet is handed to the protocols; then the packet is
    sent back, behind the note. Only the note arrives: like all packets that wait, the
    answer goes where the packet before it went. *)
Example ex_C90_ping : holds (fun w =>
    map (fun x => snd (brief x)) (filter (fun x => match snd x with RxCallback _ _ _ _ _ _ _ | PromiscCallback _ _ _ _ _ _ _ | Sent _ _ _ _ _ _ | MacRx _ _ => true | _ => false end) (w_log w)) =
    [[0; 0; 7; 2; 1]; [16; 1; 0; 2048; 1; 2]; [0; 1; 200; 3; 1]; [13; 1; 7]; [15; 1; 0; 2048; 1; 2; 2]; [0; 1; 100; 1; 1];
     [13; 2; 200]; [15; 2; 1; 2050; 2; 3; 3]] /\ w_events w = [])
  (runR ex_crc true ex_tx ex_mob ex_answer start ex_ping).
Proof. vm_compute. auto. Qed.

(** Without the note, the answer arrives. *)
Example ex_C90_pong : holds (fun w : world NumZ =>
    map (fun x => snd (brief x)) (filter (fun x => match snd x with RxCallback _ _ _ _ _ _ _ | Sent _ _ _ _ _ _ => true | _ => false end) (w_log w)) =
    [[0; 0; 7; 2; 1]; [15; 1; 0; 2048; 1; 2; 2]; [0; 1; 100; 1; 1]; [15; 0; 1; 2049; 2; 1; 1]] /\ w_events w = [])
  (runR ex_crc true ex_tx ex_mob ex_answer start (isl3 0 ++ OSend 0 (packet 7) (Mac 2) 2048 :: repeat ORun 12)).
Proof. vm_compute. auto. Qed.

(** ** Sending from the sink of the end of a transmission *)

(** It is not safe. If other packets are waiting, the next assertion fails at once;
    otherwise the device forgets the packet that it transmits ([m_currentPkt] is cleared
    after the trace), and no execution ever gets past the end of that transmission. *)
Theorem C90_end_sink : forall (N : Num) crc fcs tx_time has_mob react (w : world N) d dest t r admit cur p a q,
  w_events w = (t, TxComplete d dest) :: r -> d_cur (w_dev w d) = Some cur -> d_up (w_dev w d) = true ->
  d_queue (w_dev w d) = Some admit ->
  admit (d_q (w_dev w d)) (mkPkt (p_uid p) (AddHeader crc fcs (g_addr (d_cfg (w_dev w d))) a q (p_bytes p))) = true ->
  react (w_log w ++ [(t, PhyTxEnd d cur)]) = [(d, p, Mac a, q)] ->
  forall ops w', runR crc fcs tx_time has_mob react w (ORun :: ops) = Ok w' ->
  d_q (w_dev w d) = [] /\ exists t', jammed d t' a w'.
Proof.
  intros N crc fcs tx_time has_mob react w d dest t r admit cur p a q EV CU UP QU AD RE ops w' H.
  cbn [runR stepR] in H. apply bind_ok in H as (w1 & H1 & H).
  destruct (end_sink crc fcs tx_time has_mob react w w1 d dest t r admit cur p a q EV CU UP QU AD RE H1) as (Q & t' & J).
  split; [exact Q|]. exists t'. eapply runR_jam; eassumption.
Qed.
Print Assumptions C90_end_sink.

(** Without the condition on the sink, the assertion fails. *)
Definition ex_endless (l : trace) : list sending :=
  match rev l with (_, PhyTxEnd 0 _) :: _ => [(0%nat, packet 8, Mac 3, 2048)] | _ => [] end.
Theorem C90_assertion_refuted : exists react ops,
  runR ex_crc true ex_tx ex_mob react (@start NumZ) ops = Abort AssertTx.
Proof. exists ex_endless, (isl3 0 ++ OSend 0 (packet 7) (Mac 2) 2048 :: repeat ORun 4). vm_compute. reflexivity. Qed.
Print Assumptions C90_assertion_refuted.

(** In both ways: with packets waiting, at the first end; else at the second. *)
Example ex_C90_end_sink :
  runR ex_crc true ex_tx ex_mob ex_endless (@start NumZ) (isl3 0 ++ OSend 0 (packet 7) (Mac 2) 2048 :: OSend 0 (packet 9) (Mac 2) 2048 :: repeat ORun 2) = Abort AssertTx /\
  holds (fun w => d_busy (w_dev w 0%nat) = true /\ d_cur (w_dev w 0%nat) = None /\ map fst (w_events w) = [128000000; 128000000])
    (runR ex_crc true ex_tx ex_mob ex_endless (@start NumZ) (isl3 0 ++ OSend 0 (packet 7) (Mac 2) 2048 :: repeat ORun 2)) /\
  holds (fun w => d_cur (w_dev w 0%nat) <> None /\ d_up (w_dev w 0%nat) = true /\ d_q (w_dev w 0%nat) = [] /\
      exists r, w_events w = (64000000, TxComplete 0 2) :: r)
    (runR ex_crc true ex_tx ex_mob ex_endless (@start NumZ) (isl3 0 ++ OSend 0 (packet 7) (Mac 2) 2048 :: repeat ORun 0)).
Proof. vm_compute. intuition (try discriminate). eexists. reflexivity. Qed.
