(** C84: configuration, and attributes and calls of devices without effect.
    C85: disposal of devices. C86: flow control. *)
Require Import ZArith List Bool Lia.
Require Import Verif.Base Verif.Num Verif.FrameModel Verif.NetModel Verif.NetSpec Verif.NetSteps Verif.NetRunSpec
  Verif.NetExamples Verif.TraceModel Verif.LifeModel Verif.LifeSpec Verif.LifeProofs Verif.FlowProofs.
Import ListNotations.
Local Open Scope Z_scope.

(** ** C84 *)
Theorem C84_configuration : forall (N : Num) crc fcs tx_time has_mob dk ck ops (w : world N) d,
  run crc fcs tx_time has_mob (initial dk ck) ops = Ok w ->
  let g := d_cfg (w_dev w d) in
  g_node g = last_given (given d (fun s => match s with CNode n => Some (Some n) | _ => None end)) ops None /\
  g_addr g = last_given (given d (fun s => match s with CAddress a => Some a | _ => None end)) ops (2 ^ 48 - 1) /\
  g_bps g = last_given (given d (fun s => match s with CRate r => Some r | _ => None end)) ops 32768 /\
  g_gap g = last_given (given d (fun s => match s with CGap t => Some t | _ => None end)) ops 0 /\
  g_thr g = last_given (given d (fun s => match s with CThreshold x => Some x | _ => None end)) ops (nZ N (-1000)) /\
  g_txp g = last_given (given d (fun s => match s with CTxPower x => Some x | _ => None end)) ops (nZ N 1) /\
  g_gain g = last_given (given d (fun s => match s with CRxGain x => Some x | _ => None end)) ops (nZ N 0) /\
  g_loss g = last_given (given d (fun s => match s with CRxLoss x => Some x | _ => None end)) ops (nZ N 0) /\
  g_err g = last_given (given d (fun s => match s with CErrorModel f => Some f | _ => None end)) ops None /\
  g_rxcb g = last_given (given d (fun s => match s with CRxCallback => Some true | _ => None end)) ops false /\
  g_pcb g = last_given (given d (fun s => match s with CPromiscCallback => Some true | _ => None end)) ops false /\
  g_kind g = (if dk d then last_given (given d (fun s => match s with CType b => Some (if b then Sat else Gnd) | _ => None end)) ops Gnd else Plain).
Proof.
  intros N crc fcs tx_time has_mob dk ck ops w d H g.
  assert (K : forall ops (w0 w : world N), run crc fcs tx_time has_mob w0 ops = Ok w ->
    g_kind (d_cfg (w_dev w d)) = match g_kind (d_cfg (w_dev w0 d)) with Plain => Plain
      | k => last_given (given d (fun s => match s with CType b => Some (if b then Sat else Gnd) | _ => None end)) ops k end).
  { clear. induction ops as [|o r IH]; intros w0 w H; cbn in H; [injection H as <-; destruct (g_kind _); reflexivity|].
    apply bind_ok in H as (w1 & H1 & H). rewrite (IH w1 w H). clear IH H.
    rewrite (step_config crc fcs tx_time has_mob w0 o w1 d H1). unfold last_given. cbn [fold_left].
    destruct o; try (destruct (g_kind _); reflexivity). cbn [given]. destruct (Nat.eqb d0 d); [|destruct (g_kind _); reflexivity].
    destruct s; cbn; destruct (g_kind (d_cfg (w_dev w0 d))); try reflexivity; destruct sat; reflexivity. }
  unfold g. repeat match goal with |- _ /\ _ => split end;
    try (match goal with |- ?get (d_cfg (w_dev w d)) = last_given (given d ?f) ops _ =>
           exact (run_config crc fcs tx_time has_mob _ get f ltac:(intros ? []; reflexivity) ops (initial dk ck) w d H) end).
  rewrite (K ops (initial dk ck) w H). cbn. destruct (dk d); reflexivity.
Qed.
Print Assumptions C84_configuration.

(** MTU, interface index and SendFrom change nothing: every execution goes as without. *)
Theorem C84_no_effect : forall (N : Num) crc fcs tx_time has_mob (y : system N) ops, Forall net_or_idle ops ->
  agree (fun w y' => w = y_net y') (run crc fcs tx_time has_mob (y_net y) (net_ops ops)) (yrun crc fcs tx_time has_mob y ops).
Proof. intros. apply yrun_exact. assumption. Qed.
Print Assumptions C84_no_effect.
(** Nor do the interface and initialisation, as far as they do not fail. *)
Theorem C84_no_effect_of_interface : forall (N : Num) crc fcs tx_time has_mob (y y' : system N) ops, Forall (fun o => ~ disposes o) ops ->
  yrun crc fcs tx_time has_mob y ops = Ok y' -> run crc fcs tx_time has_mob (y_net y) (net_ops ops) = Ok (y_net y').
Proof. intros. eapply yrun_net; eassumption. Qed.
Print Assumptions C84_no_effect_of_interface.
Theorem C84_read_back : forall (N : Num) crc fcs tx_time has_mob dk ck ops (y : system N) d,
  yrun crc fcs tx_time has_mob (new_system (initial dk ck)) ops = Ok y ->
  GetMtu y d = last_mtu d ops 1500 /\
  GetIfIndex y d = match last_index d ops None with Some i => Ok i | None => UB Uninit end /\
  (forall m, fst (SetMtu y d m) = true) /\ (forall p a b q, SendFrom y d p a b q = (false, y)).
Proof.
  intros N crc fcs tx_time has_mob dk ck ops y d H. apply (yrun_mtu crc fcs tx_time has_mob ops _ y d) in H as [E1 E2].
  split; [exact E1|]. split; [unfold GetIfIndex; rewrite E2; reflexivity|]. split; reflexivity.
Qed.
Print Assumptions C84_read_back.

Definition yafter (ops : list (call NumZ)) : res (system NumZ) := yrun ex_crc true ex_tx ex_mob (new_system start) ops.
Definition plainly (l : list (op NumZ)) : list (call NumZ) := map YNet l.
(** A packet that is longer than the MTU of its sender is sent and received. *)
Theorem C84_mtu_refuted : exists y, yafter (plainly (isl3 0) ++ [YSetMtu 0 2; YNet (OSend 0 (packet 7) (Mac 2) 2048); YNet ORun; YNet ORun]) = Ok y /\
  GetMtu y 0 = 2 /\ In (64000000, RxCallback 1 0 [7; 2; 3] 2048 1 2 2) (w_log (y_net y)).
Proof.
  apply holds_ok. vm_compute. split; [reflexivity|].
  repeat match goal with |- ?a = ?b \/ _ => first [left; reflexivity | right] end.
Qed.
Print Assumptions C84_mtu_refuted.
Example ex_C84 : holds (fun y => GetMtu y 0 = 65535 /\ GetIfIndex y 1 = Ok 4 /\ GetIfIndex y 0 = UB Uninit /\
    g_bps (d_cfg (w_dev (y_net y) 0%nat)) = 8000 /\ g_addr (d_cfg (w_dev (y_net y) 1%nat)) = 2 /\ g_kind (d_cfg (w_dev (y_net y) 1%nat)) = Gnd)
  (yafter (plainly (isl3 0) ++ [YSetMtu 0 (-1); YSetIfIndex 1 3; YSendFrom 0 (packet 7) (Mac 1) (Mac 2) 2048; YSetIfIndex 1 4])).
Proof. vm_compute. auto 10. Qed.

(** ** C85 *)
Theorem C85_disposed : forall (N : Num) (w : world N) d, let v := DoDispose w d in let x := w_dev v d in
  (node_of v d = None /\ d_chan x = None /\ d_queue x = None /\ d_q x = [] /\ d_cur x = None /\ g_err (d_cfg x) = None) /\
  (d_up x = d_up (w_dev w d) /\ d_busy x = d_busy (w_dev w d) /\ addr_of v d = addr_of w d) /\
  w_chan v = w_chan w /\ w_events v = w_events w /\ w_log v = w_log w /\ (forall e, e <> d -> w_dev v e = w_dev w e).
Proof.
  intros N w d v x. unfold x, v. rewrite dispose_addr, dispose_dev. unfold node_of. rewrite dispose_dev. cbn.
  split; [repeat split|]. split; [repeat split|]. repeat split. intros e He. apply dispose_other. assumption.
Qed.
Print Assumptions C85_disposed.
Theorem C85_disposed_once : forall (N : Num) (y : system N) d, Dispose (Dispose y d) d = Dispose y d.
Proof.
  intros N y d. unfold Dispose at 1. destruct (s_disposed (y_side (Dispose y d) d)) eqn:E; [reflexivity|].
  unfold Dispose in E. destruct (s_disposed (y_side y d)) eqn:F; [congruence|]. cbn in E. rewrite upd_same in E. discriminate.
Qed.
Print Assumptions C85_disposed_once.
(** The call: it disposes of this device, and of no other. *)
Theorem C85_dispose_call : forall (N : Num) crc fcs tx_time has_mob (y y' : system N) d,
  ystep crc fcs tx_time has_mob y (YDispose d) = Ok y' ->
  (s_disposed (y_side y d) = true -> y' = y) /\
  (s_disposed (y_side y d) = false -> let x := w_dev (y_net y') d in
     (node_of (y_net y') d = None /\ d_chan x = None /\ d_queue x = None /\ d_q x = [] /\ d_cur x = None /\ g_err (d_cfg x) = None) /\
     (s_disposed (y_side y' d) = true /\ s_iface (y_side y' d) = None /\ s_conn (y_side y' d) = [] /\
      GetMtu y' d = GetMtu y d /\ GetIfIndex y' d = GetIfIndex y d)) /\
  (forall e, e <> d -> w_dev (y_net y') e = w_dev (y_net y) e /\ y_side y' e = y_side y e) /\
  w_now (y_net y') = w_now (y_net y) /\ w_chan (y_net y') = w_chan (y_net y) /\ w_events (y_net y') = w_events (y_net y) /\
  w_log (y_net y') = w_log (y_net y) /\ y_notes y' = y_notes y.
Proof.
  intros N crc fcs tx_time has_mob y y' d H. cbn in H. injection H as <-. unfold Dispose.
  destruct (s_disposed (y_side y d)) eqn:E.
  - split; [reflexivity|]. split; [discriminate|]. auto 10.
  - split; [discriminate|]. split.
    + intros _. cbn zeta. cbn [y_net y_side]. unfold node_of, GetMtu, GetIfIndex. cbn [y_net y_side]. rewrite dispose_dev, !upd_same. cbn. auto 20.
    + cbn. split; [|auto 10]. intros e He. rewrite !upd_other by assumption. auto.
Qed.
Print Assumptions C85_dispose_call.

(** Calls of the device itself, and the end of its transmission. *)
Theorem C85_own_calls : forall (N : Num) crc fcs tx_time has_mob (w : world N) d p a q, let v := DoDispose w d in
  Send crc fcs tx_time has_mob v d p (Mac a) q =
    (if d_up (w_dev w d) then UB NullDeref
     else Ok (false, log1 (log1 v (Sent d p a q (addr_of w d) false)) (MacTxDrop d p))) /\
  (forall t dest r, w_events w = (t, TxComplete d dest) :: r -> step crc fcs tx_time has_mob v ORun = Abort AssertTx).
Proof.
  intros N crc fcs tx_time has_mob w d p a q v. split.
  - unfold Send, v. rewrite dispose_addr, dispose_dev. cbn. destruct (d_up (w_dev w d)); reflexivity.
  - intros t dest r E. cbn. unfold run_next. change (w_events v) with (w_events w). rewrite E. unfold DoTransmitComplete. cbn.
    rewrite upd_same. cbn. destruct (d_busy (w_dev w d)); reflexivity.
Qed.
Print Assumptions C85_own_calls.

(** Frames in flight are received as by a device without error model. *)
Theorem C85_in_flight : forall (N : Num) crc fcs (w : world N) d p src power,
  agree (fun a b => w_log a = w_log b) (Receive crc fcs (Configure w d (CErrorModel None)) d p src power)
        (Receive crc fcs (DoDispose w d) d p src power).
Proof.
  intros N crc fcs w d p src power. unfold Receive. rewrite dispose_dev. unfold Configure, set_dev. cbn [w_dev]. rewrite upd_same.
  cbn [d_cfg apply_setting g_err g_thr g_addr g_rxcb g_pcb].
  replace (DoCalcRxPower (mkCfg (g_kind (d_cfg (w_dev w d))) (g_node (d_cfg (w_dev w d))) _ _ _ _ _ _ _ _ _ _) power)
    with (DoCalcRxPower (mkCfg (g_kind (d_cfg (w_dev w d))) None (g_addr (d_cfg (w_dev w d))) (g_bps (d_cfg (w_dev w d))) (g_gap (d_cfg (w_dev w d)))
            (g_thr (d_cfg (w_dev w d))) (g_txp (d_cfg (w_dev w d))) (g_gain (d_cfg (w_dev w d))) (g_loss (d_cfg (w_dev w d))) None
            (g_rxcb (d_cfg (w_dev w d))) (g_pcb (d_cfg (w_dev w d)))) power) by reflexivity.
  destruct (Nat.eqb src d); [reflexivity|]. destruct (nlt N _ _); [reflexivity|].
  destruct (Decapsulate crc fcs (p_bytes p)) as [[|pl pr fr to]|x|x]; cbn [bind]; try reflexivity.
  destruct (g_pcb _); destruct (classify _ _); try destruct (g_rxcb _); reflexivity.
Qed.
Print Assumptions C85_in_flight.

(** Whoever sends to it ends the simulation. *)
Theorem C85_sending_to_disposed : forall (N : Num) crc fcs tx_time has_mob (w : world N) d src c p dest q admit,
  reachable crc fcs tx_time has_mob w -> src <> d -> recipient w c src dest d ->
  d_chan (w_dev w src) = Some c -> d_up (w_dev w src) = true -> d_busy (w_dev w src) = false ->
  d_queue (w_dev w src) = Some admit -> d_q (w_dev w src) = [] -> admit [] (frame_of crc fcs p dest q (addr_of w src)) = true ->
  timed w c -> 0 <= g_gap (d_cfg (w_dev w src)) -> (forall r n, 0 <= tx_time r n) ->
  step crc fcs tx_time has_mob (DoDispose w d) (OSend src p (Mac dest) q) = UB NullDeref.
Proof.
  intros N crc fcs tx_time has_mob w d src c p dest q admit HR Hs HA HC HU HB HQ HE HAd HT Hg Htx.
  apply reachable_indexed in HR. cbn [step]. unfold Send. rewrite dispose_addr. rewrite !dispose_other by assumption. rewrite HU, HQ, HE, HB. cbn [negb app].
  fold (frame_of crc fcs p dest q (addr_of w src)). rewrite HAd. cbv zeta.
  match goal with |- context [TransmitStart tx_time has_mob ?x src _ dest] => set (v := x) end.
  unfold TransmitStart.
  assert (DV : w_dev v src = mkDev (d_cfg (w_dev w src)) (Some admit) [] false (d_cur (w_dev w src)) (Some c) (d_id (w_dev w src)) true).
  { unfold v. cbn. rewrite upd_same. rewrite upd_other by assumption. rewrite HQ, HC, HU. reflexivity. }
  rewrite DV. cbn [d_busy d_cfg d_chan d_q d_id]. unfold schedule.
  match goal with |- context [if ?t <? 0 then _ else _] => destruct (Z.ltb_spec t 0) as [L|L] end.
  { specialize (Htx (g_bps (d_cfg (w_dev w src))) (len (p_bytes (frame_of crc fcs p dest q (addr_of w src))))). lia. }
  cbn [bind].
  match goal with |- context [ChannelTransmitStart _ ?b _ _ _ _ _] => set (vb := b) end.
  assert (EI : d_id (w_dev vb src) = d_id (w_dev w src)).
  { unfold vb, v. cbn. rewrite !upd_same. cbn. rewrite ?upd_other by assumption. reflexivity. }
  rewrite <- EI. rewrite (Channel_dead has_mob vb c _ src dest _ d); [reflexivity| | | | |].
  - rewrite EI. unfold vb, v. cbn. apply HR. assumption.
  - exact HT.
  - apply Htx.
  - assert (AB : forall x, addr_of vb x = addr_of w x).
    { intros x. unfold vb, v, addr_of. cbn. unfold upd. destruct (Nat.eqb_spec x src) as [->|].
      - rewrite ?Nat.eqb_refl. cbn. destruct (Nat.eqb_spec src d) as [->|]; reflexivity.
      - destruct (Nat.eqb_spec x d) as [->|]; reflexivity. }
    unfold recipient in HA |- *. cbv zeta in HA |- *. rewrite EI. change (w_chan vb) with (w_chan w). destruct (c_kind (w_chan w c)).
    + destruct HA as [(k & H1 & H2 & H3)|(H1 & H2 & H3)]; [left; exists k|right].
      * rewrite AB. repeat split; try assumption. intros j x. rewrite AB. apply H3.
      * split; [intros x; rewrite AB; apply H1|auto].
    + rewrite AB. exact HA.
  - unfold vb, v, node_of. cbn. rewrite !upd_other by congruence. rewrite upd_same. reflexivity.
Qed.
Print Assumptions C85_sending_to_disposed.

(** A device that nothing calls: the rest of the network goes on as if it had not been disposed of. *)
Theorem C85_invisible : forall (N : Num) crc fcs tx_time has_mob (w : world N) d ops,
  reachable crc fcs tx_time has_mob w -> apart d w -> Forall (elsewhere_op d) ops ->
  agree (same_but d) (run crc fcs tx_time has_mob w ops) (run crc fcs tx_time has_mob (DoDispose w d) ops).
Proof.
  intros N crc fcs tx_time has_mob w d ops HR HA HO. apply reachable_indexed in HR.
  pose proof (run_sim crc fcs tx_time has_mob d ops w _ (dispose_sim d w HR HA) HO) as H.
  destruct (run crc fcs tx_time has_mob w ops), (run crc fcs tx_time has_mob (DoDispose w d) ops); cbn in H |- *; try assumption. apply H.
Qed.
Print Assumptions C85_invisible.
(** Detaching from its LEO channel makes a device such a one, if it is idle and has kept its address. *)
Theorem C85_detached : forall (N : Num) crc fcs tx_time has_mob (w w1 : world N) d c i,
  nth_error (c_link (w_chan w c)) i = Some d -> c_kind (w_chan w c) = LeoChannel ->
  (forall t dest, ~ In (t, TxComplete d dest) (w_events w)) -> (forall t p src power, ~ In (t, RxEvent d p src power) (w_events w)) ->
  (forall c', c' <> c -> ~ In d (c_link (w_chan w c')) /\ forall a, ~ In (a, d) (c_gnd (w_chan w c')) /\ ~ In (a, d) (c_sat (w_chan w c'))) ->
  (forall a, In (a, d) (c_gnd (w_chan w c)) \/ In (a, d) (c_sat (w_chan w c)) -> a = addr_of w d) ->
  step crc fcs tx_time has_mob w (ODetach c i) = Ok w1 -> apart d w1.
Proof. intros. eapply retire; eassumption. Qed.
Print Assumptions C85_detached.
(** At the end of a simulation devices are disposed of safely. *)
Theorem C85_at_rest : forall (N : Num) crc fcs tx_time has_mob (w : world N) ds ops, at_rest w ->
  Forall (fun o => match o with ORun | OAdvance _ => True | _ => False end) ops ->
  exists v, run crc fcs tx_time has_mob (fold_left DoDispose ds w) ops = Ok v /\ w_log v = w_log w.
Proof.
  intros N crc fcs tx_time has_mob w ds ops [HE _] HO.
  assert (E : w_events (fold_left DoDispose ds w) = [] /\ w_log (fold_left DoDispose ds w) = w_log w).
  { revert w HE. induction ds as [|d ds IH]; intros w HE; [auto|]. cbn [fold_left]. apply (IH (DoDispose w d)). exact HE. }
  revert E. generalize (fold_left DoDispose ds w). induction ops as [|o r IH]; intros v [E L]; [exists v; auto|].
  inversion HO as [|? ? H1 H2]; subst. destruct o; try contradiction; cbn.
  - destruct (_ && _); cbn; apply (IH H2); cbn; auto.
  - unfold run_next. rewrite E. cbn. apply (IH H2). auto.
Qed.
Print Assumptions C85_at_rest.

(** On an inter-satellite channel detaching is not enough. *)
Theorem C85_isl_refuted : exists w, after true (isl3 10 ++ [ODetach 0 1]) = Ok w /\ w_events w = [] /\ d_up (w_dev w 1%nat) = false /\
  step ex_crc true ex_tx ex_mob (DoDispose w 1) (OSend 0 (packet 7) (Mac 2) 2048) = UB NullDeref.
Proof. apply holds_ok. vm_compute. auto. Qed.
Print Assumptions C85_isl_refuted.
(** A frame that the error model rejects is received, if the device is disposed of before it arrives. *)
Theorem C85_error_model_refuted : exists w, after true (isl3 0 ++ [OSet 1 (CErrorModel (Some (fun _ _ => true))); OSend 0 (packet 7) (Mac 2) 2048; ORun]) = Ok w /\
  holds (fun v => forall t src pl q from to own, ~ In (t, RxCallback 1 src pl q from to own) (w_log v)) (step ex_crc true ex_tx ex_mob w ORun) /\
  holds (fun v => In (64000000, RxCallback 1 0 [7; 2; 3] 2048 1 2 2) (w_log v)) (step ex_crc true ex_tx ex_mob (DoDispose w 1) ORun).
Proof.
  apply holds_ok. vm_compute. split.
  - intros t src pl q from to own H. repeat (destruct H as [H|H]; [discriminate|]). destruct H.
  - repeat match goal with |- ?a = ?b \/ _ => first [left; reflexivity | right] end.
Qed.
Print Assumptions C85_error_model_refuted.

(** Ground device 0 and satellites 1, 3 on LEO channel 1; ground device 2 is detached and disposed of. *)
Example ex_C85 : holds (fun w => apart 2 w /\
    holds (fun v => exists t, In (t, RxCallback 1 0 [7; 2; 3] 2048 1 2 2) (w_log v))
      (run ex_crc true ex_tx ex_mob (DoDispose w 2) [OSend 0 (packet 7) (Mac 2) 2048; ORun; ORun; ORun]))
  (after true (leo4 10 ++ [ODetach 1 2])).
Proof.
  vm_compute. split.
  - split; [intros ? ? []|split; [intros ? ? ? ? []|]]. intros [|[|c]]; cbn.
    + intros [].
    + intros a. split; intros H; repeat (destruct H as [H|H]; [discriminate|]); destruct H.
    + intros a. split; intros [].
  - eexists. repeat match goal with |- ?a = ?b \/ _ => first [left; reflexivity | right] end.
Qed.
Example ex_C85_sending : holds (fun w => recipient w 1 0 2 1 /\ timed w 1 /\
    step ex_crc true ex_tx ex_mob (DoDispose w 1) (OSend 0 (packet 7) (Mac 2) 2048) = UB NullDeref /\
    step ex_crc true ex_tx ex_mob (DoDispose w 1) (OSend 1 (packet 7) (Mac 2) 2048) = UB NullDeref)
  (after true (leo4 10)).
Proof.
  vm_compute. split; [|split; [intros f a b H; discriminate|auto]].
  left. split; [eexists; left; reflexivity|]. split; [|auto].
  intros [x H]. repeat (destruct H as [H|H]; [discriminate|]). destruct H.
Qed.

(** ** C86 *)
(** What an interface is told to be waiting changes with what is waiting, times the
    number of its connections. *)
Theorem C86_reported : forall (N : Num) crc fcs tx_time has_mob (y y' : system N) ops d q,
  yreachable crc fcs tx_time has_mob y -> Forall keeps_queues ops -> (forall e, e <> d -> ~ In q (s_conn (y_side y e))) ->
  yrun crc fcs tx_time has_mob y ops = Ok y' ->
  exists notes, y_notes y' = y_notes y ++ notes /\
    told q notes = Z.of_nat (count_occ Nat.eq_dec (s_conn (y_side y d)) q) *
                   (bytes (d_q (w_dev (y_net y') d)) - bytes (d_q (w_dev (y_net y) d))).
Proof.
  intros N crc fcs tx_time has_mob y y' ops d q HR HK HO H. eapply reported; try eassumption. eapply yreachable_indexed; eassumption.
Qed.
Print Assumptions C86_reported.

(** Devices of LeoChannelHelper::Install have two connections once initialised. *)
Theorem C86_installed_twice : forall (N : Num) crc fcs tx_time has_mob (y y1 y' : system N) d q c admit mid ops,
  yreachable crc fcs tx_time has_mob y -> s_object (y_side y d) = None -> s_iface (y_side y d) = None -> s_initialized (y_side y d) = false ->
  Forall (leaves_queue d) mid ->
  yrun crc fcs tx_time has_mob y (install_queue d q c admit ++ mid ++ [YInitialize d]) = Ok y1 ->
  d_q (w_dev (y_net y1) d) = [] -> (forall e, e <> d -> ~ In q (s_conn (y_side y1 e))) ->
  Forall keeps_queues ops -> yrun crc fcs tx_time has_mob y1 ops = Ok y' ->
  s_conn (y_side y1 d) = [q; q] /\
  exists notes, y_notes y' = y_notes y1 ++ notes /\ told q notes = 2 * bytes (d_q (w_dev (y_net y') d)).
Proof.
  intros N crc fcs tx_time has_mob y y1 y' d q c admit mid ops HR HO HF HI HM H HE HQ HK H'.
  assert (HX : indexed_ok (y_net y1)) by (eapply yrun_indexed; [eapply yreachable_indexed; exact HR|exact H]).
  assert (C : s_conn (y_side y1 d) = [q; q]).
  { unfold install_queue in H. cbn [app yrun] in H.
    apply bind_ok in H as (a1 & A1 & H). apply bind_ok in H as (a2 & A2 & H). apply bind_ok in H as (a3 & A3 & H). apply bind_ok in H as (a4 & A4 & H).
    rewrite yrun_app in H. apply bind_ok in H as (a5 & A5 & H). cbn in H. apply bind_ok in H as (a6 & A6 & H). injection H as <-.
    cbn in A1. injection A1 as <-.
    cbn in A2. unfold ConnectQueueTraces in A2. destruct (d_queue _); [|discriminate]. injection A2 as <-.
    assert (M : yrun crc fcs tx_time has_mob a3 (YNet (OAttach d c) :: mid) = Ok a5) by (cbn [yrun]; rewrite A4; exact A5).
    erewrite (aggregated_conn crc fcs tx_time has_mob _ a3 a5 a6 d q (YNet (OAttach d c) :: mid)); [| | | |exact A3|constructor; [exact I|exact HM]|exact M|exact A6].
    - cbn. rewrite !upd_same. reflexivity.
    - cbn. rewrite !upd_same. exact HO.
    - cbn. rewrite !upd_same. exact HF.
    - cbn. rewrite !upd_same. exact HI. }
  split; [exact C|]. destruct (reported crc fcs tx_time has_mob ops y1 y' d q HX HK HQ H') as (notes & E & T).
  exists notes. split; [exact E|]. rewrite T. unfold heard_by. rewrite C, HE. cbn [count_occ]. destruct (Nat.eq_dec q q); [|congruence]. change (bytes []) with 0. lia.
Qed.
Print Assumptions C86_installed_twice.
(** An interface that is only aggregated is connected once, by initialisation. *)
Theorem C86_aggregated_once : forall (N : Num) crc fcs tx_time has_mob (y y1 y' : system N) d q mid ops,
  yreachable crc fcs tx_time has_mob y -> s_object (y_side y d) = None -> s_iface (y_side y d) = None -> s_initialized (y_side y d) = false ->
  s_conn (y_side y d) = [] -> Forall (leaves_queue d) mid ->
  yrun crc fcs tx_time has_mob y (YAggregate d (Some q) :: mid ++ [YInitialize d]) = Ok y1 ->
  d_q (w_dev (y_net y1) d) = [] -> (forall e, e <> d -> ~ In q (s_conn (y_side y1 e))) ->
  Forall keeps_queues ops -> yrun crc fcs tx_time has_mob y1 ops = Ok y' ->
  exists notes, y_notes y' = y_notes y1 ++ notes /\ told q notes = bytes (d_q (w_dev (y_net y') d)).
Proof.
  intros N crc fcs tx_time has_mob y y1 y' d q mid ops HR HO HF HI HC HM H HE HQ HK H'.
  assert (HX : indexed_ok (y_net y1)) by (eapply yrun_indexed; [eapply yreachable_indexed; exact HR|exact H]).
  assert (C : s_conn (y_side y1 d) = [q]).
  { cbn [yrun] in H. apply bind_ok in H as (a3 & A3 & H).
    rewrite yrun_app in H. apply bind_ok in H as (a5 & A5 & H). cbn in H. apply bind_ok in H as (a6 & A6 & H). injection H as <-.
    erewrite (aggregated_conn crc fcs tx_time has_mob y a3 a5 a6 d q mid); [rewrite HC; reflexivity|assumption..]. }
  destruct (reported crc fcs tx_time has_mob ops y1 y' d q HX HK HQ H') as (notes & E & T).
  exists notes. split; [exact E|]. rewrite T. unfold heard_by. rewrite C, HE. cbn [count_occ]. destruct (Nat.eq_dec q q); [|congruence]. change (bytes []) with 0. lia.
Qed.
Print Assumptions C86_aggregated_once.
(** Initialisation fails exactly if there is an interface but no queue. *)
Theorem C86_initialize : forall (N : Num) (y : system N) d,
  match Initialize y d with
  | Ok _ => s_initialized (y_side y d) = true \/ s_iface (y_side y d) = None \/ d_queue (w_dev (y_net y) d) <> None
  | Abort _ => s_initialized (y_side y d) = false /\ s_iface (y_side y d) <> None /\ d_queue (w_dev (y_net y) d) = None
  | UB _ => False
  end.
Proof.
  intros N y d. unfold Initialize. destruct (s_initialized (y_side y d)); [auto|]. unfold DoInitialize.
  destruct (s_iface (y_side y d)); [|cbn; auto]. unfold ConnectQueueTraces. destruct (d_queue (w_dev (y_net y) d)); cbn.
  - right. right. discriminate.
  - split; [reflexivity|]. split; [discriminate|reflexivity].
Qed.
Print Assumptions C86_initialize.

(** Two ground-link devices as LeoChannelHelper installs them, with interfaces 70 and 71;
    three packets sent at once, of which two wait. *)
Definition ex_flow : list (call NumZ) :=
  let dev d q := plainly [OSet d (CAddress (Z.of_nat d + 1)); OSet d (CNode (10 + d)); OSet d CRxCallback; OSet d (CRate 8000)]
                 ++ install_queue d q 1 (fun l _ => (length l <? 5)%nat) in
  plainly [OSet 1%nat (CType true)] ++ dev 1%nat 70%nat ++ dev 0%nat 71%nat ++ [YInitialize 0; YInitialize 1].
Definition ex_three : list (call NumZ) := plainly [OSend 0 (packet 7) (Mac 2) 2048; OSend 0 (packet 8) (Mac 2) 2048; OSend 0 (packet 9) (Mac 2) 2048].
Theorem C86_flow_refuted : exists y, yafter (ex_flow ++ ex_three) = Ok y /\
  bytes (d_q (w_dev (y_net y) 0%nat)) = 128 /\ told 71 (y_notes y) = 256.
Proof. apply holds_ok. vm_compute. auto. Qed.
Print Assumptions C86_flow_refuted.
Example ex_C86 : holds (fun y => d_q (w_dev (y_net y) 0%nat) = [] /\ s_conn (y_side y 0%nat) = [71%nat; 71%nat] /\
    s_conn (y_side y 1%nat) = [70%nat; 70%nat] /\ y_notes y = []) (yafter ex_flow) /\
  Forall keeps_queues ex_three /\
  holds (fun y => told 5 (y_notes y) = 128 /\ bytes (d_q (w_dev (y_net y) 0%nat)) = 128)
    (yafter (plainly (setup 10 0 0 ++ setup 10 0 1) ++ [YAggregate 0 (Some 5%nat); YAggregate 0 None; YInitialize 0; YInitialize 0] ++ ex_three)) /\
  yafter (plainly (setup 10 0 0) ++ [YAggregate 0 (Some 5%nat); YAggregate 0 (Some 6%nat)]) = Abort AssertFailed /\
  yafter [YAggregate 0 (Some 5%nat); YInitialize 0] = Abort AssertFailed.
Proof. split; [vm_compute; auto|]. split; [repeat constructor|]. vm_compute. auto. Qed.
