(** Without further calls the simulator comes to rest: every event is finite work. *)
Require Import ZArith List Bool Lia Permutation.
Require Import Verif.Base Verif.Num Verif.FrameModel Verif.NetModel Verif.NetSpec Verif.NetRunSpec Verif.NetSteps Verif.NetInv
  Verif.NetTxProofs Verif.NetSendProofs Verif.NetChanProofs Verif.NetOrderProofs Verif.FrameProofs.
Import ListNotations.
Local Open Scope Z_scope.

Section Drain.
  Context {N : Num}.
  Variable crc : list Z -> Z.
  Variable fcs : bool.
  Variable tx_time : Z -> Z -> Z.
  Variable has_mob : nat -> bool.
  Notation step := (@step N crc fcs tx_time has_mob).
  Notation run := (@run N crc fcs tx_time has_mob).
  Notation reachable := (@reachable N crc fcs tx_time has_mob).
  Implicit Type w : world N.

  Definition is_rx (x : Z * ev N) : Prop := match snd x with RxEvent _ _ _ _ => True | _ => False end.
  Definition insert_all (l acc : list (Z * ev N)) : list (Z * ev N) := fold_left (fun a x => insert_event x a) l acc.

  (** [w'] is [w] with more receptions scheduled. *)
  Definition more w w' : Prop := w_dev w' = w_dev w /\ w_chan w' = w_chan w /\ w_now w' = w_now w /\
    exists l, w_events w' = insert_all l (w_events w) /\ Forall is_rx l.
  Lemma more_refl : forall w, more w w.
  Proof. intros w. repeat split. exists []. split; [reflexivity|constructor]. Qed.
  Lemma more_trans : forall a b c, more a b -> more b c -> more a c.
  Proof.
    intros a b c (A1 & A2 & A3 & l & A4 & A5) (B1 & B2 & B3 & m & B4 & B5).
    split; [congruence|]. split; [congruence|]. split; [congruence|]. exists (l ++ m). split.
    - rewrite B4, A4. unfold insert_all. rewrite fold_left_app. reflexivity.
    - apply Forall_app. auto.
  Qed.
  Lemma Deliver_more : forall w c p src dst tx b w', Deliver has_mob w c p src dst tx = Ok (b, w') -> more w w'.
  Proof.
    intros w c p src dst tx b w' H. apply (Deliver_spec has_mob) in H as (m & n & _ & _ & [(_ & -> & _)|(_ & _ & _ & ->)]).
    - apply more_refl.
    - repeat split. eexists [_]. split; [reflexivity|]. constructor; [exact I|constructor].
  Qed.
  Lemma deliver_all_more : forall dsts w c p src tx b w', deliver_all has_mob w c p src dsts tx = Ok (b, w') -> more w w'.
  Proof.
    induction dsts as [|d r IH]; intros w c p src tx b w' H; cbn in H.
    - injection H as _ <-. apply more_refl.
    - apply bind_ok in H as ([b1 w1] & H1 & H). apply bind_ok in H as ([b2 w2] & H2 & H). injection H as _ <-.
      eapply more_trans; [eapply Deliver_more; exact H1|eapply IH; exact H2].
  Qed.
  Lemma Channel_more : forall w c p i dest tx b w', ChannelTransmitStart has_mob w c p i dest tx = Ok (b, w') -> more w w'.
  Proof.
    intros w c p i dest tx b w' H. unfold ChannelTransmitStart, IslTransmitStart, LeoTransmitStart in H.
    destruct (c_kind _), (nth_error _ _); try (injection H as _ <-; apply more_refl).
    - destruct (GetDevice _ _ _); [eapply Deliver_more; exact H|].
      destruct (_ =? _); [|injection H as _ <-; apply more_refl].
      apply bind_ok in H as ([b1 w1] & H1 & H). injection H as _ <-. eapply deliver_all_more; exact H1.
    - destruct (indexed _ (c_gnd _)), (indexed _ (c_sat _)); cbn [andb] in H; try discriminate;
        try (eapply deliver_all_more; exact H). injection H as _ <-. apply more_refl.
  Qed.

  (** What TransmitStart does to devices and events. *)
  Lemma TransmitStart_events : forall w d p dest b w', TransmitStart tx_time has_mob w d p dest = Ok (b, w') ->
    d_busy (w_dev w d) = false /\
    w_dev w' = upd (w_dev w) d (let x := w_dev w d in mkDev (d_cfg x) (d_queue x) (d_q x) true (Some p) (d_chan x) (d_id x) (d_up x)) /\
    exists t l, w_events w' = insert_all l (insert_event (t, TxComplete d dest) (w_events w)) /\ Forall is_rx l.
  Proof.
    intros w d p dest b w' H. unfold TransmitStart in H.
    destruct (d_busy (w_dev w d)); [discriminate|]. split; [reflexivity|].
    apply bind_ok in H as (w2 & H1 & H). apply schedule_ok in H1 as [_ ->].
    destruct (d_chan (w_dev w d)) as [c|] eqn:C; [|discriminate].
    apply bind_ok in H as ([r w4] & H1 & H). apply Channel_more in H1 as (A1 & _ & _ & l & A4 & A5).
    assert (E : w_dev w' = w_dev w4 /\ w_events w' = w_events w4) by (destruct r; injection H as _ <-; split; reflexivity).
    destruct E as [-> ->]. split.
    - rewrite A1. cbn. rewrite C. reflexivity.
    - eexists _, l. split; [exact A4|exact A5].
  Qed.

  (** ** Work left *)
  Definition todo (devs : nat -> dev N) (x : Z * ev N) : nat :=
    match snd x with TxComplete d _ => S (length (d_q (devs d))) | RxEvent _ _ _ _ => 0 end.
  Fixpoint work (devs : nat -> dev N) (l : list (Z * ev N)) : nat :=
    match l with [] => 0%nat | x :: r => (todo devs x + work devs r)%nat end.
  Definition rxs (l : list (Z * ev N)) : nat := length (waiting l).

  Lemma work_insert : forall devs x l, work devs (insert_event x l) = (todo devs x + work devs l)%nat.
  Proof.
    intros devs x l. induction l as [|y r IH]; [reflexivity|]. cbn. destruct (fst y <=? fst x); [|reflexivity].
    cbn [work]. rewrite IH. lia.
  Qed.
  Lemma work_insert_all : forall devs l acc, Forall is_rx l -> work devs (insert_all l acc) = work devs acc.
  Proof.
    intros devs l. induction l as [|x r IH]; intros acc H; [reflexivity|]. inversion H as [|? ? Hx Hr]; subst.
    change (insert_all (x :: r) acc) with (insert_all r (insert_event x acc)).
    rewrite IH by exact Hr. rewrite work_insert. unfold is_rx in Hx. unfold todo. destruct (snd x); [destruct Hx|reflexivity].
  Qed.
  Lemma work_upd : forall devs d x l, ends d l = [] -> work (upd devs d x) l = work devs l.
  Proof.
    intros devs d x l. induction l as [|[t e] r IH]; intros H; [reflexivity|].
    unfold ends in H. cbn in H. apply app_eq_nil in H as [H1 H2]. cbn. rewrite IH by exact H2. f_equal.
    unfold todo. cbn. destruct e as [d' dest|]; [|reflexivity]. cbn in H1. unfold upd.
    destruct (Nat.eqb d' d); [discriminate|reflexivity].
  Qed.

  Lemma run_next_work : forall w w', reachable w -> w_events w <> [] -> run_next crc fcs tx_time has_mob w = Ok w' ->
    (work (w_dev w') (w_events w') < work (w_dev w) (w_events w))%nat \/
    (work (w_dev w') (w_events w') = work (w_dev w) (w_events w) /\ (rxs (w_events w') < rxs (w_events w))%nat).
  Proof.
    intros w w' R NE H. unfold run_next in H. destruct (w_events w) as [|[t e] r] eqn:E; [congruence|].
    destruct e as [d dest|dst p src power].
    - left. destruct (busy_pending crc fcs tx_time has_mob d w R) as (_ & HE & _). rewrite E in HE.
      assert (Er : ends d r = []).
      { unfold ends in HE. cbn in HE. rewrite Nat.eqb_refl in HE. cbn in HE.
        unfold ends. destruct (flat_map _ r); [reflexivity|cbn in HE; lia]. }
      unfold DoTransmitComplete in H. cbn [w_dev] in H.
      destruct (negb _); [discriminate|]. destruct (d_cur _) as [cur|]; [|discriminate].
      destruct (d_queue _) as [admit|]; [|discriminate]. destruct (d_q (w_dev w d)) as [|h q] eqn:Q.
      + injection H as <-. cbn. rewrite work_upd by exact Er. unfold todo. cbn. rewrite Q. cbn. lia.
      + apply bind_ok in H as ([b3 w3] & H & H3). injection H3 as <-.
        apply TransmitStart_events in H as (_ & HD & t' & l & HV & HL). rewrite HV, HD. cbn.
        rewrite work_insert_all by exact HL. rewrite work_insert, !work_upd by exact Er.
        unfold todo. cbn. rewrite !upd_same. cbn. rewrite Q. cbn. lia.
    - right. apply Receive_emit in H as (l & ->). cbn. split; [reflexivity|]. unfold rxs. cbn. lia.
  Qed.

  Lemma reachable_step : forall w o w', reachable w -> step w o = Ok w' -> reachable w'.
  Proof.
    intros w o w' (dk & ck & ops & H) S. exists dk, ck, (ops ++ [o]).
    assert (A : forall l (x : world N), run x l = Ok w -> run x (l ++ [o]) = Ok w').
    { induction l as [|y l IH]; intros x Hx; cbn in *.
      - injection Hx as ->. rewrite S. reflexivity.
      - apply bind_ok in Hx as (x1 & H1 & H2). rewrite H1. cbn. auto. }
    apply A. exact H.
  Qed.

  Lemma drain : forall w, reachable w -> exists n,
    match run w (repeat ORun n) with Ok w' => reachable w' /\ w_events w' = [] | _ => True end.
  Proof.
    assert (D : forall k m w, (work (w_dev w) (w_events w) <= k)%nat -> (rxs (w_events w) <= m)%nat -> reachable w ->
      exists n, match run w (repeat ORun n) with Ok w' => reachable w' /\ w_events w' = [] | _ => True end).
    2:{ intros w R. eapply D; [apply le_n|apply le_n|exact R]. }
    induction k as [k IHk] using lt_wf_ind. induction m as [m IHm] using lt_wf_ind. intros w Hk Hm R.
    destruct (w_events w) as [|x r] eqn:E; [exists 0%nat; cbn; auto|].
    destruct (run_next crc fcs tx_time has_mob w) as [w1|e|e] eqn:RN.
    2,3: exists 1%nat; cbn; rewrite RN; exact I.
    assert (R1 : reachable w1) by (apply (reachable_step w ORun); assumption).
    assert (NE : w_events w <> []) by congruence.
    pose proof (run_next_work w w1 R NE RN) as P. rewrite <- E in Hk, Hm.
    assert (X : exists n, match run w1 (repeat ORun n) with Ok w' => reachable w' /\ w_events w' = [] | _ => True end).
    { destruct P as [P|[P1 P2]].
      - apply (IHk (work (w_dev w1) (w_events w1)) ltac:(lia) (rxs (w_events w1)) w1); auto.
      - apply (IHm (rxs (w_events w1)) ltac:(lia) w1); auto. lia. }
    destruct X as [n X]. exists (S n). cbn. rewrite RN. exact X.
  Qed.

  (** A simulator at rest. *)
  Lemma resting : forall w, reachable w -> w_events w = [] -> at_rest w.
  Proof.
    intros w R E. split; [exact E|]. intros d. destruct (busy_pending crc fcs tx_time has_mob d w R) as (HB & _ & HQ). rewrite E in HB.
    destruct (d_busy (w_dev w d)); [|auto]. destruct HB as [HB _]. specialize (HB eq_refl). discriminate.
  Qed.
  Lemma stays_at_rest : forall n w, w_events w = [] -> run w (repeat ORun n) = Ok w.
  Proof. induction n as [|n IH]; intros w E; [reflexivity|]. cbn. unfold run_next. rewrite E. cbn. auto. Qed.
  Lemma run_app : forall l1 l2 w, run w (l1 ++ l2) = bind (run w l1) (fun w' => run w' l2).
  Proof.
    induction l1 as [|o r IH]; intros l2 w; [reflexivity|]. cbn. destruct (step w o); cbn; auto.
  Qed.

  (** ** Pending receptions *)
  Lemma in_insert : forall (x y : Z * ev N) l, In x (insert_event y l) <-> x = y \/ In x l.
  Proof.
    intros x y l. induction l as [|z r IH]; cbn; [intuition|]. destruct (fst z <=? fst y); cbn; [rewrite IH|]; intuition.
  Qed.
  Lemma in_insert_all : forall (x : Z * ev N) l acc, In x acc -> In x (insert_all l acc).
  Proof.
    intros x l. induction l as [|y r IH]; intros acc H; [exact H|].
    change (insert_all (y :: r) acc) with (insert_all r (insert_event y acc)). apply IH, in_insert. auto.
  Qed.

  Lemma Send_events : forall w d p dest q b w' x, Send crc fcs tx_time has_mob w d p dest q = Ok (b, w') ->
    In x (w_events w) -> In x (w_events w').
  Proof.
    intros w d p dest q b w' x H HI. unfold Send in H. destruct dest as [a|].
    - destruct (negb _); [injection H as _ <-; exact HI|]. destruct (d_queue _) as [admit|]; [|discriminate].
      destruct (admit _ _); [|injection H as _ <-; exact HI].
      destruct (d_busy _); [injection H as _ <-; exact HI|]. destruct (_ ++ _) as [|h r]; [discriminate|].
      apply bind_ok in H as ([b3 w3] & H & H3). injection H3 as _ <-.
      apply TransmitStart_events in H as (_ & _ & t & l & HV & _). rewrite HV. apply in_insert_all, in_insert. right. exact HI.
    - destruct (d_up _); [discriminate|]. injection H as _ <-. exact HI.
  Qed.

  Lemma step_events : forall w o w' x, step w o = Ok w' -> In x (w_events w) ->
    In x (w_events w') \/ (o = ORun /\ exists r, w_events w = x :: r).
  Proof.
    intros w o w' x H HI. destruct o; cbn in H.
    - left. apply bind_ok in H as ([b w1] & H & H1). injection H1 as <-. eapply Send_events; eassumption.
    - left. injection H as <-. exact HI.
    - left. injection H as <-. exact HI.
    - left. apply Attach_spec in H as (g & s & _ & _ & _ & _ & _ & _ & -> & _). exact HI.
    - left. apply bind_ok in H as ([b w1] & H & H1). injection H1 as <-. unfold ChannelDetach, BaseDetach in H.
      destruct (c_kind _); [|destruct (nth_error _ i) as [y|] eqn:E; [|discriminate]];
        injection H as H; cbn in H; revert H; [|rewrite upd_same; cbn];
        (destruct (nth_error _ i); [destruct (d_up _)|]); intros H; injection H as _ <-; exact HI.
    - left. injection H as <-. exact HI.
    - left. injection H as <-. exact HI.
    - left. injection H as <-. exact HI.
    - left. destruct (_ && _); injection H as <-; exact HI.
    - unfold run_next in H. destruct (w_events w) as [|[t e] r] eqn:E; [destruct HI|].
      destruct HI as [<-|HI]; [right; eauto|left].
      destruct e as [d dest|dst p src power].
      + unfold DoTransmitComplete in H. cbn [w_dev] in H.
        destruct (negb _); [discriminate|]. destruct (d_cur _) as [cur|]; [|discriminate].
        destruct (d_queue _) as [admit|]; [|discriminate]. destruct (d_q _) as [|h q]; [injection H as <-; exact HI|].
        apply bind_ok in H as ([b3 w3] & H & H3). injection H3 as <-.
        apply TransmitStart_events in H as (_ & _ & t' & l & HV & _). rewrite HV. apply in_insert_all, in_insert. right. exact HI.
      + apply Receive_emit in H as (l & ->). exact HI.
  Qed.

  (** Configuration and log of a device as others act. *)
  Lemma TransmitStart_cfg : forall w d p dest b w' x, TransmitStart tx_time has_mob w d p dest = Ok (b, w') ->
    d_cfg (w_dev w' x) = d_cfg (w_dev w x).
  Proof.
    intros w d p dest b w' x H. apply TransmitStart_events in H as (_ & -> & _). unfold upd.
    destruct (Nat.eqb_spec x d) as [->|]; reflexivity.
  Qed.
  Lemma step_cfg : forall w o w' d, step w o = Ok w' -> leaves d o -> d_cfg (w_dev w' d) = d_cfg (w_dev w d).
  Proof.
    intros w o w' d H L. destruct o; cbn in H.
    - apply bind_ok in H as ([b w1] & H & H1). injection H1 as <-. unfold Send in H. destruct dest as [a|].
      + destruct (negb _); [injection H as _ <-; reflexivity|]. destruct (d_queue _) as [admit|]; [|discriminate].
        destruct (admit _ _); [|injection H as _ <-; reflexivity].
        destruct (d_busy _).
        { injection H as _ <-. cbn. unfold upd. destruct (Nat.eqb_spec d d0) as [->|]; reflexivity. }
        destruct (_ ++ _) as [|h r]; [discriminate|].
        apply bind_ok in H as ([b3 w3] & H & H3). injection H3 as _ <-. rewrite (TransmitStart_cfg _ _ _ _ _ _ d H).
        cbn. unfold upd. destruct (Nat.eqb_spec d d0) as [->|]; reflexivity.
      + destruct (d_up _); [discriminate|]. injection H as _ <-. reflexivity.
    - injection H as <-. cbn in L. unfold Configure, set_dev. cbn. rewrite upd_other by congruence. reflexivity.
    - injection H as <-. unfold SetQueue, set_dev. cbn. unfold upd. destruct (Nat.eqb_spec d d0) as [->|]; reflexivity.
    - apply Attach_spec in H as (g & s & _ & _ & _ & _ & _ & _ & _ & _ & H1 & H2 & _).
      destruct (Nat.eq_dec d d0) as [->|]; [rewrite H2; reflexivity|rewrite H1 by assumption; reflexivity].
    - apply bind_ok in H as ([b w1] & H & H1). injection H1 as <-. unfold ChannelDetach, BaseDetach in H.
      assert (A : forall (x : world N) y up, d_cfg (w_dev (set_link x y up) d) = d_cfg (w_dev x d)).
      { intros x y up. unfold set_link, set_dev. cbn. unfold upd. destruct (Nat.eqb_spec d y) as [->|]; reflexivity. }
      destruct (c_kind _); [|destruct (nth_error _ i) as [y|] eqn:E; [|discriminate]];
        injection H as H; revert H; [|cbn [set_chan w_chan]; rewrite upd_same; cbn [c_link]];
        (destruct (nth_error _ i); [destruct (d_up _)|]); intros H; injection H as _ <-; rewrite ?A; reflexivity.
    - injection H as <-. unfold set_link, set_dev. cbn. unfold upd. destruct (Nat.eqb_spec d d0) as [->|]; reflexivity.
    - injection H as <-. reflexivity.
    - injection H as <-. reflexivity.
    - destruct (_ && _); injection H as <-; reflexivity.
    - unfold run_next in H. destruct (w_events w) as [|[t e] r] eqn:E; [injection H as <-; reflexivity|].
      destruct e as [d' dest|dst p src power].
      + unfold DoTransmitComplete in H. cbn [w_dev] in H.
        destruct (negb _); [discriminate|]. destruct (d_cur _) as [cur|]; [|discriminate].
        destruct (d_queue _) as [admit|]; [|discriminate]. destruct (d_q _) as [|h q].
        { injection H as <-. cbn. unfold upd. destruct (Nat.eqb_spec d d') as [->|]; reflexivity. }
        apply bind_ok in H as ([b3 w3] & H & H3). injection H3 as <-. rewrite (TransmitStart_cfg _ _ _ _ _ _ d H).
        cbn. unfold upd. destruct (Nat.eqb_spec d d') as [->|]; [rewrite Nat.eqb_refl|]; reflexivity.
      + apply Receive_emit in H as (l & ->). reflexivity.
  Qed.

  (** ** From the channel to the callback *)
  Lemma Receive_callback : forall w d p from to q src power w', Receive crc fcs w d (frame_of crc fcs p to q from) src power = Ok w' ->
    src <> d -> (length (p_bytes p) <= 1492)%nat -> 0 <= from < 2 ^ 48 -> 0 <= to < 2 ^ 48 -> 0 <= q < 2 ^ 16 ->
    let g := d_cfg (w_dev w d) in
    nlt N (effective_power g power) (g_thr g) = false ->
    (forall f, g_err g = Some f -> f (w_now w) (frame_of crc fcs p to q from) = false) ->
    to = 2 ^ 48 - 1 \/ to = g_addr g \/ Z.testbit to 40 = true ->
    In (w_now w, RxCallback d src (p_bytes p) q from to (g_addr g)) (w_log w').
  Proof.
    intros w d p from to q src power w' H NE HL Hf Ht Hq g HP HE HT. unfold Receive in H. fold g in H.
    destruct (Nat.eqb_spec src d) as [|_]; [contradiction|].
    change (DoCalcRxPower g power) with (effective_power g power) in H.
    replace (DoCalcRxPower g power) with (effective_power g power) in H by (unfold DoCalcRxPower, effective_power; destruct (g_kind g); reflexivity).
    rewrite HP in H.
    replace (match g_err g with Some f => f (w_now w) (frame_of crc fcs p to q from) | None => false end) with false in H
      by (destruct (g_err g); [rewrite HE by reflexivity|]; reflexivity).
    cbn [p_bytes frame_of] in H. rewrite Decapsulate_AddHeader in H; try assumption; [|destruct fcs; auto].
    cbv zeta in H. unfold len in H. rewrite Z.mod_small in H by lia.
    destruct (Z.leb_spec (Z.of_nat (length (p_bytes p)) + 8) 1500); [|lia].
    destruct (Z.ltb_spec (Z.of_nat (length (p_bytes p)) + 8) 65536); [|lia]. cbn [bind] in H.
    assert (K : classify (g_addr g) to <> POtherHost).
    { unfold classify. change broadcast with (2 ^ 48 - 1). destruct (Z.eqb_spec to (2 ^ 48 - 1)); [discriminate|].
      destruct (Z.eqb_spec to (g_addr g)); [discriminate|]. destruct HT as [|[|HT]]; try contradiction.
      replace (is_group to) with true; [discriminate|]. unfold is_group. rewrite Z.testbit_odd, Z.shiftr_div_pow2 in HT by lia. symmetry. exact HT. }
    destruct (classify (g_addr g) to); try contradiction; destruct (g_rxcb g); try discriminate; injection H as <-; destruct (g_pcb g); cbn;
      apply in_or_app; right; left; reflexivity.
  Qed.

  Lemma run_in : forall ops w w' x, reachable w -> run w ops = Ok w' -> In x (w_log w) -> In x (w_log w').
  Proof.
    induction ops as [|o r IH]; intros w w' x R H HI; cbn in H; [injection H as <-; exact HI|].
    apply bind_ok in H as (w1 & H1 & H). eapply IH; [eapply reachable_step; eassumption|exact H|].
    destruct (step_marked crc fcs tx_time has_mob w o w1 (reachable_indexed crc fcs tx_time has_mob w R) H1) as (l & -> & _). apply in_or_app. auto.
  Qed.

  Lemma pending_callback : forall ops w w' T d p from to q src power, reachable w -> run w ops = Ok w' ->
    In (T, RxEvent d (frame_of crc fcs p to q from) src power) (w_events w) -> Forall (leaves d) ops ->
    src <> d -> (length (p_bytes p) <= 1492)%nat -> 0 <= from < 2 ^ 48 -> 0 <= to < 2 ^ 48 -> 0 <= q < 2 ^ 16 ->
    let g := d_cfg (w_dev w d) in
    nlt N (effective_power g power) (g_thr g) = false ->
    (forall f, g_err g = Some f -> f T (frame_of crc fcs p to q from) = false) ->
    to = 2 ^ 48 - 1 \/ to = g_addr g \/ Z.testbit to 40 = true ->
    In (T, RxEvent d (frame_of crc fcs p to q from) src power) (w_events w') \/
    In (T, RxCallback d src (p_bytes p) q from to (g_addr g)) (w_log w').
  Proof.
    induction ops as [|o r IH]; intros w w' T d p from to q src power R H HI HL NE HB Hf Ht Hq g HP HE HT; cbn in H.
    - injection H as <-. left. exact HI.
    - apply bind_ok in H as (w1 & H1 & H). inversion HL as [|? ? L1 L2]; subst.
      pose proof (step_cfg _ _ _ _ H1 L1) as C. destruct (step_events _ _ _ _ H1 HI) as [HI1|[-> (r' & E)]].
      + unfold g. rewrite <- C. apply (IH w1); auto; try (eapply reachable_step; eassumption); unfold g in *; rewrite C; assumption.
      + right. eapply run_in; [eapply reachable_step; eassumption|exact H|]. cbn in H1. unfold run_next in H1. rewrite E in H1.
        pose proof (Receive_callback _ _ _ _ _ _ _ _ _ H1 NE HB Hf Ht Hq HP HE HT) as X. exact X.
  Qed.

  (** ** From the device to the channel *)
  Lemma link_same : forall (a b : world N) c d dst tx, w_dev a = w_dev b -> w_chan a = w_chan b -> w_now a = w_now b ->
    hears has_mob a c d dst = hears has_mob b c d dst /\ delay_to has_mob a c d dst tx = delay_to has_mob b c d dst tx /\
    power_at has_mob a c d dst = power_at has_mob b c d dst.
  Proof.
    intros a b c d dst tx E1 E2 E3. unfold hears, delay_to, power_at, node_of, cut_off, link_delay, link_power.
    rewrite E1, E2, E3. auto.
  Qed.

  Lemma receptions_in : forall (w : world N) c src p tx dsts w' dst, receptions has_mob w c src p tx dsts w' -> In dst dsts ->
    In (w_now w + delay_to has_mob w c src dst tx, RxEvent dst p src (power_at has_mob w c src dst)) (w_events w').
  Proof.
    intros w c src p tx dsts w' dst (_ & _ & _ & _ & ->) HI.
    assert (G : forall l acc, (In dst l \/ In (w_now w + delay_to has_mob w c src dst tx, RxEvent dst p src (power_at has_mob w c src dst)) acc) ->
      In (w_now w + delay_to has_mob w c src dst tx, RxEvent dst p src (power_at has_mob w c src dst))
        (fold_left (fun l dst => insert_event (w_now w + delay_to has_mob w c src dst tx, RxEvent dst p src (power_at has_mob w c src dst)) l) l acc)).
    { induction l as [|x r IH]; intros acc H; cbn; [destruct H as [[]|H]; exact H|]. apply IH.
      destruct H as [[->|H]|H]; [right|left; exact H|right]; apply in_insert; auto. }
    apply G. left. exact HI.
  Qed.

  Lemma nth_split_in : forall (l : list nat) i k x, nth_error l k = Some x -> k <> i -> In x (firstn i l ++ skipn (S i) l).
  Proof.
    induction l as [|y r IH]; intros i k x H NE; [destruct k; discriminate|].
    destruct i as [|i], k as [|k]; try congruence; cbn in *.
    - eapply nth_error_In; exact H.
    - injection H as ->. left. reflexivity.
    - right. eapply IH; [exact H|congruence].
  Qed.

  Lemma Channel_in : forall (w : world N) c p dest tx b w' d dst, nth_error (c_link (w_chan w c)) (d_id (w_dev w d)) = Some d ->
    ChannelTransmitStart has_mob w c p (d_id (w_dev w d)) dest tx = Ok (b, w') ->
    recipient w c d dest dst -> hears has_mob w c d dst = true ->
    In (w_now w + delay_to has_mob w c d dst tx, RxEvent dst p d (power_at has_mob w c d dst)) (w_events w').
  Proof.
    intros w c p dest tx b w' d dst HN H HA HH. unfold ChannelTransmitStart in H. unfold recipient in HA.
    destruct (c_kind (w_chan w c)).
    - apply isl_transmit in H. cbv zeta in H. rewrite HN in H.
      destruct H as [(k & x & H1 & H2 & H3 & -> & R)|[(H1 & HB & -> & R)|(H1 & HB & _ & _)]].
      + destruct HA as [(k' & A1 & A2 & A3)|(A1 & _)].
        * assert (k' = k).
          { destruct (Nat.lt_trichotomy k k') as [L|[L|L]]; [|congruence|].
            - exfalso. eapply A3; eauto. - exfalso. eapply H3; eauto. }
          subst k'. assert (x = dst) by congruence. subst x. rewrite HH in R. eapply receptions_in; [exact R|left; reflexivity].
        * exfalso. eapply A1; [eapply nth_error_In; exact H1|exact H2].
      + destruct HA as [(k' & A1 & A2 & _)|(_ & _ & k & A1 & A2)]; [exfalso; eapply H1; [eapply nth_error_In; exact A1|exact A2]|].
        eapply receptions_in; [exact R|]. apply filter_In. split; [|exact HH]. eapply nth_split_in; eassumption.
      + destruct HA as [(k' & A1 & A2 & _)|(_ & A & _)]; [exfalso; eapply H1; [eapply nth_error_In; exact A1|exact A2]|congruence].
    - apply leo_transmit in H. cbv zeta in H. rewrite HN in H. destruct H as (dsts & _ & R & H).
      eapply receptions_in; [exact R|].
      destruct HA as [(A1 & A2 & A3)|(A1 & A2 & A3)], H as [(B1 & B2 & ->)|[(B1 & B2 & ->)|(B1 & B2 & _)]]; try contradiction;
        apply filter_In; auto.
  Qed.

  (** What a transmission schedules. *)
  Definition schedules (w' : world N) (d c : nat) (p : pkt) (dest tx : Z) : Prop :=
    forall dst, recipient w' c d dest dst -> hears has_mob w' c d dst = true ->
    In (w_now w' + delay_to has_mob w' c d dst tx, RxEvent dst p d (power_at has_mob w' c d dst)) (w_events w').

  Lemma TransmitStart_in : forall w d p dest b w', indexed_ok w -> TransmitStart tx_time has_mob w d p dest = Ok (b, w') ->
    exists c l tx gap, w_log w' = w_log w ++ (w_now w, PhyTxBegin d p) :: (w_now w, ToChannel d c p dest tx gap) :: l /\ w_now w' = w_now w /\
      (forall t d' c' p' dest' tx' gap', ~ In (t, ToChannel d' c' p' dest' tx' gap') l) /\ schedules w' d c p dest tx.
  Proof.
    intros w d p dest b w' HI H. unfold TransmitStart in H. destruct (d_busy (w_dev w d)); [discriminate|].
    apply bind_ok in H as (w2 & H1 & H). apply schedule_ok in H1 as [H0 ->].
    destruct (d_chan (w_dev w d)) as [c|] eqn:C; [|discriminate].
    apply bind_ok in H as ([result w4] & H1 & H).
    match type of H1 with ChannelTransmitStart _ ?x _ _ _ _ _ = _ => set (w3 := x) in H1 end.
    assert (EI : d_id (w_dev w3 d) = d_id (w_dev w d)) by (unfold w3; cbn; rewrite upd_same; reflexivity).
    assert (EL : nth_error (c_link (w_chan w3 c)) (d_id (w_dev w3 d)) = Some d) by (rewrite EI; apply HI; exact C).
    rewrite <- EI in H1. pose proof (Channel_more _ _ _ _ _ _ _ _ H1) as (M1 & M2 & M3 & _).
    assert (EV : forall dst, recipient w4 c d dest dst -> hears has_mob w4 c d dst = true ->
      In (w_now w4 + delay_to has_mob w4 c d dst (tx_time (g_bps (d_cfg (w_dev w d))) (len (p_bytes p))), RxEvent dst p d (power_at has_mob w4 c d dst)) (w_events w4)).
    { intros dst HA HH.
      destruct (link_same w4 w3 c d dst (tx_time (g_bps (d_cfg (w_dev w d))) (len (p_bytes p))) M1 M2 M3) as (S1 & S2 & S3).
      rewrite S1 in HH. rewrite S2, S3, M3. eapply Channel_in; [exact EL|exact H1| |exact HH].
      unfold recipient, addr_of in *. rewrite <- M1, <- M2. exact HA. }
    pose proof (channel_marked has_mob w3 c p _ dest _ result w4 d (g_gap (d_cfg (w_dev w d))) (fun _ _ _ _ _ _ => True) EL I H1) as (_ & l & E4 & MK).
    exists c, (l ++ if result then [] else [(w_now w, PhyTxDrop d p)]), (tx_time (g_bps (d_cfg (w_dev w d))) (len (p_bytes p))), (g_gap (d_cfg (w_dev w d))).
    assert (NT : forall t d' c' p' dest' tx' gap', ~ In (t, ToChannel d' c' p' dest' tx' gap') l).
    { clear - H1 E4 EL. intros t d' c' p' dest' tx' gap' X. unfold ChannelTransmitStart in H1. destruct (c_kind (w_chan w3 c)).
      - apply isl_transmit in H1. cbv zeta in H1. rewrite EL in H1.
        destruct H1 as [(k & x & _ & _ & _ & _ & R)|[(_ & _ & _ & R)|(_ & _ & _ & ->)]];
          try destruct R as (_ & _ & _ & R & _); [| |rewrite <- app_nil_r in E4 at 1; apply app_inv_head in E4; subst l; exact X];
          rewrite R in E4; apply app_inv_head in E4; subst l; apply in_map_iff in X as (y & Y & _); discriminate.
      - apply leo_transmit in H1. cbv zeta in H1. rewrite EL in H1. destruct H1 as (dsts & _ & (_ & _ & _ & R & _) & _).
        rewrite R in E4. apply app_inv_head in E4. subst l. apply in_map_iff in X as (y & Y & _). discriminate. }
    assert (ET : w_now w4 = w_now w) by (rewrite M3; reflexivity).
    assert (E4' : w_log w4 = w_log w ++ (w_now w, PhyTxBegin d p) :: (w_now w, ToChannel d c p dest (tx_time (g_bps (d_cfg (w_dev w d))) (len (p_bytes p))) (g_gap (d_cfg (w_dev w d)))) :: l).
    { rewrite E4. unfold w3. cbn. rewrite <- !app_assoc. reflexivity. }
    destruct result; injection H as _ <-.
    - rewrite app_nil_r. split; [exact E4'|]. split; [exact ET|]. split; [exact NT|exact EV].
    - split; [|split; [exact ET|split; [|exact EV]]].
      + cbn [log1 w_log]. rewrite E4', ET, <- app_assoc. reflexivity.
      + intros t d' c' p' dest' tx' gap' X. apply in_app_or in X as [X|[X|[]]]; [eapply NT; exact X|discriminate].
  Qed.

  Lemma step_schedules : forall w o w' new t d c p dest tx gap, indexed_ok w -> step w o = Ok w' ->
    w_log w' = w_log w ++ new -> In (t, ToChannel d c p dest tx gap) new ->
    t = w_now w' /\ schedules w' d c p dest tx.
  Proof.
    intros w o w' new t d c p dest tx gap HI H EN HN.
    assert (NOP : forall l, w_log w' = w_log w ++ l -> (forall t d c p dest tx gap, ~ In (t, ToChannel d c p dest tx gap) l) -> False).
    { intros l E X. rewrite EN in E. apply app_inv_head in E. subst l. eapply X; exact HN. }
    assert (ONE : forall x y, w_log w' = w_log w ++ [(x, y)] -> match y with ToChannel _ _ _ _ _ _ => False | _ => True end -> False).
    { intros x y E X. apply (NOP _ E). intros t' d' c' p' dest' tx' gap' [Y|[]]. injection Y as _ ->. exact X. }
    assert (ZERO : w_log w' = w_log w -> False).
    { intros E. apply (NOP []); [rewrite app_nil_r; exact E|]. intros t' d' c' p' dest' tx' gap' []. }
    assert (TS : forall w0 d0 h a b w1 pre, indexed_ok w0 -> TransmitStart tx_time has_mob w0 d0 h a = Ok (b, w1) -> w_log w1 = w_log w' -> w1 = w' ->
      w_log w0 = w_log w ++ pre -> (forall t d c p dest tx gap, ~ In (t, ToChannel d c p dest tx gap) pre) ->
      t = w_now w' /\ schedules w' d c p dest tx).
    { intros w0 d0 h a b w1 pre HI0 HT _ -> E0 NP. apply TransmitStart_in in HT as (c1 & l & tx1 & gap1 & EL & ET & NL & SC); [|exact HI0].
      rewrite E0, EN, <- app_assoc in EL. apply app_inv_head in EL. subst new.
      apply in_app_or in HN as [HN|[HN|[HN|HN]]]; [exfalso; eapply NP; exact HN|discriminate| |exfalso; eapply NL; exact HN].
      injection HN as <- <- <- <- <- <- <-. rewrite ET. auto. }
    destruct o; cbn in H.
    - apply bind_ok in H as ([b w1] & H & H1). injection H1 as ->. unfold Send in H. destruct dest0 as [a|].
      + destruct (negb _).
        { injection H as _ <-. exfalso. eapply NOP; [cbn; rewrite <- app_assoc; reflexivity|]. intros t' d' c' p' dest' tx' gap' X. cbn in X. intuition discriminate. }
        destruct (d_queue _) as [admit|]; [|discriminate].
        destruct (admit _ _).
        2:{ injection H as _ <-. exfalso. eapply NOP; [cbn; rewrite <- !app_assoc; reflexivity|]. intros t' d' c' p' dest' tx' gap' X. cbn in X. intuition discriminate. }
        destruct (d_busy _).
        { injection H as _ <-. exfalso. eapply NOP; [cbn; rewrite <- !app_assoc; reflexivity|]. intros t' d' c' p' dest' tx' gap' X. cbn in X. intuition discriminate. }
        destruct (_ ++ _) as [|h r]; [discriminate|].
        apply bind_ok in H as ([b3 w3] & H & H3). injection H3 as _ <-.
        eapply TS; [|exact H|reflexivity|reflexivity|cbn; rewrite <- !app_assoc; reflexivity|].
        * intros x y. cbn. unfold upd. destruct (Nat.eqb_spec x d0) as [->|]; cbn; apply HI.
        * intros t' d' c' p' dest' tx' gap' X. cbn in X. intuition discriminate.
      + destruct (d_up _); [discriminate|]. injection H as _ <-. exfalso. eapply ONE; [reflexivity|exact I].
    - injection H as <-. exfalso. apply ZERO. reflexivity.
    - injection H as <-. exfalso. eapply ONE; [reflexivity|exact I].
    - apply Attach_spec in H as (g & s & _ & _ & _ & _ & _ & _ & _ & HL & _). exfalso. eapply ONE; [exact HL|exact I].
    - apply bind_ok in H as ([b w1] & H & H1). injection H1 as ->. exfalso. unfold ChannelDetach in H.
      assert (HB : forall x, w_log x = w_log w -> BaseDetach x c0 i = (b, w') -> False).
      { intros x E Hx. unfold BaseDetach in Hx. destruct (nth_error (c_link (w_chan x c0)) i) as [y|]; [|injection Hx as _ ->; exact (ZERO E)].
        destruct (d_up (w_dev x y)); injection Hx as _ Hx; [|rewrite Hx in E; exact (ZERO E)].
        eapply ONE; [rewrite <- Hx; cbn; rewrite E; reflexivity|exact I]. }
      destruct (c_kind (w_chan w c0)); [injection H as H; apply (HB w); auto|].
      destruct (nth_error (c_link (w_chan w c0)) i); [|discriminate]. injection H as H. eapply HB; [|exact H]. reflexivity.
    - injection H as <-. exfalso. eapply ONE; [reflexivity|exact I].
    - injection H as <-. exfalso. apply ZERO. reflexivity.
    - injection H as <-. exfalso. apply ZERO. reflexivity.
    - exfalso. destruct (_ && _); injection H as <-; apply ZERO; reflexivity.
    - unfold run_next in H. destruct (w_events w) as [|[t' e] r] eqn:E; [injection H as <-; exfalso; apply ZERO; reflexivity|].
      destruct e as [d' dest'|dst p' src power].
      + unfold DoTransmitComplete in H. cbn [w_dev] in H.
        destruct (negb _); [discriminate|]. destruct (d_cur _) as [cur|]; [|discriminate].
        destruct (d_queue _) as [admit|]; [|discriminate]. destruct (d_q _) as [|h q].
        { injection H as <-. exfalso. eapply ONE; [cbn; reflexivity|exact I]. }
        apply bind_ok in H as ([b3 w3] & H & H3). injection H3 as ->.
        eapply TS; [|exact H|reflexivity|reflexivity|cbn; rewrite <- !app_assoc; reflexivity|].
        * intros x y. cbn. unfold upd. destruct (Nat.eqb_spec x d') as [->|]; cbn; try rewrite Nat.eqb_refl; cbn; apply HI.
        * intros t1 d1 c1 p1 dest1 tx1 gap1 X. cbn in X. intuition discriminate.
      + exfalso. apply Receive_table in H as (l & -> & DD). eapply NOP; [cbn; reflexivity|].
        intros t1 d1 c1 p1 dest1 tx1 gap1 X. apply in_map_iff in X as (y & Y & X). injection Y as _ ->.
        destruct DD as [(_ & ->)|[(_ & _ & p2 & _ & ->)|(_ & _ & payload & proto & ty & _ & ->)]];
          try destruct (g_pcb _); try destruct ty; cbn in X; intuition discriminate.
  Qed.
End Drain.
