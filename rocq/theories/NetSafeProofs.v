(** Networks whose devices are fully set up never fail. *)
Require Import ZArith List Bool Lia ZifyBool.
Require Import Verif.Base Verif.Num Verif.FrameModel Verif.NetModel Verif.NetSpec Verif.NetSteps Verif.NetInv
  Verif.NetTxProofs Verif.NetSendProofs Verif.NetChanProofs Verif.NetProvProofs Verif.NetSideProofs.
Import ListNotations.
Local Open Scope Z_scope.

Section Safe.
  Context {N : Num}.
  Variable crc : list Z -> Z.
  Variable fcs : bool.
  Variable tx_time : Z -> Z -> Z.
  Variable has_mob : nat -> bool.
  Hypothesis tx_time_nonneg : forall bps n, 0 < bps -> 0 <= n -> 0 <= tx_time bps n.
  Notation reachable := (@reachable N crc fcs tx_time has_mob).
  Notation step := (@step N crc fcs tx_time has_mob).
  Notation run := (@run N crc fcs tx_time has_mob).
  Implicit Type w : world N.

  Definition fits (p : pkt) (a q : Z) : Prop :=
    0 <= a < 2 ^ 48 /\ 0 <= q < 2 ^ 16 /\ Z.of_nat (length (p_bytes p)) <= 65527.

  Definition ready (x : dev N) : Prop :=
    d_queue x <> None /\ g_node (d_cfg x) <> None /\ g_rxcb (d_cfg x) = true /\ 0 <= g_gap (d_cfg x) /\
    0 < g_bps (d_cfg x) /\ 0 <= g_addr (d_cfg x) < 2 ^ 48.

  (** What configuration has to provide. *)
  Definition equipped w : Prop :=
    (forall d, d_chan (w_dev w d) <> None -> ready (w_dev w d)) /\
    (forall d, d_up (w_dev w d) = true -> d_chan (w_dev w d) <> None) /\
    (forall c d, In d (c_link (w_chan w c)) -> d_chan (w_dev w d) <> None) /\
    (forall c a d, In (a, d) (c_gnd (w_chan w c)) \/ In (a, d) (c_sat (w_chan w c)) -> In d (c_link (w_chan w c))) /\
    (forall c a, indexed a (c_gnd (w_chan w c)) && indexed a (c_sat (w_chan w c)) = false) /\
    (forall c f, c_delay (w_chan w c) = Some f -> forall a b t, 0 <= f a b t).
  Definition sound w : Prop :=
    (forall t d dest, In (t, TxComplete d dest) (w_events w) -> d_chan (w_dev w d) <> None) /\
    (forall t d p src power, In (t, RxEvent d p src power) (w_events w) -> d_chan (w_dev w d) <> None) /\
    (forall t d p a q own, In (t, Sent d p a q own true) (w_log w) -> fits p a q /\ 0 <= own < 2 ^ 48).

  (** The parts of a device that configuration sets. *)
  Definition fixed (x : dev N) := (d_cfg x, d_queue x, d_chan x, d_up x).
  Definition same_setup w w' : Prop := w_chan w' = w_chan w /\ forall d, fixed (w_dev w' d) = fixed (w_dev w d).
  Lemma same_equipped : forall w w', same_setup w w' -> equipped w -> equipped w'.
  Proof.
    intros w w' [C F] (E1 & E2 & E3 & E4 & E5 & E6). unfold equipped. rewrite C.
    assert (G : forall d, d_cfg (w_dev w' d) = d_cfg (w_dev w d) /\ d_queue (w_dev w' d) = d_queue (w_dev w d) /\
      d_chan (w_dev w' d) = d_chan (w_dev w d) /\ d_up (w_dev w' d) = d_up (w_dev w d)).
    { intros d. specialize (F d). unfold fixed in F. injection F as F1 F2 F3 F4. auto. }
    split; [|split; [|split; [|split; [|split]]]]; try assumption.
    - intros d. destruct (G d) as (G1 & G2 & G3 & G4). unfold ready. rewrite G1, G2, G3. apply E1.
    - intros d. destruct (G d) as (G1 & G2 & G3 & G4). rewrite G3, G4. apply E2.
    - intros c d. destruct (G d) as (G1 & G2 & G3 & G4). rewrite G3. apply E3.
  Qed.
  Lemma same_refl : forall w w', w_chan w' = w_chan w -> w_dev w' = w_dev w -> same_setup w w'.
  Proof. intros w w' C D. split; [assumption|]. intros d. rewrite D. reflexivity. Qed.
  Lemma same_trans : forall w w1 w2, same_setup w w1 -> same_setup w1 w2 -> same_setup w w2.
  Proof. intros w w1 w2 [C1 F1] [C2 F2]. split; [congruence|]. intros d. rewrite F2. apply F1. Qed.

  Lemma sound_ext : forall w w' new, same_setup w w' -> w_log w' = w_log w ++ new ->
    (forall t d p a q own, In (t, Sent d p a q own true) new -> fits p a q /\ 0 <= own < 2 ^ 48) ->
    (forall x, In x (w_events w') -> In x (w_events w) \/
       (exists t d dest, x = (t, TxComplete d dest) /\ d_chan (w_dev w d) <> None) \/
       (exists t d p src power, x = (t, RxEvent d p src power) /\ d_chan (w_dev w d) <> None)) ->
    sound w -> sound w'.
  Proof.
    intros w w' new [C F] L HL HE (S1 & S2 & S3).
    assert (G : forall d, d_chan (w_dev w' d) = d_chan (w_dev w d)).
    { intros d. specialize (F d). unfold fixed in F. injection F as _ _ G _. exact G. }
    split; [|split].
    - intros t d dest H. rewrite G. apply HE in H as [H|[(t' & d' & dest' & H & HX)|(t' & d' & p & src & power & H & HX)]];
        [eapply S1; exact H|congruence|discriminate].
    - intros t d p src power H. rewrite G.
      apply HE in H as [H|[(t' & d' & dest' & H & HX)|(t' & d' & p' & src' & power' & H & HX)]];
        [eapply S2; exact H|discriminate|]. injection H as _ <- _ _ _. exact HX.
    - intros t d p a q own H. rewrite L in H. apply in_app_iff in H as [H|H]; [eapply S3; exact H|eapply HL; exact H].
  Qed.

  Lemma set_tx_same : forall w d q b cur, same_setup w (set_tx w d q b cur).
  Proof.
    intros. split; [reflexivity|]. intros d'. cbn. unfold upd. destruct (Nat.eqb_spec d' d) as [->|]; reflexivity.
  Qed.
  Lemma begin_same : forall w d q h dest c pre, same_setup w (begin_tx tx_time w d q h dest c pre).
  Proof.
    intros. split; [reflexivity|]. intros d'. cbn. unfold upd. destruct (Nat.eqb_spec d' d) as [->|]; reflexivity.
  Qed.

  Lemma micro_safe : forall w w', micro crc fcs tx_time has_mob false fits w w' -> equipped w -> sound w ->
    same_setup w w' /\ sound w'.
  Proof.
    intros w w' M E S. pose proof E as (E1 & E2 & E3 & E4 & E5 & E6).
    destruct M; try discriminate;
      try (match goal with H : false = true |- _ => discriminate H end).
    - split; [apply same_refl; reflexivity|]. eapply (sound_ext w); [apply same_refl; reflexivity|reflexivity| |auto|exact S].
      cbn. intros t d' p' a' q' own [X|[X|[]]]; discriminate.
    - split; [apply same_refl; reflexivity|]. eapply (sound_ext w); [apply same_refl; reflexivity|reflexivity| |auto|exact S].
      cbn. intros t d' p' a' q' own [X|[]]; discriminate.
    - split; [apply same_refl; reflexivity|]. eapply (sound_ext w); [apply same_refl; reflexivity|reflexivity| |auto|exact S].
      cbn. intros t d' p' a' q' own [X|[X|[X|[]]]]; discriminate.
    - assert (SS : same_setup w (emit (set_tx w d (d_q (w_dev w d) ++ [frame_of crc fcs p a q (addr_of w d)]) true (d_cur (w_dev w d)))
                    [MacTx d (frame_of crc fcs p a q (addr_of w d)); Sent d p a q (addr_of w d) true])).
      { eapply same_trans; [apply set_tx_same|]. apply same_refl; reflexivity. }
      split; [exact SS|]. eapply (sound_ext w); [exact SS|reflexivity| |cbn; auto|exact S].
      cbn. intros t d' p' a' q' own [X|[X|[]]]; [discriminate|]. injection X as <- <- <- <- <- <-.
      split; [assumption|]. apply E1, E2. assumption.
    - match goal with |- same_setup w ?x /\ _ => assert (SS : same_setup w x) end.
      { eapply same_trans; [apply set_tx_same|]. apply begin_same. }
      split; [exact SS|]. eapply (sound_ext w); [exact SS|reflexivity| | |exact S].
      + cbn. intros t d' p' a' q' own [X|[X|[X|[X|[X|[X|[]]]]]]]; try discriminate. injection X as <- <- <- <- <- <-.
        split; [assumption|]. apply E1. congruence.
      + cbn. intros x X. apply insert_in in X as [->|X]; [|auto]. right. left. eexists _, _, _. split; [reflexivity|]. congruence.
    - match goal with |- same_setup w ?x /\ _ => assert (SS : same_setup w x) end.
      { eapply same_trans; [|apply same_refl; reflexivity]. eapply same_trans; [|apply set_tx_same]. apply same_refl; reflexivity. }
      split; [exact SS|]. eapply (sound_ext w); [exact SS|reflexivity| | |exact S].
      + cbn. intros t' d' p' a' q' own [X|[]]; discriminate.
      + cbn. intros x X. left. rewrite H. right. exact X.
    - match goal with |- same_setup w ?x /\ _ => assert (SS : same_setup w x) end.
      { eapply same_trans; [|apply begin_same]. eapply same_trans; [|apply set_tx_same]. eapply same_trans; [|apply set_tx_same].
        apply same_refl; reflexivity. }
      split; [exact SS|]. eapply (sound_ext w); [exact SS|reflexivity| | |exact S].
      + cbn. intros t' d' p' a' q' own [X|[X|[X|[X|[X|[]]]]]]; discriminate.
      + cbn. intros x X. apply insert_in in X as [->|X].
        * right. left. eexists _, _, _. split; [reflexivity|]. congruence.
        * left. rewrite H. right. exact X.
    - assert (SS : same_setup w (mkWorld (w_now w) (w_dev w) (w_chan w)
                 (insert_event (w_now w + link_delay has_mob w c a b txTime, RxEvent dst p src (link_power has_mob w c src a b)) (w_events w))
                 (w_log w ++ [(w_now w, TxRx c p src dst txTime (link_delay has_mob w c a b txTime))]))) by (apply same_refl; reflexivity).
      split; [exact SS|]. eapply (sound_ext w); [exact SS|reflexivity| | |exact S].
      + cbn. intros t d' p' a' q' own [X|[]]; discriminate.
      + cbn. intros x X. apply insert_in in X as [->|X]; [|auto]. right. right. eexists _, _, _, _, _. split; [reflexivity|].
        apply (E3 c). unfold reachable_on in H3. destruct (c_kind (w_chan w c)); [assumption|].
        destruct H3 as [(_ & _ & X)|(_ & _ & X)]; apply in_map_iff in X as ([k y] & <- & X); apply (E4 c k); auto.
    - split; [apply same_refl; reflexivity|]. eapply (sound_ext w); [apply same_refl; reflexivity|reflexivity| |auto|exact S].
      cbn. intros t d' p' a' q' own [X|[]]; discriminate.
    - apply receive_obs in H0 as (l & -> & HL).
      assert (SS : same_setup w (emit (pop w t r) l)) by (apply same_refl; reflexivity).
      split; [exact SS|]. eapply (sound_ext w); [exact SS|reflexivity| | |exact S].
      + intros t' d' p' a' q' own X. apply in_map_iff in X as (o & X & HO). injection X as _ ->.
        specialize (HL d'). rewrite Forall_forall in HL. specialize (HL _ HO). cbn in HL. rewrite Nat.eqb_refl in HL. discriminate.
      + cbn. intros x X. left. rewrite H. right. exact X.
    - split; [apply same_refl; reflexivity|]. eapply (sound_ext w); [apply same_refl; reflexivity|symmetry; apply app_nil_r| |cbn; auto|exact S].
      intros t' d' p' a' q' own [].
  Qed.
  Lemma micros_safe : forall w w', micros crc fcs tx_time has_mob false fits w w' -> equipped w -> sound w ->
    same_setup w w' /\ equipped w' /\ sound w'.
  Proof.
    induction 1 as [w|w w1 w2 M MS IH]; intros E S.
    - split; [apply same_refl; reflexivity|auto].
    - destruct (micro_safe _ _ M E S) as [SS S1]. pose proof (same_equipped _ _ SS E) as EQ1.
      destruct (IH EQ1 S1) as (SS2 & E2 & S2). split; [eapply same_trans; eassumption|auto].
  Qed.

  (** ** Progress *)
  Definition okay {A : Type} (x : res A) : Prop := exists a, x = Ok a.

  Lemma schedule_okay : forall w t e, 0 <= t -> exists w', schedule w t e = Ok w' /\ w_now w' = w_now w /\
    w_dev w' = w_dev w /\ w_chan w' = w_chan w.
  Proof.
    intros w t e H. unfold schedule. destruct (Z.ltb_spec t 0); [lia|]. eexists. repeat split; reflexivity.
  Qed.
  Lemma equipped_same_parts : forall w w', w_dev w' = w_dev w -> w_chan w' = w_chan w -> equipped w -> equipped w'.
  Proof. intros w w' D C. apply same_equipped, same_refl; assumption. Qed.

  Lemma Deliver_okay : forall w c p src dst tx, equipped w -> d_chan (w_dev w src) <> None -> d_chan (w_dev w dst) <> None ->
    0 <= tx -> okay (Deliver has_mob w c p src dst tx).
  Proof.
    intros w c p src dst tx E S D T. destruct E as (E1 & _ & _ & _ & _ & E6).
    apply E1 in S as (_ & S & _). apply E1 in D as (_ & D & _).
    unfold Deliver, node_of. destruct (g_node (d_cfg (w_dev w src))) as [a|]; [|contradiction].
    destruct (g_node (d_cfg (w_dev w dst))) as [b|]; [|contradiction].
    assert (HD : 0 <= GetPropagationDelay (w_chan w c) a b (w_now w)).
    { unfold GetPropagationDelay. destruct (c_delay (w_chan w c)) as [f|] eqn:F; [|lia]. eapply E6. exact F. }
    destruct (has_mob a && has_mob b).
    - destruct (c_loss (w_chan w c)) as [f|].
      + destruct (nlt N _ _); [eexists; reflexivity|].
        destruct (schedule_okay w _ (RxEvent dst p src (f (g_txp (d_cfg (w_dev w src))) a b (w_now w))) HD) as (w' & -> & _). eexists. reflexivity.
      + destruct (schedule_okay w _ (RxEvent dst p src (g_txp (d_cfg (w_dev w src)))) HD) as (w' & -> & _). eexists. reflexivity.
    - destruct (schedule_okay w _ (RxEvent dst p src (g_txp (d_cfg (w_dev w src)))) T) as (w' & -> & _). eexists. reflexivity.
  Qed.
  Lemma deliver_all_okay : forall dsts w c p src tx, equipped w -> d_chan (w_dev w src) <> None ->
    (forall dst, In dst dsts -> d_chan (w_dev w dst) <> None) -> 0 <= tx -> okay (deliver_all has_mob w c p src dsts tx).
  Proof.
    induction dsts as [|d r IH]; intros w c p src tx E S D T; [eexists; reflexivity|]. cbn.
    destruct (Deliver_okay w c p src d tx E S) as ([b w1] & H); [apply D; left; reflexivity|assumption|]. rewrite H. cbn.
    apply Deliver_receptions in H as (_ & HN & HD & HC & _).
    destruct (IH w1 c p src tx) as ([b2 w2] & ->); [eapply equipped_same_parts; eassumption| | |assumption|eexists; reflexivity].
    - rewrite HD. assumption.
    - intros dst Hd. rewrite HD. apply D. right. assumption.
  Qed.
  Lemma Channel_okay : forall w c p i dest tx, equipped w -> 0 <= tx -> okay (ChannelTransmitStart has_mob w c p i dest tx).
  Proof.
    intros w c p i dest tx E T. pose proof E as (E1 & E2 & E3 & E4 & E5 & E6). unfold ChannelTransmitStart.
    destruct (c_kind (w_chan w c)).
    - unfold IslTransmitStart. destruct (nth_error _ i) as [src|] eqn:I; [|eexists; reflexivity].
      apply nth_error_In in I. pose proof (E3 _ _ I) as HS. destruct (GetDevice w c dest) as [dst|] eqn:G.
      + unfold GetDevice in G. apply find_some in G as [G _]. apply Deliver_okay; auto. eapply E3. exact G.
      + destruct (dest =? broadcast); [|eexists; reflexivity].
        destruct (deliver_all_okay (except_at 0 i (c_link (w_chan w c))) w c p src tx E HS) as ([b w1] & ->); [|assumption|eexists; reflexivity].
        intros dst Hd. apply (E3 c). pose proof (except_split i 0 (c_link (w_chan w c))) as X. cbn [Nat.add] in X. rewrite X in Hd.
        rewrite <- (firstn_skipn i (c_link (w_chan w c))). apply in_or_app. apply in_app_or in Hd as [Hd|Hd]; [left; assumption|right].
        clear - Hd. revert Hd. generalize (c_link (w_chan w c)). induction i as [|i IH]; intros [|x l] H; cbn in *; auto.
    - unfold LeoTransmitStart. destruct (nth_error _ i) as [src|] eqn:I; [|eexists; reflexivity].
      apply nth_error_In in I. pose proof (E3 _ _ I) as HS. specialize (E5 c (addr_of w src)). rewrite E5.
      destruct (indexed _ (c_gnd _)); [|destruct (indexed _ (c_sat _)); [|eexists; reflexivity]];
        apply deliver_all_okay; auto; intros dst Hd; apply in_map_iff in Hd as ([k y] & <- & Hd); apply (E3 c), (E4 c k); auto.
  Qed.
  Lemma TransmitStart_okay : forall w d p dest, equipped w -> d_chan (w_dev w d) <> None -> d_busy (w_dev w d) = false ->
    okay (TransmitStart tx_time has_mob w d p dest).
  Proof.
    intros w d p dest E C B. unfold TransmitStart. rewrite B.
    pose proof E as (E1 & _). destruct (E1 _ C) as (_ & _ & _ & HG & HB & _).
    assert (T : 0 <= tx_time (g_bps (d_cfg (w_dev w d))) (len (p_bytes p))) by (apply tx_time_nonneg; [assumption|unfold len; lia]).
    destruct (schedule_okay (log1 (set_tx w d (d_q (w_dev w d)) true (Some p)) (PhyTxBegin d p))
               (tx_time (g_bps (d_cfg (w_dev w d))) (len (p_bytes p)) + g_gap (d_cfg (w_dev w d))) (TxComplete d dest))
      as (w2 & -> & _ & D2 & C2); [lia|]. cbn [bind].
    destruct (d_chan (w_dev w d)) as [c|] eqn:HC; [|contradiction]. cbv zeta.
    destruct (Channel_okay (log1 w2 (ToChannel d c p dest (tx_time (g_bps (d_cfg (w_dev w d))) (len (p_bytes p))) (g_gap (d_cfg (w_dev w d)))))
                c p (d_id (w_dev w d)) dest (tx_time (g_bps (d_cfg (w_dev w d))) (len (p_bytes p)))) as ([b w4] & ->); [|assumption|].
    - eapply equipped_same_parts; [reflexivity|reflexivity|].
      eapply equipped_same_parts; [exact D2|exact C2|]. eapply equipped_same_parts; [reflexivity|reflexivity|].
      eapply same_equipped; [|exact E]. apply set_tx_same.
    - cbn. destruct b; eexists; reflexivity.
  Qed.

  (** Operations of the simulation phase: sends of packets that fit, and events. *)
  Definition usual (o : op N) : Prop :=
    match o with
    | OSend _ p (Mac a) q => fits p a q
    | OAdvance _ | ORun => True
    | _ => False
    end.

  Lemma step_okay : forall w o, reachable w -> equipped w -> sound w -> usual o ->
    exists w', step w o = Ok w' /\ reachable w' /\ same_setup w w' /\ equipped w' /\ sound w'.
  Proof.
    intros w o R E S U.
    assert (OK : okay (step w o)).
    { pose proof E as (E1 & E2 & E3 & E4 & E5 & E6). pose proof S as (S1 & S2 & S3).
      destruct o; try contradiction; cbn [NetModel.step].
      - destruct dest as [a|]; [|contradiction].
        assert (X : okay (Send crc fcs tx_time has_mob w d p (Mac a) protocolNumber)).
        { unfold Send. destruct (d_up (w_dev w d)) eqn:HU; [|eexists; reflexivity]. cbn [negb].
          destruct (E1 _ (E2 _ HU)) as (HQ & _). destruct (d_queue (w_dev w d)) as [admit|]; [|contradiction].
          destruct (admit _ _); [|eexists; reflexivity].
          destruct (d_busy (w_dev w d)) eqn:B; [eexists; reflexivity|].
          destruct (d_q (w_dev w d) ++ _) as [|h r] eqn:L; [destruct (d_q (w_dev w d)); discriminate|].
          match goal with |- okay (bind (TransmitStart _ _ ?x _ _ _) _) => set (w3 := x) end.
          destruct (TransmitStart_okay w3 d h a) as ([b w4] & ->); [| | |eexists; reflexivity].
          - subst w3. eapply equipped_same_parts; [reflexivity|reflexivity|]. eapply equipped_same_parts; [reflexivity|reflexivity|].
            eapply same_equipped; [apply set_tx_same|]. eapply equipped_same_parts; [reflexivity|reflexivity|exact E].
          - subst w3. cbn. rewrite upd_same. cbn. apply E2. assumption.
          - subst w3. cbn. rewrite upd_same. reflexivity. }
        destruct X as ([b w1] & ->). eexists. reflexivity.
      - destruct (_ && _); eexists; reflexivity.
      - unfold run_next. destruct (w_events w) as [|[t e] r] eqn:EV; [eexists; reflexivity|].
        destruct e as [d dest|d p src power].
        + destruct (reachable_transmitter crc fcs tx_time has_mob d w R) as [(_ & _ & line & free & _ & _ & _ & T) _].
          rewrite EV in T. destruct (d_busy (w_dev w d)) eqn:B.
          2:{ destruct T as (T & _). rewrite ends_cons_self in T. discriminate. }
          destruct T as (u & cur & _ & _ & HC). unfold DoTransmitComplete. cbn [w_dev]. rewrite B, HC. cbn [negb].
          assert (HX : d_chan (w_dev w d) <> None) by (apply (S1 t d dest); left; reflexivity).
          destruct (E1 _ HX) as (HQ & _). destruct (d_queue (w_dev w d)) as [admit|]; [|contradiction].
          destruct (d_q (w_dev w d)) as [|h q]; [eexists; reflexivity|].
          match goal with |- okay (bind (TransmitStart _ _ ?x _ _ _) _) => set (w3 := x) end.
          destruct (TransmitStart_okay w3 d h dest) as ([b w4] & ->); [| | |eexists; reflexivity].
          * subst w3. eapply equipped_same_parts; [reflexivity|reflexivity|]. eapply equipped_same_parts; [reflexivity|reflexivity|].
            eapply same_equipped; [apply set_tx_same|]. eapply equipped_same_parts; [reflexivity|reflexivity|].
            eapply same_equipped; [apply set_tx_same|]. eapply equipped_same_parts; [reflexivity|reflexivity|exact E].
          * subst w3. cbn. rewrite upd_same. cbn. rewrite upd_same. exact HX.
          * subst w3. cbn. rewrite upd_same. reflexivity.
        + assert (HX : d_chan (w_dev w d) <> None) by (apply (S2 t d p src power); left; reflexivity).
          destruct (reachable_prov crc fcs tx_time has_mob w R) as (_ & _ & P & _).
          destruct (P t d p src power) as (t0 & p0 & a & q & own & HS & ->); [rewrite EV; left; reflexivity|].
          destruct (S3 _ _ _ _ _ _ HS) as ((F1 & F2 & F3) & F4).
          pose proof (Receive_total crc fcs (mkWorld t (w_dev w) (w_chan w) r (w_log w)) d (p_uid p0) own a q (p_bytes p0) src power
            F4 F1 F2 F3) as X. unfold frame_of.
          destruct (Receive crc fcs _ d _ src power) as [w1| |]; [eexists; reflexivity| |]; exfalso;
            cbn in X; discriminate X; apply (E1 _ HX). }
    destruct OK as (w' & H). exists w'. split; [assumption|]. split; [eapply reachable_step; eassumption|].
    apply (micros_safe w w'); [|assumption|assumption].
    eapply step_micros; [eapply reachable_indexed; eassumption| | |exact H].
    - destruct o; try contradiction; discriminate.
    - intros d p a q ->. exact U.
  Qed.

  Lemma run_okay : forall ops w, reachable w -> equipped w -> sound w -> Forall usual ops -> okay (run w ops).
  Proof.
    induction ops as [|o r IH]; intros w R E S U; [eexists; reflexivity|].
    inversion U as [|? ? U1 U2]; subst. destruct (step_okay w o R E S U1) as (w' & H & R' & _ & E' & S').
    cbn. rewrite H. cbn. apply IH; assumption.
  Qed.
End Safe.
