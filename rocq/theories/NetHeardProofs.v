(** Everything received was transmitted over a link that was open at that time. *)
Require Import ZArith List Bool Lia.
Require Import Verif.Base Verif.Num Verif.FrameModel Verif.NetModel Verif.NetSpec Verif.NetRunSpec Verif.HeardSpec Verif.NetSteps Verif.NetInv
  Verif.NetTxProofs Verif.NetSendProofs Verif.NetChanProofs Verif.NetOrderProofs Verif.FrameProofs Verif.NetDrainProofs Verif.HelperSafeProofs.
Import ListNotations.
Local Open Scope Z_scope.

Section Heard.
  Context {N : Num}.
  Variable crc : list Z -> Z.
  Variable fcs : bool.
  Variable tx_time : Z -> Z -> Z.
  Variable has_mob : nat -> bool.
  Notation step := (@step N crc fcs tx_time has_mob).
  Notation run := (@run N crc fcs tx_time has_mob).
  Notation reachable := (@reachable N crc fcs tx_time has_mob).
  Implicit Type w : world N.

  Definition callback_free (l : list (Z * obs)) : Prop :=
    forall t d src payload q from to own, ~ In (t, RxCallback d src payload q from to own) l.

  Lemma receptions_out : forall w c src p tx dsts w', receptions has_mob w c src p tx dsts w' ->
    forall T dst q s pow, In (T, RxEvent dst q s pow) (w_events w') ->
    In (T, RxEvent dst q s pow) (w_events w) \/
    (s = src /\ q = p /\ In dst dsts /\ T = w_now w + delay_to has_mob w c src dst tx /\ pow = power_at has_mob w c src dst).
  Proof.
    intros w c src p tx dsts w' (_ & _ & _ & _ & ->) T dst q s pow. revert dst.
    assert (G : forall l acc dst, In (T, RxEvent dst q s pow) (fold_left (fun l dst => insert_event (w_now w + delay_to has_mob w c src dst tx, RxEvent dst p src (power_at has_mob w c src dst)) l) l acc) ->
      In (T, RxEvent dst q s pow) acc \/ (s = src /\ q = p /\ In dst l /\ T = w_now w + delay_to has_mob w c src dst tx /\ pow = power_at has_mob w c src dst)).
    { induction l as [|x r IH]; intros acc dst H; cbn in H; [auto|]. apply IH in H as [H|(A & B & C & D & E)].
      - rewrite (in_insert tx_time) in H. destruct H as [H|H]; [|left; exact H]. injection H as E1 E2 E3 E4 E5. subst. right. split; [reflexivity|]. split; [reflexivity|]. split; [left; reflexivity|]. split; reflexivity.
      - right. repeat split; auto. right. exact C. }
    intros dst. apply G.
  Qed.

  Lemma split_nth_in : forall (l : list nat) i x, In x (firstn i l ++ skipn (S i) l) -> exists k, k <> i /\ nth_error l k = Some x.
  Proof.
    induction l as [|y r IH]; intros i x H; [destruct i; destruct H|].
    destruct i as [|i]; cbn in H.
    - apply In_nth_error in H as [k H]. exists (S k). split; [lia|exact H].
    - destruct H as [<-|H]; [exists 0%nat; split; [lia|reflexivity]|]. apply IH in H as (k & NE & H). exists (S k). split; [lia|exact H].
  Qed.

  Lemma channel_out : forall w c p d dest tx b w', nth_error (c_link (w_chan w c)) (d_id (w_dev w d)) = Some d ->
    ChannelTransmitStart has_mob w c p (d_id (w_dev w d)) dest tx = Ok (b, w') ->
    (exists l, w_log w' = w_log w ++ l /\ callback_free l) /\
    forall T dst q s pow, In (T, RxEvent dst q s pow) (w_events w') ->
      In (T, RxEvent dst q s pow) (w_events w) \/
      (s = d /\ q = p /\ recipient w c d dest dst /\ hears has_mob w c d dst = true /\
       T = w_now w + delay_to has_mob w c d dst tx /\ pow = power_at has_mob w c d dst).
  Proof.
    intros w c p d dest tx b w' HN H. unfold ChannelTransmitStart in H.
    assert (RL : forall dsts, receptions has_mob w c d p tx dsts w' -> (forall dst, In dst dsts -> recipient w c d dest dst /\ hears has_mob w c d dst = true) ->
      (exists l, w_log w' = w_log w ++ l /\ callback_free l) /\
      forall T dst q s pow, In (T, RxEvent dst q s pow) (w_events w') ->
        In (T, RxEvent dst q s pow) (w_events w) \/
        (s = d /\ q = p /\ recipient w c d dest dst /\ hears has_mob w c d dst = true /\
         T = w_now w + delay_to has_mob w c d dst tx /\ pow = power_at has_mob w c d dst)).
    { intros dsts R X. split.
      - destruct R as (_ & _ & _ & L & _). eexists. split; [exact L|]. intros t d' src payload q from to own HI.
        apply in_map_iff in HI as (y & Y & _). discriminate.
      - intros T dst q s pow HI. apply (receptions_out w c d p tx dsts w' R) in HI as [HI|(A & B & C & D & E)]; [auto|].
        right. destruct (X dst C). auto 10. }
    assert (SAME : w' = w -> (exists l, w_log w' = w_log w ++ l /\ callback_free l) /\
      forall T dst q s pow, In (T, RxEvent dst q s pow) (w_events w') ->
        In (T, RxEvent dst q s pow) (w_events w) \/
        (s = d /\ q = p /\ recipient w c d dest dst /\ hears has_mob w c d dst = true /\
         T = w_now w + delay_to has_mob w c d dst tx /\ pow = power_at has_mob w c d dst)).
    { intros ->. split; [exists []; rewrite app_nil_r; split; [reflexivity|intros ? ? ? ? ? ? ? ? []]|auto]. }
    destruct (c_kind (w_chan w c)) eqn:K.
    - apply isl_transmit in H. cbv zeta in H. rewrite HN in H.
      destruct H as [(k & x & H1 & H2 & H3 & HB & R)|[(H1 & HB & _ & R)|(_ & _ & _ & E)]]; [| |exact (SAME E)].
      + apply (RL _ R). intros dst HI. destruct b; [|destruct HI]. destruct HI as [<-|[]]. split; [|symmetry; exact HB].
        unfold recipient. rewrite K. left. exists k. auto.
      + apply (RL _ R). intros dst HI. apply filter_In in HI as [HI HH]. split; [|exact HH]. unfold recipient. rewrite K. right.
        split; [exact H1|]. split; [exact HB|]. apply split_nth_in. exact HI.
    - apply leo_transmit in H. cbv zeta in H. rewrite HN in H. destruct H as (dsts & _ & R & H).
      apply (RL _ R). intros dst HI. unfold recipient. rewrite K.
      destruct H as [(A & B & ->)|[(A & B & ->)|(_ & _ & ->)]]; [| |destruct HI]; apply filter_In in HI as [HI HH]; auto 10.
  Qed.

  (** The receptions scheduled in w' that are not in w, in terms of a ToChannel among [new]. *)
  Definition traced w w' (new : list (Z * obs)) : Prop :=
    forall T dst q s pow, In (T, RxEvent dst q s pow) (w_events w') ->
      In (T, RxEvent dst q s pow) (w_events w) \/
      exists c dest tx gap, In (w_now w', ToChannel s c q dest tx gap) new /\ d_chan (w_dev w' s) = Some c /\ recipient w' c s dest dst /\ hears has_mob w' c s dst = true /\
        T = w_now w' + delay_to has_mob w' c s dst tx /\ pow = power_at has_mob w' c s dst.

  Lemma TransmitStart_out : forall w d p dest b w', indexed_ok w -> TransmitStart tx_time has_mob w d p dest = Ok (b, w') ->
    exists l, w_log w' = w_log w ++ l /\ callback_free l /\ traced w w' l.
  Proof.
    intros w d p dest b w' HI H. unfold TransmitStart in H. destruct (d_busy (w_dev w d)); [discriminate|].
    apply bind_ok in H as (w2 & H1 & H). apply schedule_ok in H1 as [H0 ->].
    destruct (d_chan (w_dev w d)) as [c|] eqn:C; [|discriminate].
    apply bind_ok in H as ([result w4] & H1 & H).
    match type of H1 with ChannelTransmitStart _ ?x _ _ _ _ _ = _ => set (w3 := x) in H1 end.
    assert (EI : d_id (w_dev w3 d) = d_id (w_dev w d)) by (unfold w3; cbn; rewrite upd_same; reflexivity).
    assert (EL : nth_error (c_link (w_chan w3 c)) (d_id (w_dev w3 d)) = Some d) by (rewrite EI; apply HI; exact C).
    rewrite <- EI in H1. pose proof (Channel_more has_mob _ _ _ _ _ _ _ _ H1) as (M1 & M2 & M3 & _).
    destruct (channel_out w3 c p d dest _ result w4 EL H1) as ((l & L & CF) & EV).
    set (tx := tx_time (g_bps (d_cfg (w_dev w d))) (len (p_bytes p))) in *. set (gap := g_gap (d_cfg (w_dev w d))) in *.
    assert (ET : w_now w4 = w_now w) by (rewrite M3; reflexivity).
    assert (E4 : w_log w4 = w_log w ++ (w_now w, PhyTxBegin d p) :: (w_now w, ToChannel d c p dest tx gap) :: l).
    { rewrite L. unfold w3. cbn. rewrite <- !app_assoc. reflexivity. }
    assert (EV4 : forall T dst q s pow, In (T, RxEvent dst q s pow) (w_events w4) -> In (T, RxEvent dst q s pow) (w_events w) \/
      (s = d /\ q = p /\ recipient w4 c d dest dst /\ hears has_mob w4 c d dst = true /\
         T = w_now w4 + delay_to has_mob w4 c d dst tx /\ pow = power_at has_mob w4 c d dst)).
    { intros T dst q s pow X. apply EV in X as [X|(A & B & R & HH & D & E)].
      - left. unfold w3 in X. cbn in X. apply (in_insert tx_time) in X as [X|X]; [discriminate|exact X].
      - right. destruct (link_same has_mob w4 w3 c d dst tx M1 M2 M3) as (S1 & S2 & S3). rewrite S1, S2, S3, M3.
        repeat split; try assumption. unfold recipient, addr_of in *. rewrite M1, M2. exact R. }
    assert (EC : d_chan (w_dev w4 d) = Some c) by (rewrite M1; unfold w3; cbn; rewrite upd_same; exact C).
    set (l' := (w_now w, PhyTxBegin d p) :: (w_now w, ToChannel d c p dest tx gap) :: l ++ if result then [] else [(w_now w, PhyTxDrop d p)]).
    exists l'.
    assert (CL : callback_free l').
    { intros t d' src payload q from to own [X|[X|X]]; try discriminate. apply in_app_or in X as [X|X]; [exact (CF _ _ _ _ _ _ _ _ X)|].
      destruct result; [destruct X|destruct X as [X|[]]; discriminate]. }
    destruct result; injection H as _ <-; unfold l'.
    - rewrite app_nil_r. split; [exact E4|]. split; [rewrite <- (app_nil_r l); exact CL|].
      intros T dst q s pow X. apply EV4 in X as [X|(-> & -> & R & HH & D & E)]; [auto|]. right. exists c, dest, tx, gap.
      split; [rewrite ET; right; left; reflexivity|]. split; [exact EC|]. auto.
    - split; [cbn [log1 w_log]; rewrite E4, ET, <- app_assoc; reflexivity|]. split; [exact CL|].
      intros T dst q s pow X. apply EV4 in X as [X|(-> & -> & R & HH & D & E)]; [auto|]. right. exists c, dest, tx, gap.
      split; [change (w_now (log1 w4 (PhyTxDrop d p))) with (w_now w4); rewrite ET; right; left; reflexivity|]. split; [exact EC|].
      destruct (link_same has_mob (log1 w4 (PhyTxDrop d p)) w4 c d dst tx eq_refl eq_refl eq_refl) as (S1 & S2 & S3). rewrite S1, S2, S3. auto.
  Qed.

  Notation origin := (@origin N crc fcs tx_time has_mob).
  Notation accepted := (@accepted N crc fcs).

  Definition step_traced w (o : op N) w' (new : list (Z * obs)) : Prop :=
    traced w w' new /\
    forall T d src payload q from to own, In (T, RxCallback d src payload q from to own) new ->
      o = ORun /\ T = w_now w' /\ exists p power, In (T, RxEvent d p src power) (w_events w) /\ accepted w T d src payload q from to own p power.

  Lemma Receive_accepted : forall w d p src power w', Receive crc fcs w d p src power = Ok w' ->
    exists l, w_log w' = w_log w ++ map (pair (w_now w)) l /\ w_events w' = w_events w /\ w_now w' = w_now w /\
    forall d' src' payload q from to own, In (RxCallback d' src' payload q from to own) l ->
      d' = d /\ src' = src /\ accepted w (w_now w) d src payload q from to own p power.
  Proof.
    intros w d p src power w' H. unfold Receive in H. rewrite !log1_emit in H.
    destruct (Nat.eqb_spec src d) as [Es|Ns]; [injection H as <-; exists [MacRxDrop d p]; cbn; intuition discriminate|].
    change (DoCalcRxPower (d_cfg (w_dev w d)) power) with (effective_power (d_cfg (w_dev w d)) power) in H.
    destruct (nlt N _ _) eqn:P.
    { injection H as <-. rewrite emit_emit. exists [PhyRxEnd d p src; PhyRxDrop d p]. cbn; intuition discriminate. }
    destruct (match g_err _ with Some f => f _ _ | None => _ end) eqn:EE.
    { injection H as <-. rewrite emit_emit. exists [PhyRxEnd d p src; PhyRxDrop d p]. cbn; intuition discriminate. }
    apply bind_ok in H as (r & D & H). destruct r as [|payload q from to].
    { injection H as <-. rewrite emit_emit. eexists [PhyRxEnd d p src; _]. cbn; intuition discriminate. }
    cbv zeta in H. set (t := classify (g_addr (d_cfg (w_dev w d))) to) in *.
    assert (F : forall f, g_err (d_cfg (w_dev w d)) = Some f -> f (w_now w) p = false) by (intros f Hf; rewrite Hf in EE; exact EE).
    assert (CASE : t = POtherHost \/ (to = 2 ^ 48 - 1 \/ to = g_addr (d_cfg (w_dev w d)) \/ Z.testbit to 40 = true)).
    { unfold t, classify. destruct (Z.eqb_spec to broadcast) as [B|]; [right; left; exact B|].
      destruct (Z.eqb_spec to (g_addr (d_cfg (w_dev w d)))); [auto|].
      destruct (is_group to) eqn:G; [right; right; right; rewrite <- group_bit; exact G|auto]. }
    assert (A : (to = 2 ^ 48 - 1 \/ to = g_addr (d_cfg (w_dev w d)) \/ Z.testbit to 40 = true) ->
      accepted w (w_now w) d src payload q from to (g_addr (d_cfg (w_dev w d))) p power).
    { intros X. unfold accepted. cbv zeta. repeat split; assumption. }
    assert (Q : t = POtherHost /\ w' = (if g_pcb (d_cfg (w_dev w d)) then emit w [PhyRxEnd d p src; PromiscSniffer d p; MacPromiscRx d p; PromiscCallback d src payload q from to t] else emit w [PhyRxEnd d p src; PromiscSniffer d p]) \/
      t <> POtherHost /\ w' = (if g_pcb (d_cfg (w_dev w d)) then emit w [PhyRxEnd d p src; PromiscSniffer d p; MacPromiscRx d p; PromiscCallback d src payload q from to t; MacRx d p; RxCallback d src payload q from to (g_addr (d_cfg (w_dev w d)))] else emit w [PhyRxEnd d p src; PromiscSniffer d p; MacRx d p; RxCallback d src payload q from to (g_addr (d_cfg (w_dev w d)))])).
    { destruct t eqn:Et; [right|right|right|left]; (split; [try discriminate; reflexivity|]); try (destruct (g_rxcb _); [|discriminate]);
        destruct (g_pcb _); rewrite ?log1_emit, ?emit_emit in H; injection H as <-; cbn [app]; reflexivity. }
    destruct Q as [[Et ->]|[Et ->]].
    - destruct (g_pcb _); (eexists; split; [reflexivity|]); cbn; intuition discriminate.
    - destruct CASE as [CASE|CASE]; [contradiction|]. specialize (A CASE).
      destruct (g_pcb _); (eexists; split; [reflexivity|]); (split; [reflexivity|]); (split; [reflexivity|]);
        intros d' src' pl q' from' to' own HX; cbn in HX;
        repeat (destruct HX as [HX|HX]; [try discriminate HX; injection HX as <- <- <- <- <- <- <-; auto|]); destruct HX.
  Qed.

  Lemma step_out : forall w o w', indexed_ok w -> step w o = Ok w' -> exists new, w_log w' = w_log w ++ new /\ step_traced w o w' new.
  Proof.
    intros w o w' HI H.
    assert (SAME : forall l, w_log w' = w_log w ++ l -> callback_free l -> (forall x, In x (w_events w') -> In x (w_events w)) ->
      exists new, w_log w' = w_log w ++ new /\ step_traced w o w' new).
    { intros l E CF EV. exists l. split; [exact E|]. split; [intros T dst q s pow X; left; apply EV, X|].
      intros T d src payload q from to own X. exfalso. exact (CF _ _ _ _ _ _ _ _ X). }
    assert (Q0 : w_log w' = w_log w -> (forall x, In x (w_events w') -> In x (w_events w)) -> exists new, w_log w' = w_log w ++ new /\ step_traced w o w' new).
    { intros E. apply (SAME []); [rewrite app_nil_r; exact E|intros ? ? ? ? ? ? ? ? []]. }
    assert (CFS : forall l, Forall (fun x : Z * obs => match snd x with RxCallback _ _ _ _ _ _ _ => False | _ => True end) l -> callback_free l).
    { intros l F t d src payload q from to own X. rewrite Forall_forall in F. exact (F _ X). }
    assert (TS : forall w0 d0 h a b pre, indexed_ok w0 -> TransmitStart tx_time has_mob w0 d0 h a = Ok (b, w') ->
      w_log w0 = w_log w ++ pre -> callback_free pre -> (forall x, In x (w_events w0) -> In x (w_events w)) ->
      exists new, w_log w' = w_log w ++ new /\ step_traced w o w' new).
    { intros w0 d0 h a b pre HI0 HT E0 CF EV. apply TransmitStart_out in HT as (l & EL & CL & TR); [|exact HI0].
      exists (pre ++ l). split; [rewrite EL, E0, app_assoc; reflexivity|]. split.
      - intros T dst q s pow X. apply TR in X as [X|(c & dest & tx & gap & X1 & X2)]; [left; apply EV, X|]. right.
        exists c, dest, tx, gap. split; [apply in_or_app; right; exact X1|exact X2].
      - intros T d src payload q from to own X. exfalso. apply in_app_or in X as [X|X]; [exact (CF _ _ _ _ _ _ _ _ X)|exact (CL _ _ _ _ _ _ _ _ X)]. }
    destruct o; cbn in H.
    - apply bind_ok in H as ([b w1] & H & H1). injection H1 as ->. unfold Send in H. destruct dest as [a|].
      + destruct (negb _).
        { injection H as _ <-. eapply SAME; [cbn; rewrite <- app_assoc; reflexivity|apply CFS; repeat constructor|auto]. }
        destruct (d_queue _) as [admit|]; [|discriminate].
        destruct (admit _ _).
        2:{ injection H as _ <-. eapply SAME; [cbn; rewrite <- !app_assoc; reflexivity|apply CFS; repeat constructor|auto]. }
        destruct (d_busy _).
        { injection H as _ <-. eapply SAME; [cbn; rewrite <- !app_assoc; reflexivity|apply CFS; repeat constructor|auto]. }
        destruct (_ ++ _) as [|h r]; [discriminate|].
        apply bind_ok in H as ([b3 w3] & H & H3). injection H3 as _ <-.
        eapply TS; [|exact H|cbn; rewrite <- !app_assoc; reflexivity|apply CFS; repeat constructor|auto].
        intros x y. cbn. unfold upd. destruct (Nat.eqb_spec x d) as [->|]; cbn; apply HI.
      + destruct (d_up _); [discriminate|]. injection H as _ <-. eapply SAME; [reflexivity|apply CFS; repeat constructor|auto].
    - injection H as <-. apply Q0; [reflexivity|auto].
    - injection H as <-. eapply SAME; [reflexivity|apply CFS; repeat constructor|auto].
    - apply Attach_spec in H as (g & s & _ & _ & _ & _ & _ & _ & HE & HL & _). eapply SAME; [exact HL|apply CFS; repeat constructor|rewrite HE; auto].
    - apply bind_ok in H as ([b w1] & H & H1). injection H1 as ->. unfold ChannelDetach in H.
      assert (HB : forall x, w_log x = w_log w -> w_events x = w_events w -> BaseDetach x c i = (b, w') -> exists new, w_log w' = w_log w ++ new /\ step_traced w (ODetach c i) w' new).
      { intros x E E' Hx. unfold BaseDetach in Hx. destruct (nth_error (c_link (w_chan x c)) i) as [y|]; [|injection Hx as _ ->; apply Q0; [exact E|rewrite E'; auto]].
        destruct (d_up (w_dev x y)); injection Hx as _ Hx; [|apply Q0; [rewrite Hx in E; exact E|rewrite <- Hx, E'; auto]].
        eapply SAME; [rewrite <- Hx; cbn; rewrite E; reflexivity|apply CFS; repeat constructor|rewrite <- Hx; cbn; rewrite E'; auto]. }
      destruct (c_kind (w_chan w c)); [injection H as H; apply (HB w); auto|].
      destruct (nth_error (c_link (w_chan w c)) i); [|discriminate]. injection H as H. eapply HB; [| |exact H]; reflexivity.
    - injection H as <-. eapply SAME; [reflexivity|apply CFS; repeat constructor|auto].
    - injection H as <-. apply Q0; [reflexivity|auto].
    - injection H as <-. apply Q0; [reflexivity|auto].
    - destruct (_ && _); injection H as <-; apply Q0; try reflexivity; auto.
    - unfold run_next in H. destruct (w_events w) as [|[t' e] r] eqn:E; [injection H as <-; apply Q0; [reflexivity|rewrite E; auto]|].
      assert (EV : forall x, In x r -> In x ((t', e) :: r)) by (intros x X; right; exact X).
      destruct e as [d' dest'|dst p' src power].
      + unfold DoTransmitComplete in H. cbn [w_dev] in H.
        destruct (negb _); [discriminate|]. destruct (d_cur _) as [cur|]; [|discriminate].
        destruct (d_queue _) as [admit|]; [|discriminate]. destruct (d_q _) as [|h q].
        { injection H as <-. apply (SAME [(t', PhyTxEnd d' cur)]); [reflexivity|apply CFS; repeat constructor|exact EV]. }
        apply bind_ok in H as ([b3 w3] & H & H3). injection H3 as ->.
        eapply TS; [|exact H|cbn; rewrite <- !app_assoc; reflexivity|apply CFS; repeat constructor|exact EV].
        intros x y. cbn. unfold upd. destruct (Nat.eqb_spec x d') as [->|]; cbn; try rewrite Nat.eqb_refl; cbn; apply HI.
      + clear SAME Q0 TS. apply Receive_accepted in H as (l & EL & EE & ET & AC). cbn [w_log w_events w_now] in *.
        eexists. split; [exact EL|]. split.
        * intros T dst' q s pow X. left. rewrite E. apply EV. rewrite <- EE. exact X.
        * intros T d src' payload q from to own X. apply in_map_iff in X as (y & Y & X). injection Y as <- ->.
          destruct (AC _ _ _ _ _ _ _ X) as (-> & -> & A). split; [reflexivity|]. split; [symmetry; exact ET|].
          exists p', power. split; [rewrite E; left; reflexivity|exact A].
  Qed.

  Lemma origin_more : forall start ops ops' T dst src p power, origin start ops T dst src p power ->
    origin start (ops ++ ops') T dst src p power.
  Proof.
    intros start ops ops' T dst src p power (o1 & o & o2 & w & w1 & new & c & dest & tx & gap & -> & H).
    exists o1, o, (o2 ++ ops'), w, w1, new, c, dest, tx, gap. rewrite <- app_assoc. split; [reflexivity|exact H].
  Qed.

  Lemma run_last : forall start ops o w, run start (ops ++ [o]) = Ok w -> exists w0, run start ops = Ok w0 /\ step w0 o = Ok w.
  Proof.
    intros start ops o w H. rewrite run_app in H. apply bind_ok in H as (w0 & H0 & H). exists w0. split; [exact H0|].
    cbn in H. apply bind_ok in H as (w1 & H & H1). injection H1 as <-. exact H.
  Qed.

  Theorem pending_origin : forall start ops w, reachable start -> w_events start = [] -> run start ops = Ok w ->
    forall T dst p src power, In (T, RxEvent dst p src power) (w_events w) -> origin start ops T dst src p power.
  Proof.
    intros start ops. induction ops as [|o ops IH] using rev_ind; intros w R E0 H T dst p src power HI.
    { injection H as <-. rewrite E0 in HI. destruct HI. }
    pose proof H as HR. apply run_last in H as (w0 & H0 & H).
    assert (IX : indexed_ok w0) by (apply (reachable_indexed crc fcs tx_time has_mob); eapply reachable_run; eassumption).
    destruct (step_out w0 o w IX H) as (new & EN & TR & _).
    apply TR in HI as [HI|(c & dest & tx & gap & X1 & X0 & X2 & X3 & X4 & X5)]; [apply origin_more, (IH w0); assumption|].
    exists ops, o, [], w0, w, new, c, dest, tx, gap. repeat (split; [first [reflexivity|assumption]|]). assumption.
  Qed.

  Theorem received_origin : forall start ops w new, reachable start -> w_events start = [] -> run start ops = Ok w -> w_log w = w_log start ++ new ->
    forall T dst src payload q from to own, In (T, RxCallback dst src payload q from to own) new ->
    exists ops1 ops2 w0 p power, ops = ops1 ++ ORun :: ops2 /\ run start ops1 = Ok w0 /\
      origin start ops1 T dst src p power /\ accepted w0 T dst src payload q from to own p power.
  Proof.
    intros start ops. induction ops as [|o ops IH] using rev_ind; intros w new0 R E0 H LG T dst src payload q from to own HI.
    { injection H as <-. rewrite <- (app_nil_r (w_log start)) in LG at 1. apply app_inv_head in LG. subst new0. destruct HI. }
    pose proof H as HR. apply run_last in H as (w0 & H0 & H).
    assert (IX : indexed_ok w0) by (apply (reachable_indexed crc fcs tx_time has_mob); eapply reachable_run; eassumption).
    destruct (step_out w0 o w IX H) as (new & EN & _ & CB).
    assert (L0 : exists l, w_log w0 = w_log start ++ l).
    { clear IH HR H IX EN CB LG. revert w0 H0. induction ops as [|x ops IH] using rev_ind; intros w0 H0; [injection H0 as <-; exists []; symmetry; apply app_nil_r|].
      pose proof H0 as HR. apply run_last in H0 as (w1 & H1 & H2). destruct (IH w1 H1) as (l & EL).
      assert (IX : indexed_ok w1) by (apply (reachable_indexed crc fcs tx_time has_mob); eapply reachable_run; eassumption).
      destruct (step_out w1 x w0 IX H2) as (l2 & EL2 & _). exists (l ++ l2). rewrite EL2, EL, app_assoc. reflexivity. }
    destruct L0 as (l & L0). rewrite EN, L0, <- app_assoc in LG. apply app_inv_head in LG. subst new0.
    apply in_app_or in HI as [HI|HI].
    - destruct (IH w0 l R E0 H0 L0 _ _ _ _ _ _ _ _ HI) as (ops1 & ops2 & w1 & p & power & -> & A). exists ops1, (ops2 ++ [o]), w1, p, power.
      rewrite <- app_assoc. split; [reflexivity|exact A].
    - destruct (CB _ _ _ _ _ _ _ _ HI) as (-> & _ & p & power & X & A). exists ops, [], w0, p, power.
      split; [reflexivity|]. split; [exact H0|]. split; [|exact A]. eapply pending_origin; eassumption.
  Qed.

  Lemma run_extends : forall ops start w, reachable start -> run start ops = Ok w -> exists l, w_log w = w_log start ++ l.
  Proof.
    induction ops as [|x ops IH]; intros start w R H; [injection H as <-; exists []; symmetry; apply app_nil_r|].
    cbn in H. apply bind_ok in H as (w1 & H1 & H).
    destruct (step_out start x w1 (reachable_indexed _ _ _ _ _ R) H1) as (l & EL & _).
    destruct (IH w1 w (reachable_step crc fcs tx_time has_mob _ _ _ R H1) H) as (l2 & EL2). exists (l ++ l2). rewrite EL2, EL, app_assoc. reflexivity.
  Qed.

  (** ** Traffic *)
  Definition kept w w' : Prop := w_chan w' = w_chan w /\ forall d, d_cfg (w_dev w' d) = d_cfg (w_dev w d) /\ d_chan (w_dev w' d) = d_chan (w_dev w d).

  Lemma TransmitStart_kept : forall w d p dest b w', TransmitStart tx_time has_mob w d p dest = Ok (b, w') -> kept w w' /\ w_now w' = w_now w.
  Proof.
    intros w d p dest b w' H. unfold TransmitStart in H. destruct (d_busy (w_dev w d)); [discriminate|].
    apply bind_ok in H as (w2 & H1 & H). apply schedule_ok in H1 as [H0 ->].
    destruct (d_chan (w_dev w d)) as [c|] eqn:C; [|discriminate].
    apply bind_ok in H as ([result w4] & H1 & H). apply Channel_more in H1 as (M1 & M2 & M3 & _).
    assert (K : kept w w4 /\ w_now w4 = w_now w).
    { split; [|rewrite M3; reflexivity]. split; [rewrite M2; reflexivity|]. intros e. rewrite M1. cbn. unfold upd.
      destruct (Nat.eqb_spec e d) as [->|]; split; reflexivity || exact (eq_sym C) || reflexivity. }
    destruct result; injection H as _ <-; exact K.
  Qed.

  Lemma kept_set_tx : forall w d q b cur, kept w (set_tx w d q b cur).
  Proof. intros w d q b cur. split; [reflexivity|]. intros e. cbn. unfold upd. destruct (Nat.eqb_spec e d) as [->|]; split; reflexivity. Qed.
  Lemma kept_trans : forall w1 w2 w3, kept w1 w2 -> kept w2 w3 -> kept w1 w3.
  Proof. intros w1 w2 w3 [A B] [C D]. split; [congruence|]. intros e. destruct (B e), (D e). split; congruence. Qed.
  Lemma kept_refl : forall w, kept w w. Proof. intros w. split; auto. Qed.

  Ltac kp := split; [reflexivity|]; let e := fresh in intros e; cbn; unfold upd;
    repeat match goal with |- context [Nat.eqb ?a ?b] => destruct (Nat.eqb_spec a b); [subst|]; cbn end; (split; reflexivity || contradiction).

  Lemma traffic_step : forall w o w', timely w -> traffic o -> step w o = Ok w' -> kept w w' /\ w_now w <= w_now w'.
  Proof.
    intros w o w' T TR H. destruct o; try contradiction; cbn in H; clear TR.
    - apply bind_ok in H as ([b w1] & H & H1). injection H1 as <-. unfold Send in H. destruct dest as [a|].
      + destruct (negb _); [injection H as _ <-; split; [kp|cbn; lia]|].
        destruct (d_queue _) as [admit|]; [|discriminate].
        destruct (admit _ _); [|injection H as _ <-; split; [kp|cbn; lia]].
        destruct (d_busy _); [injection H as _ <-; split; [kp|cbn; lia]|].
        destruct (_ ++ _) as [|h r]; [discriminate|].
        apply bind_ok in H as ([b3 w3] & H & H3). injection H3 as _ <-. apply TransmitStart_kept in H as [K E]. split.
        * eapply kept_trans; [|exact K]. kp.
        * rewrite E. cbn. lia.
      + destruct (d_up _); [discriminate|]. injection H as _ <-. split; [kp|cbn; lia].
    - injection H as <-. split; [kp|cbn; lia].
    - injection H as <-. split; [kp|cbn; lia].
    - destruct (_ && _) eqn:E; injection H as <-; (split; [kp|]); cbn; [|lia]. apply andb_prop in E as [E _]. lia.
    - unfold run_next in H. destruct (w_events w) as [|[t e] r] eqn:E; [injection H as <-; split; [apply kept_refl|lia]|].
      assert (LT : w_now w <= t) by (eapply (pop_timely w); [exact T|exact E]).
      destruct e as [d' dest|dst p src power].
      + unfold DoTransmitComplete in H. cbn [w_dev] in H.
        destruct (negb _); [discriminate|]. destruct (d_cur _) as [cur|]; [|discriminate].
        destruct (d_queue _) as [admit|]; [|discriminate]. destruct (d_q _) as [|h q].
        { injection H as <-. split; [kp|exact LT]. }
        apply bind_ok in H as ([b3 w3] & H & H3). injection H3 as <-. apply TransmitStart_kept in H as [K EE]. split; [|rewrite EE; exact LT].
        eapply kept_trans; [|exact K]. kp.
      + apply Receive_emit in H as (l & ->). split; [kp|exact LT].
  Qed.

  Lemma traffic_run : forall ops w w', reachable w -> Forall traffic ops -> run w ops = Ok w' -> kept w w' /\ w_now w <= w_now w'.
  Proof.
    induction ops as [|o ops IH]; intros w w' R F H; [injection H as <-; split; [apply kept_refl|lia]|].
    inversion F; subst. cbn in H. apply bind_ok in H as (w1 & H1 & H).
    destruct (traffic_step w o w1 (proj2 (reachable_transmitter crc fcs tx_time has_mob 0 w R)) H2 H1) as [K L].
    destruct (IH w1 w' (reachable_step crc fcs tx_time has_mob w o w1 R H1) H3 H) as [K' L']. split; [eapply kept_trans; eassumption|lia].
  Qed.

  (** What traffic from a world without pending events brings to a receive callback. *)
  Theorem traffic_origin : forall w0 ops w new, reachable w0 -> w_events w0 = [] -> Forall traffic ops -> run w0 ops = Ok w -> w_log w = w_log w0 ++ new ->
    forall T dst src payload q from to own c, In (T, RxCallback dst src payload q from to own) new -> d_chan (w_dev w0 src) = Some c ->
    exists w1 dest tx, kept w0 w1 /\ w_now w0 <= w_now w1 <= w_now w /\ src <> dst /\ recipient w1 c src dest dst /\ hears has_mob w1 c src dst = true /\
      T = w_now w1 + delay_to has_mob w1 c src dst tx /\ let g := d_cfg (w_dev w0 dst) in own = g_addr g /\
      nlt N (effective_power g (power_at has_mob w1 c src dst)) (g_thr g) = false.
  Proof.
    intros w0 ops w new R E0 F H LG T dst src payload q from to own c HI HC.
    destruct (received_origin w0 ops w new R E0 H LG _ _ _ _ _ _ _ _ HI) as (ops1 & ops2 & w2 & p & power & -> & H2 & O & (A1 & _ & A3 & A4 & _)).
    pose proof F as FF. apply Forall_app in F as [F _].
    destruct (traffic_run ops1 w0 w2 R F H2) as [[_ K2] _]. destruct (K2 dst) as [EG _]. rewrite EG in A3, A4.
    destruct O as (o1 & o & o2 & wa & w1 & nw & c' & dest & tx & gap & -> & B1 & B2 & B3 & B4 & B5 & B6 & B7 & B8 & ->).
    apply Forall_app in F as [F1 F2]. inversion F2; subst.
    assert (RA : run w0 (o1 ++ [o]) = Ok w1) by (rewrite run_app, B1; cbn; rewrite B2; reflexivity).
    assert (FA : Forall traffic (o1 ++ [o])) by (apply Forall_app; split; [assumption|constructor; [assumption|constructor]]).
    destruct (traffic_run _ w0 w1 R FA RA) as [K L].
    assert (LATE : w_now w1 <= w_now w).
    { replace ((o1 ++ o :: o2) ++ ORun :: ops2) with ((o1 ++ [o]) ++ (o2 ++ ORun :: ops2)) in FF, H by (rewrite <- !app_assoc; reflexivity).
      apply Forall_app in FF as [_ FF]. rewrite run_app, RA in H. cbn [bind] in H. eapply (traffic_run _ w1 w); [eapply reachable_run; eassumption|exact FF|exact H]. }
    assert (EC : c' = c) by (destruct K as [_ K]; destruct (K src) as [_ X]; rewrite X, HC in B5; injection B5 as ->; reflexivity). subst c'.
    exists w1, dest, tx. split; [exact K|]. split; [split; [exact L|exact LATE]|]. split; [exact A1|]. split; [exact B6|]. split; [exact B7|]. auto.
  Qed.
End Heard.
