(** The order in which frames pass from one device to another: proofs. *)
Require Import ZArith List Bool Lia Sorted.
Require Import Verif.Base Verif.Num Verif.FrameModel Verif.NetModel Verif.NetSpec Verif.NetRunSpec Verif.HeardSpec Verif.OrderSpec Verif.NetSteps Verif.NetInv
  Verif.NetTxProofs Verif.NetSendProofs Verif.NetChanProofs Verif.NetOrderProofs Verif.FrameProofs Verif.NetDrainProofs Verif.HelperSafeProofs Verif.NetHeardProofs.
Import ListNotations.
Local Open Scope Z_scope.

(** ** Lists *)
Lemma same_by_key : forall A (key : A -> Z) (l m : list A),
  StronglySorted (fun x y => key x <= key y) l -> StronglySorted (fun x y => key x <= key y) m ->
  (forall t, filter (fun x => key x =? t) l = filter (fun x => key x =? t) m) -> l = m.
Proof.
  intros A key. induction l as [|x r IH]; intros m SL SM F.
  - destruct m as [|y m]; [reflexivity|]. specialize (F (key y)). cbn in F. rewrite Z.eqb_refl in F. discriminate.
  - destruct m as [|y m]; [specialize (F (key x)); cbn in F; rewrite Z.eqb_refl in F; discriminate|].
    inversion SL as [|? ? SL1 SL2]; subst. inversion SM as [|? ? SM1 SM2]; subst. rewrite Forall_forall in SL2, SM2.
    assert (E : key x = key y).
    { assert (L1 : key x <= key y).
      { assert (H : In y (filter (fun z => key z =? key y) (x :: r))) by (rewrite F; apply filter_In; split; [left; reflexivity|apply Z.eqb_refl]).
        apply filter_In in H as [[->|H] _]; [lia|]. apply SL2, H. }
      assert (L2 : key y <= key x).
      { assert (H : In x (filter (fun z => key z =? key x) (y :: m))) by (rewrite <- F; apply filter_In; split; [left; reflexivity|apply Z.eqb_refl]).
        apply filter_In in H as [[->|H] _]; [lia|]. apply SM2, H. }
      lia. }
    assert (EXY : x = y).
    { pose proof (F (key x)) as H. cbn in H. rewrite Z.eqb_refl, E, Z.eqb_refl in H. congruence. }
    subst y. f_equal. apply IH; [assumption|assumption|]. intros t. specialize (F t). cbn in F. destruct (key x =? t); [congruence|exact F].
Qed.

Lemma sorted_map : forall A B (f : A -> B) (key : B -> Z) (l : list A),
  StronglySorted (fun x y => key x <= key y) (map f l) <-> StronglySorted (fun x y => key (f x) <= key (f y)) l.
Proof.
  induction l as [|x r IH]; cbn; [split; constructor|]. split; intros H; inversion H as [|? ? H1 H2]; subst; constructor; try (apply IH; assumption).
  - rewrite Forall_map in H2. exact H2.
  - rewrite Forall_map. exact H2.
Qed.

Lemma between_app : forall src dst a b, between src dst (a ++ b) = between src dst a ++ between src dst b.
Proof. intros. unfold between. apply flat_map_app. Qed.
Lemma crossings_app : forall src dst a b, crossings src dst (a ++ b) = crossings src dst a ++ crossings src dst b.
Proof. intros. unfold crossings. apply flat_map_app. Qed.
Lemma scheduled_app : forall a b, scheduled (a ++ b) = scheduled a ++ scheduled b.
Proof. intros. unfold scheduled. apply flat_map_app. Qed.
Lemma performed_app : forall a b, performed (a ++ b) = performed a ++ performed b.
Proof. intros. unfold performed. apply flat_map_app. Qed.

Lemma between_scheduled : forall src dst l, between src dst (scheduled l) = map (fun x => (arrival x, frame x)) (crossings src dst l).
Proof.
  induction l as [|[t o] r IH]; [reflexivity|]. destruct o; try exact IH.
  change (scheduled ((t, TxRx c p src0 dst0 txTime delay) :: r)) with ((t + delay, p, src0, dst0) :: scheduled r).
  change (crossings src dst ((t, TxRx c p src0 dst0 txTime delay) :: r)) with ((if Nat.eqb src0 src && Nat.eqb dst0 dst then [(t, p, delay)] else []) ++ crossings src dst r)%bool.
  change (between src dst ((t + delay, p, src0, dst0) :: scheduled r)) with ((if Nat.eqb src0 src && Nat.eqb dst0 dst then [(t + delay, p)] else []) ++ between src dst (scheduled r))%bool.
  rewrite map_app, <- IH. f_equal. destruct (_ && _)%bool; reflexivity.
Qed.

Lemma between_filter : forall src dst t l,
  between src dst (filter (fun x => fst (fst (fst x)) =? t) l) = filter (fun x => fst x =? t) (between src dst l).
Proof.
  induction l as [|[[[u p] s] d] r IH]; [reflexivity|]. cbn [filter fst].
  change (between src dst ((u, p, s, d) :: r)) with ((if Nat.eqb s src && Nat.eqb d dst then [(u, p)] else []) ++ between src dst r)%bool.
  rewrite filter_app, <- IH. destruct (u =? t) eqn:E.
  - change (between src dst ((u, p, s, d) :: filter (fun x => fst (fst (fst x)) =? t) r)) with
      ((if Nat.eqb s src && Nat.eqb d dst then [(u, p)] else []) ++ between src dst (filter (fun x => fst (fst (fst x)) =? t) r))%bool.
    f_equal. destruct (_ && _)%bool; [cbn; rewrite E; reflexivity|reflexivity].
  - destruct (_ && _)%bool; [cbn; rewrite E; reflexivity|reflexivity].
Qed.

Lemma between_in : forall src dst l t p, In (t, p) (between src dst l) <-> In (t, p, src, dst) l.
Proof.
  intros src dst l t p. unfold between. rewrite in_flat_map. split.
  - intros ([[[u q] s] d] & H & X). destruct (Nat.eqb_spec s src) as [->|], (Nat.eqb_spec d dst) as [->|]; cbn in X; try contradiction.
    destruct X as [X|[]]. injection X as -> ->. exact H.
  - intros H. exists (t, p, src, dst). split; [exact H|]. rewrite !Nat.eqb_refl. left. reflexivity.
Qed.

Lemma between_sorted : forall src dst l, StronglySorted (fun x y => fst (fst (fst x)) <= fst (fst (fst y))) l ->
  StronglySorted (fun x y : Z * pkt => fst x <= fst y) (between src dst l).
Proof.
  induction 1 as [|[[[t p] s] d] r S IH F]; [constructor|].
  change (between src dst ((t, p, s, d) :: r)) with ((if Nat.eqb s src && Nat.eqb d dst then [(t, p)] else []) ++ between src dst r)%bool.
  destruct (_ && _)%bool; [|exact IH]. cbn. constructor; [exact IH|]. rewrite Forall_forall in *. intros [u q] H. apply between_in, F in H. exact H.
Qed.

Section Order.
  Context {N : Num}.
  Variable crc : list Z -> Z.
  Variable fcs : bool.
  Variable tx_time : Z -> Z -> Z.
  Variable has_mob : nat -> bool.
  Notation step := (@step N crc fcs tx_time has_mob).
  Notation run := (@run N crc fcs tx_time has_mob).
  Notation reachable := (@reachable N crc fcs tx_time has_mob).
  Implicit Type w : world N.

  Theorem order_iff : forall w0 ops w new src dst, reachable w0 -> w_events w0 = [] -> run w0 ops = Ok w -> w_log w = w_log w0 ++ new ->
    StronglySorted (fun x y => fst x <= fst y) (between src dst (performed new ++ waiting (w_events w))) /\
    (between src dst (performed new ++ waiting (w_events w)) = between src dst (scheduled new) <->
     StronglySorted (fun x y => arrival x <= arrival y) (crossings src dst new)).
  Proof.
    intros w0 ops w new src dst R E0 H LG.
    assert (RW : reachable w) by (eapply NetTxProofs.reachable_run; eassumption).
    destruct (receptions_in_order crc fcs tx_time has_mob w0 R) as [_ F0]. rewrite E0 in F0. cbn [waiting flat_map] in F0. setoid_rewrite app_nil_r in F0.
    destruct (receptions_in_order crc fcs tx_time has_mob w RW) as [S F]. rewrite LG, performed_app in S. rewrite LG in F.
    rewrite <- app_assoc in S.
    assert (S' : StronglySorted (fun x y => fst (fst (fst x)) <= fst (fst (fst y))) (performed new ++ waiting (w_events w))).
    { clear - S. induction (performed (w_log w0)) as [|x r IH]; [exact S|]. inversion S; subst. auto. }
    assert (F' : forall t, filter (fun x => fst (fst (fst x)) =? t) (performed new ++ waiting (w_events w)) = filter (fun x => fst (fst (fst x)) =? t) (scheduled new)).
    { intros t. specialize (F t). rewrite performed_app, scheduled_app, <- app_assoc, filter_app, (filter_app _ (scheduled (w_log w0))), F0 in F.
      apply app_inv_head in F. exact F. }
    pose proof (between_sorted src dst _ S') as SB. split; [exact SB|]. split; intros X.
    - rewrite X, between_scheduled in SB. exact (proj1 (sorted_map _ _ (fun x : Z * pkt * Z => (arrival x, frame x)) fst _) SB).
    - apply (same_by_key _ fst); [exact SB| |].
      + rewrite between_scheduled. exact (proj2 (sorted_map _ _ (fun x : Z * pkt * Z => (arrival x, frame x)) fst _) X).
      + intros t. rewrite <- !between_filter, F'. reflexivity.
  Qed.

  (** What a step under way says about deliveries. *)
  Definition cross w (x : Z * obs) : Prop :=
    fst x = w_now w /\
    match snd x with TxRx c p src dst tx delay => d_chan (w_dev w src) = Some c /\ delay = delay_to has_mob w c src dst tx | _ => True end.

  Lemma channel_rx : forall w c p d dest tx b w', nth_error (c_link (w_chan w c)) (d_id (w_dev w d)) = Some d ->
    ChannelTransmitStart has_mob w c p (d_id (w_dev w d)) dest tx = Ok (b, w') ->
    exists dsts, receptions has_mob w c d p tx dsts w'.
  Proof.
    intros w c p d dest tx b w' HN H. unfold ChannelTransmitStart in H.
    destruct (c_kind (w_chan w c)) eqn:K.
    - apply isl_transmit in H. cbv zeta in H. rewrite HN in H.
      destruct H as [(k & x & H1 & H2 & H3 & HB & R)|[(H1 & HB & _ & R)|(_ & _ & _ & ->)]]; [eexists; exact R|eexists; exact R|].
      exists []. repeat split. cbn. rewrite app_nil_r. reflexivity.
    - apply leo_transmit in H. cbv zeta in H. rewrite HN in H. destruct H as (dsts & _ & R & H). exists dsts. exact R.
  Qed.

  Lemma TransmitStart_cross : forall w d p dest b w', indexed_ok w -> TransmitStart tx_time has_mob w d p dest = Ok (b, w') ->
    exists l, w_log w' = w_log w ++ l /\ w_now w' = w_now w /\ Forall (cross w') l.
  Proof.
    intros w d p dest b w' HI H. unfold TransmitStart in H. destruct (d_busy (w_dev w d)); [discriminate|].
    apply bind_ok in H as (w2 & H1 & H). apply schedule_ok in H1 as [H0 ->].
    destruct (d_chan (w_dev w d)) as [c|] eqn:C; [|discriminate].
    apply bind_ok in H as ([result w4] & H1 & H).
    match type of H1 with ChannelTransmitStart _ ?x _ _ _ _ _ = _ => set (w3 := x) in H1 end.
    assert (EI : d_id (w_dev w3 d) = d_id (w_dev w d)) by (unfold w3; cbn; rewrite upd_same; reflexivity).
    assert (EL : nth_error (c_link (w_chan w3 c)) (d_id (w_dev w3 d)) = Some d) by (rewrite EI; apply HI; exact C).
    rewrite <- EI in H1. destruct (channel_rx w3 c p d dest _ result w4 EL H1) as (dsts & M3 & M1 & M2 & L & _).
    assert (EC : d_chan (w_dev w4 d) = Some c) by (rewrite M1; unfold w3; cbn; rewrite upd_same; exact C).
    assert (NW : w_now w3 = w_now w) by reflexivity.
    match type of L with _ = w_log w3 ++ map (fun dst => (_, TxRx _ _ _ _ ?t _)) _ => set (tx := t) in * end.
    assert (X : Forall (cross w4) ((w_now w, PhyTxBegin d p) :: (w_now w, ToChannel d c p dest tx (g_gap (d_cfg (w_dev w d)))) ::
      map (fun dst => (w_now w3, TxRx c p d dst tx (delay_to has_mob w3 c d dst tx))) dsts)).
    { constructor; [split; [cbn; rewrite M3; reflexivity|exact I]|]. constructor; [split; [cbn; rewrite M3; reflexivity|exact I]|].
      rewrite Forall_map. apply Forall_forall. intros dst _. split; [cbn; rewrite M3; reflexivity|]. cbn [snd]. split; [exact EC|].
      destruct (link_same has_mob w4 w3 c d dst tx M1 M2 M3) as (_ & S2 & _). rewrite S2. reflexivity. }
    assert (LW : w_log w4 = w_log w ++ (w_now w, PhyTxBegin d p) :: (w_now w, ToChannel d c p dest tx (g_gap (d_cfg (w_dev w d)))) ::
      map (fun dst => (w_now w3, TxRx c p d dst tx (delay_to has_mob w3 c d dst tx))) dsts).
    { rewrite L. unfold w3 at 1. cbn. rewrite <- !app_assoc. reflexivity. }
    destruct result; injection H as _ <-.
    - eexists. split; [exact LW|]. split; [rewrite M3; reflexivity|exact X].
    - eexists. split; [cbn [log1 w_log]; rewrite LW, <- app_assoc; reflexivity|]. split; [cbn; rewrite M3; reflexivity|].
      apply Forall_app. split; [|constructor; [split; [reflexivity|exact I]|constructor]].
      eapply Forall_impl; [|exact X]. intros [t o] [A B]. split; [exact A|].
      destruct o; try exact I. exact B.
  Qed.

  Lemma step_cross : forall w o w', indexed_ok w -> traffic o -> step w o = Ok w' -> exists new, w_log w' = w_log w ++ new /\ Forall (cross w') new.
  Proof.
    intros w o w' HI TR H.
    assert (Q : forall (l : list (Z * obs)) v, Forall (fun x : Z * obs => fst x = w_now v /\ match snd x with TxRx _ _ _ _ _ _ => False | _ => True end) l -> Forall (cross v) l).
    { intros l v F. eapply Forall_impl; [|exact F]. intros [t x] [A B]. split; [exact A|]. destruct x; try exact I. destruct B. }
    assert (TS : forall w1 d0 h a b pre, indexed_ok w1 -> TransmitStart tx_time has_mob w1 d0 h a = Ok (b, w') ->
      w_log w1 = w_log w ++ pre -> Forall (fun x : Z * obs => fst x = w_now w1 /\ match snd x with TxRx _ _ _ _ _ _ => False | _ => True end) pre ->
      exists new, w_log w' = w_log w ++ new /\ Forall (cross w') new).
    { intros w1 d0 h a b pre HI0 HT E0 CF. apply TransmitStart_cross in HT as (l & EL & EN & CL); [|exact HI0].
      exists (pre ++ l). split; [rewrite EL, E0, app_assoc; reflexivity|]. apply Forall_app. split; [|exact CL]. apply Q. rewrite EN. exact CF. }
    destruct o; try contradiction; cbn in H.
    - apply bind_ok in H as ([b w1] & H & H1). injection H1 as ->. unfold Send in H. destruct dest as [a|].
      + destruct (negb _).
        { injection H as _ <-. eexists. split; [cbn; rewrite <- app_assoc; reflexivity|]. apply Q. repeat constructor. }
        destruct (d_queue _) as [admit|]; [|discriminate].
        destruct (admit _ _).
        2:{ injection H as _ <-. eexists. split; [cbn; rewrite <- !app_assoc; reflexivity|]. apply Q. repeat constructor. }
        destruct (d_busy _).
        { injection H as _ <-. eexists. split; [cbn; rewrite <- !app_assoc; reflexivity|]. apply Q. repeat constructor. }
        destruct (_ ++ _) as [|h r]; [discriminate|].
        apply bind_ok in H as ([b3 w3] & H & H3). injection H3 as _ <-. eapply TS; [|exact H| |].
        * intros x c. cbn. unfold upd. destruct (Nat.eqb_spec x d) as [->|]; cbn; apply HI.
        * cbn. rewrite <- !app_assoc. reflexivity.
        * repeat constructor.
      + destruct (d_up _); [discriminate|]. injection H as _ <-. eexists. split; [reflexivity|]. apply Q. repeat constructor.
    - injection H as <-. eexists. split; [reflexivity|]. apply Q. repeat constructor.
    - injection H as <-. eexists. split; [reflexivity|]. apply Q. repeat constructor.
    - destruct (_ && _); injection H as <-; exists []; rewrite app_nil_r; (split; [reflexivity|constructor]).
    - unfold run_next in H. destruct (w_events w) as [|[t e] r] eqn:E; [injection H as <-; exists []; rewrite app_nil_r; split; [reflexivity|constructor]|].
      destruct e as [d' dest|dst p src power].
      + unfold DoTransmitComplete in H. cbn [w_dev] in H.
        destruct (negb _); [discriminate|]. destruct (d_cur _) as [cur|]; [|discriminate].
        destruct (d_queue _) as [admit|]; [|discriminate]. destruct (d_q _) as [|h q].
        { injection H as <-. eexists. split; [reflexivity|]. apply Q. repeat constructor. }
        apply bind_ok in H as ([b3 w3] & H & H3). injection H3 as <-. eapply TS; [|exact H| |].
        * intros x c. cbn. unfold upd. destruct (Nat.eqb_spec x d') as [->|]; cbn; rewrite ?Nat.eqb_refl; cbn; apply HI.
        * cbn. rewrite <- !app_assoc. reflexivity.
        * repeat constructor.
      + apply Receive_table in H as (new & -> & DD). cbn [w_dev w_log w_now] in *. eexists. split; [reflexivity|].
        apply Q. rewrite Forall_map.
        destruct DD as [(_ & ->)|[(_ & _ & p' & _ & ->)|(_ & _ & payload & proto & ty & _ & ->)]];
          try destruct (g_pcb _); try destruct ty; repeat constructor.
  Qed.

  (** In traffic from w0 everything is dated in order, and the time on the way is that of the link. *)
  Theorem traffic_cross : forall ops w0 w new, reachable w0 -> Forall traffic ops -> run w0 ops = Ok w -> w_log w = w_log w0 ++ new ->
    StronglySorted (fun x y => fst x <= fst y) new /\
    Forall (fun x => w_now w0 <= fst x <= w_now w /\
      match snd x with
      | TxRx c p src dst tx delay => d_chan (w_dev w0 src) = Some c /\ exists w1, kept w0 w1 /\ w_now w1 = fst x /\ delay = delay_to has_mob w1 c src dst tx
      | _ => True end) new.
  Proof.
    induction ops as [|o ops IH] using rev_ind; intros w0 w new R F H LG.
    - injection H as <-. rewrite <- (app_nil_r (w_log w0)) in LG at 1. apply app_inv_head in LG. subst. split; constructor.
    - apply Forall_app in F as [F FO]. inversion FO; subst. pose proof H as HF. apply run_last in H as (wa & H & S).
      assert (RA : reachable wa) by (eapply NetTxProofs.reachable_run; eassumption).
      destruct (run_extends crc fcs tx_time has_mob ops w0 wa R H) as (na & LA).
      destruct (IH w0 wa na R F H LA) as [S1 F1].
      destruct (step_cross wa o w (reachable_indexed _ _ _ _ _ RA) ltac:(assumption) S) as (nb & LB & C).
      assert (EN : new = na ++ nb) by (rewrite LB, LA, <- app_assoc in LG; apply app_inv_head in LG; symmetry; exact LG). subst new.
      destruct (traffic_run crc fcs tx_time has_mob ops w0 wa R F H) as [K1 L1].
      destruct (traffic_step crc fcs tx_time has_mob wa o w (proj2 (reachable_transmitter crc fcs tx_time has_mob 0 wa RA)) ltac:(assumption) S) as [K2 L2].
      assert (K : kept w0 w) by (eapply kept_trans; eassumption).
      split.
      + clear - S1 C F1 L2. induction S1 as [|x r S1 IH X]; cbn.
        * induction C as [|y s [A _] C IH]; constructor; [exact IH|]. eapply Forall_impl; [|exact C]. intros z [B _]. cbn in B. lia.
        * inversion F1 as [|? ? F2 F3]; subst. constructor; [apply IH, F3|]. apply Forall_app. split; [exact X|].
          eapply Forall_impl; [|exact C]. intros z [B _]. cbn in B. lia.
      + apply Forall_app. split.
        * eapply Forall_impl; [|exact F1]. intros [t x] [A B]. cbn [fst snd] in *. split; [lia|exact B].
        * eapply Forall_impl; [|exact C]. intros [t x] [A B]. cbn [fst snd] in *. split; [lia|]. destruct x; try exact I. destruct B as [B1 B2].
          split; [destruct K as [_ K]; destruct (K src) as [_ E]; rewrite <- E; exact B1|]. exists w. auto.
  Qed.

  Lemma crossings_in : forall src dst l x, In x (crossings src dst l) -> exists c tx, In (departure x, TxRx c (frame x) src dst tx (snd x)) l.
  Proof.
    intros src dst l [[t p] y] H. unfold crossings in H. apply in_flat_map in H as ([u o] & H & X). destruct o; try contradiction.
    cbn in X. destruct (Nat.eqb_spec src0 src) as [->|], (Nat.eqb_spec dst0 dst) as [->|]; cbn in X; try contradiction.
    destruct X as [X|[]]. injection X as -> -> ->. eexists _, _. exact H.
  Qed.

  Lemma crossings_sorted : forall src dst (l : trace), StronglySorted (fun x y => fst x <= fst y) l -> StronglySorted (fun x y => departure x <= departure y) (crossings src dst l).
  Proof.
    induction 1 as [|[t o] r S IH F]; [constructor|].
    change ((t, o) :: r) with ([(t, o)] ++ r). rewrite crossings_app.
    assert (X : crossings src dst [(t, o)] = [] \/ exists p y, crossings src dst [(t, o)] = [(t, p, y)]).
    { destruct o; try (left; reflexivity). unfold crossings. cbn. destruct (_ && _)%bool; cbn; [right; eauto|left; reflexivity]. }
    destruct X as [-> |(p & y & ->)]; [exact IH|]. cbn [app]. constructor; [exact IH|]. apply Forall_forall. intros x H.
    apply crossings_in in H as (c & tx & H). rewrite Forall_forall in F. apply F in H. exact H.
  Qed.

  (** The time on the way between two nodes with mobility models over a channel with a delay model. *)
  Theorem traffic_crossings : forall ops w0 w new src dst c a b f, reachable w0 -> Forall traffic ops -> run w0 ops = Ok w -> w_log w = w_log w0 ++ new ->
    d_chan (w_dev w0 src) = Some c -> node_of w0 src = Some a -> node_of w0 dst = Some b -> has_mob a = true -> has_mob b = true ->
    c_delay (w_chan w0 c) = Some f ->
    StronglySorted (fun x y => departure x <= departure y) (crossings src dst new) /\
    Forall (fun x => w_now w0 <= departure x <= w_now w /\ arrival x = departure x + f a b (departure x)) (crossings src dst new).
  Proof.
    intros ops w0 w new src dst c a b f R F H LG HC Na Nb Ma Mb HD. destruct (traffic_cross ops w0 w new R F H LG) as [S FN]. split.
    - apply crossings_sorted, S.
    - apply Forall_forall. intros x HX. apply crossings_in in HX as (c' & tx & HX). rewrite Forall_forall in FN. apply FN in HX.
      cbn [fst snd] in HX. destruct HX as (T & C & w1 & [KC KD] & NW & D). split; [exact T|]. unfold arrival, departure in *. rewrite D, <- NW. f_equal.
      assert (EC : c' = c) by congruence. subst c'. destruct (KD src) as [Gs _]. destruct (KD dst) as [Gd _].
      unfold delay_to. replace (node_of w1 src) with (Some a) by (unfold node_of in *; rewrite Gs; auto).
      replace (node_of w1 dst) with (Some b) by (unfold node_of in *; rewrite Gd; auto).
      unfold link_delay. rewrite KC, HD, Ma, Mb. reflexivity.
  Qed.
End Order.
