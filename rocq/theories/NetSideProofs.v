Require Import ZArith List Bool Lia.
Require Import Verif.Base Verif.Num Verif.FrameModel Verif.NetModel Verif.NetSpec Verif.NetSteps Verif.NetInv
  Verif.NetTxProofs Verif.NetChanProofs.
Import ListNotations.
Local Open Scope Z_scope.

Section Side.
  Context {N : Num}.
  Variable crc : list Z -> Z.
  Variable fcs : bool.
  Variable tx_time : Z -> Z -> Z.
  Variable has_mob : nat -> bool.
  Notation reachable := (@reachable N crc fcs tx_time has_mob).
  Notation step := (@step N crc fcs tx_time has_mob).
  Notation run := (@run N crc fcs tx_time has_mob).
  Notation steady := (@steady N crc fcs tx_time has_mob).
  Implicit Type w : world N.

  (** ** New receptions of a step *)
  Definition heard_on w (l : trace) : Prop :=
    forall t c p src dst tx delay, In (t, TxRx c p src dst tx delay) l ->
      In src (c_link (w_chan w c)) /\ reachable_on w c src dst.
  Definition same_parts w w' : Prop :=
    w_chan w' = w_chan w /\ forall d, d_cfg (w_dev w' d) = d_cfg (w_dev w d).
  Definition hears_step w w' : Prop := same_parts w w' /\ exists new, w_log w' = w_log w ++ new /\ heard_on w new.

  Lemma same_reachable_on : forall w w' c src dst, same_parts w w' -> reachable_on w' c src dst <-> reachable_on w c src dst.
  Proof.
    intros w w' c src dst [HC HD]. unfold reachable_on, addr_of. rewrite HC, HD. reflexivity.
  Qed.
  Lemma hears_trans : forall w w1 w2, hears_step w w1 -> hears_step w1 w2 -> hears_step w w2.
  Proof.
    intros w w1 w2 (S1 & n1 & L1 & H1) (S2 & n2 & L2 & H2). split.
    - destruct S1 as [C1 D1], S2 as [C2 D2]. split; [congruence|]. intros d. rewrite D2. apply D1.
    - exists (n1 ++ n2). split; [rewrite L2, L1, app_assoc; reflexivity|].
      intros t c p src dst tx delay H. apply in_app_or in H as [H|H]; [eauto|].
      apply H2 in H as [Ha Hb]. destruct S1 as [C1 D1] eqn:E. rewrite C1 in Ha. split; [assumption|].
      apply (same_reachable_on w w1); assumption.
  Qed.
  Lemma hears_emit : forall w l, Forall (fun o => match o with TxRx _ _ _ _ _ _ => False | _ => True end) l -> hears_step w (emit w l).
  Proof.
    intros w l H. split; [split; reflexivity|]. exists (map (pair (w_now w)) l). split; [reflexivity|].
    intros t c p src dst tx delay HI. apply in_map_iff in HI as (o & E & HI). injection E as _ ->.
    rewrite Forall_forall in H. apply H in HI. destruct HI.
  Qed.
  Lemma hears_dev : forall w w', same_parts w w' -> w_log w' = w_log w -> hears_step w w'.
  Proof.
    intros w w' S L. split; [assumption|]. exists []. rewrite app_nil_r. split; [assumption|]. intros ? ? ? ? ? ? ? [].
  Qed.
  Lemma same_set_tx : forall w d q b cur, same_parts w (set_tx w d q b cur).
  Proof.
    intros w d q b cur. split; [reflexivity|]. intros d'. cbn. unfold upd. destruct (Nat.eqb_spec d' d) as [->|]; reflexivity.
  Qed.

  Lemma receptions_hears : forall w c src p tx dsts w', receptions has_mob w c src p tx dsts w' ->
    In src (c_link (w_chan w c)) -> (forall dst, In dst dsts -> reachable_on w c src dst) -> hears_step w w'.
  Proof.
    intros w c src p tx dsts w' (_ & HD & HC & HL & _) HS HR. split; [split; [assumption|intros; rewrite HD; reflexivity]|].
    eexists. split; [exact HL|]. intros t c' p' src' dst' tx' delay H. apply in_map_iff in H as (x & E & H).
    injection E as _ <- <- <- <- _ _. auto.
  Qed.

  Lemma channel_hears : forall w c p id dest txTime b w' src, nth_error (c_link (w_chan w c)) id = Some src ->
    ChannelTransmitStart has_mob w c p id dest txTime = Ok (b, w') -> hears_step w w'.
  Proof.
    intros w c p id dest tx b w' src HI H. unfold ChannelTransmitStart in H.
    assert (HS : In src (c_link (w_chan w c))) by (eapply nth_error_In; eassumption).
    assert (HF : forall (f : nat -> bool) l dst, In dst (filter f l) -> In dst l) by (intros f l dst X; apply filter_In in X; tauto).
    destruct (c_kind (w_chan w c)) eqn:K.
    - apply isl_transmit in H. cbv zeta in H. rewrite HI in H.
      destruct H as [(k & dst & Hk & _ & _ & Hb & R)|[(_ & _ & _ & R)|(_ & _ & _ & ->)]].
      + eapply receptions_hears; [exact R|assumption|]. unfold reachable_on. rewrite K.
        destruct b; [intros x [<-|[]]; eapply nth_error_In; eassumption|intros x []].
      + eapply receptions_hears; [exact R|assumption|]. unfold reachable_on. rewrite K.
        intros x Hx. apply HF in Hx. rewrite <- (firstn_skipn id (c_link (w_chan w c))). apply in_app_or in Hx as [Hx|Hx]; apply in_or_app; [auto|].
        right. clear - Hx. revert Hx. generalize (c_link (w_chan w c)). induction id as [|i IH]; intros [|y l] Hx; cbn in *; try tauto. apply IH. destruct l; assumption.
      + apply hears_dev; [split|]; reflexivity.
    - apply leo_transmit in H. cbv zeta in H. rewrite HI in H. destruct H as (dsts & _ & R & HC).
      eapply receptions_hears; [exact R|assumption|]. unfold reachable_on. rewrite K.
      assert (HN : forall m, ~ (exists x, In (addr_of w src, x) m) -> indexed (addr_of w src) m = false).
      { intros m Hm. destruct (indexed _ m) eqn:E; [|reflexivity]. apply indexed_in in E. contradiction. }
      destruct HC as [(H1 & H2 & ->)|[(H1 & H2 & ->)|(_ & _ & ->)]]; intros x Hx.
      + left. apply HF in Hx. apply indexed_in in H1. auto.
      + right. apply HF in Hx. apply indexed_in in H1. auto.
      + destruct Hx.
  Qed.

  Lemma TransmitStart_hears : forall w d p dest b w', indexed_ok w ->
    TransmitStart tx_time has_mob w d p dest = Ok (b, w') -> hears_step w w'.
  Proof.
    intros w d p dest b w' HI H. unfold TransmitStart in H.
    destruct (d_busy (w_dev w d)); [discriminate|].
    apply bind_ok in H as (w2 & H1 & H). apply schedule_ok in H1 as [H0 ->].
    destruct (d_chan (w_dev w d)) as [c|] eqn:C; [|discriminate].
    apply bind_ok in H as ([result w4] & H1 & H). rewrite log1_emit in H1. cbv zeta in H1.
    eapply channel_hears in H1; [|apply HI; assumption].
    match type of H1 with hears_step ?x _ => assert (H2 : hears_step w x) end.
    { eapply hears_trans; [|apply hears_emit; repeat constructor].
      eapply hears_trans; [apply (hears_dev w (set_tx w d (d_q (w_dev w d)) true (Some p))); [apply same_set_tx|reflexivity]|].
      eapply hears_trans; [apply (hears_emit _ [PhyTxBegin d p]); repeat constructor|].
      apply hears_dev; [split; reflexivity|reflexivity]. }
    pose proof (hears_trans _ _ _ H2 H1) as H3.
    destruct result; injection H as <- <-; [assumption|].
    eapply hears_trans; [exact H3|]. rewrite log1_emit. apply hears_emit. repeat constructor.
  Qed.

  (** What a step does to configurations and channels, and whom it reaches. *)
  Definition moves (o : op N) : bool :=
    match o with OSend _ _ _ _ | ORun | OAdvance _ | OSetQueue _ _ | OLinkDown _ => true | _ => false end.
  Lemma step_moves : forall w o w', indexed_ok w -> moves o = true -> step w o = Ok w' -> hears_step w w'.
  Proof.
    intros w o w' HI HM H. destruct o; try discriminate HM; cbn in H.
    - apply bind_ok in H as ([b w1] & H & E). injection E as <-. unfold Send in H. rewrite !log1_emit in H. destruct dest as [a|].
      + destruct (d_up (w_dev w d)); cbn [negb] in H.
        2:{ injection H as <- <-. rewrite ?log1_emit, ?emit_emit. apply hears_emit. repeat constructor. }
        destruct (d_queue (w_dev w d)) as [admit|]; [|discriminate]. destruct (admit _ _).
        2:{ injection H as <- <-. rewrite ?log1_emit, ?emit_emit. apply hears_emit. repeat constructor. }
        destruct (d_busy (w_dev w d)).
        { injection H as <- <-. rewrite ?log1_emit, ?emit_emit, emit_set_tx.
          eapply hears_trans; [|apply hears_emit; repeat constructor]. apply hears_dev; [apply same_set_tx|reflexivity]. }
        destruct (_ ++ _) as [|h r]; [discriminate|]. apply bind_ok in H as ([b4 w4] & H & E). injection E as <- <-.
        rewrite ?log1_emit, ?emit_emit, emit_set_tx, ?emit_emit in H.
        apply TransmitStart_hears in H.
        2:{ apply (indexed_set_tx w d r false (d_cur (w_dev w d))) in HI. exact HI. }
        eapply hears_trans; [|exact H].
        eapply hears_trans; [|apply hears_emit; repeat constructor]. apply hears_dev; [apply same_set_tx|reflexivity].
      + destruct (d_up (w_dev w d)); [discriminate|]. injection H as <- <-. apply hears_emit. repeat constructor.
    - injection H as <-. unfold SetQueue. rewrite log1_emit. eapply hears_trans; [|apply hears_emit; repeat constructor].
      apply hears_dev; [|reflexivity]. split; [reflexivity|]. intros d'. cbn. unfold upd. destruct (Nat.eqb_spec d' d) as [->|]; reflexivity.
    - injection H as <-. unfold set_link. rewrite log1_emit. eapply hears_trans; [|apply hears_emit; repeat constructor].
      apply hears_dev; [|reflexivity]. split; [reflexivity|]. intros d'. cbn. unfold upd. destruct (Nat.eqb_spec d' d) as [->|]; reflexivity.
    - destruct (_ && _) in H; injection H as <-; apply hears_dev; try reflexivity; split; reflexivity.
    - unfold run_next in H. destruct (w_events w) as [|[t e] r] eqn:EV; [injection H as <-; apply hears_dev; try reflexivity; split; reflexivity|].
      fold (pop w t r) in H. assert (HP : hears_step w (pop w t r)) by (apply hears_dev; try reflexivity; split; reflexivity).
      assert (HI' : indexed_ok (pop w t r)) by exact HI.
      destruct e as [d dest|dst p src power].
      + unfold DoTransmitComplete in H. destruct (d_busy _); [|discriminate]. cbn [negb] in H.
        destruct (d_cur _) as [cur|]; [|discriminate].
        destruct (d_queue _) as [admit|]; [|discriminate]. destruct (d_q (w_dev (pop w t r) d)) as [|h q].
        * injection H as <-. rewrite log1_emit. eapply hears_trans; [exact HP|].
          eapply hears_trans; [|apply hears_emit; repeat constructor]. apply hears_dev; [apply same_set_tx|reflexivity].
        * apply bind_ok in H as ([b3 w3] & H & E). injection E as <-.
          rewrite ?log1_emit, ?emit_emit, emit_set_tx, ?emit_emit in H.
          apply TransmitStart_hears in H.
          2:{ apply (indexed_set_tx _ d (h :: q) false None) in HI'. apply (indexed_set_tx _ d q false None) in HI'. exact HI'. }
          eapply hears_trans; [exact HP|]. eapply hears_trans; [|exact H].
          eapply hears_trans; [|apply hears_emit; repeat constructor].
          eapply hears_trans; [apply hears_dev; [apply same_set_tx|reflexivity]|apply hears_dev; [apply same_set_tx|reflexivity]].
      + apply (hears_trans _ _ _ HP). clear HP. unfold Receive in H. destruct (Nat.eqb src dst).
        { injection H as <-. rewrite log1_emit. apply hears_emit. repeat constructor. }
        rewrite ?log1_emit in H. destruct (nlt N _ _); [injection H as <-; rewrite ?log1_emit, ?emit_emit; apply hears_emit; repeat constructor|].
        destruct (match g_err _ with Some _ => _ | None => _ end); [injection H as <-; rewrite ?log1_emit, ?emit_emit; apply hears_emit; repeat constructor|].
        apply bind_ok in H as (r0 & _ & H). destruct r0 as [|payload protocol from to].
        { injection H as <-. rewrite ?log1_emit, ?emit_emit. apply hears_emit. repeat constructor. }
        destruct (g_pcb _); rewrite ?log1_emit, ?emit_emit in H; destruct (classify _ _); try destruct (g_rxcb _); try discriminate;
          injection H as <-; rewrite ?log1_emit, ?emit_emit; apply hears_emit; repeat constructor.
  Qed.

  Lemma step_indexed : forall w o w', indexed_ok w -> step w o = Ok w' -> indexed_ok w'.
  Proof. intros w o w' HI H. eapply (micros_indexed crc fcs tx_time has_mob true every); [|eassumption]. eapply step_micros; try eassumption; [reflexivity|intros; exact I]. Qed.

  (** ** Index maps *)
  Lemma index_set_in : forall a d m b x, In (b, x) (index_set a d m) -> (b, x) = (a, d) \/ In (b, x) m.
  Proof.
    induction m as [|[k y] r IH]; intros b x H; cbn [index_set] in H.
    - destruct H as [H|[]]; auto.
    - destruct (a <? k).
      + destruct H as [H|H]; [left; symmetry; exact H|auto].
      + destruct (a =? k); (destruct H as [H|H]; [|]).
        * left; symmetry; exact H.
        * right. right. exact H.
        * right. left. exact H.
        * apply IH in H as [H|H]; [auto|]. right. right. exact H.
  Qed.
  Lemma index_set_has : forall a d m, In (a, d) (index_set a d m).
  Proof.
    induction m as [|[k y] r IH]; cbn; [auto|]. destruct (a <? k); [left; reflexivity|]. destruct (a =? k); [left; reflexivity|right; assumption].
  Qed.
  Lemma index_erase_in : forall a m x, In x (index_erase a m) <-> In x m /\ fst x <> a.
  Proof. intros a m x. unfold index_erase. rewrite filter_In, negb_true_iff, Z.eqb_neq. reflexivity. Qed.

  (** Channels across a step that is not a move. *)
  Lemma other_step : forall w o w', moves o = false -> step w o = Ok w' ->
    (exists new, w_log w' = w_log w ++ new /\ forall t c p src dst tx delay, ~ In (t, TxRx c p src dst tx delay) new) /\
    (forall c, c_kind (w_chan w' c) = c_kind (w_chan w c)) /\
    match o with
    | OSet d s => w' = Configure w d s
    | OAttach d c => Attach w d c = Ok w'
    | ODetach c i =>
        (forall d, d_cfg (w_dev w' d) = d_cfg (w_dev w d)) /\ (forall c, c_link (w_chan w' c) = c_link (w_chan w c)) /\
        (forall c', (c' <> c \/ c_kind (w_chan w c) = IslChannel) -> w_chan w' c' = w_chan w c') /\
        (c_kind (w_chan w c) = LeoChannel -> exists d, nth_error (c_link (w_chan w c)) i = Some d /\
           c_gnd (w_chan w' c) = index_erase (addr_of w d) (c_gnd (w_chan w c)) /\
           c_sat (w_chan w' c) = index_erase (addr_of w d) (c_sat (w_chan w c)))
    | _ => (forall d, d_cfg (w_dev w' d) = d_cfg (w_dev w d)) /\
           forall c, c_link (w_chan w' c) = c_link (w_chan w c) /\ c_gnd (w_chan w' c) = c_gnd (w_chan w c) /\
                     c_sat (w_chan w' c) = c_sat (w_chan w c)
    end.
  Proof.
    intros w o w' HM H. destruct o; try discriminate HM; cbn in H.
    - injection H as <-. split; [exists []; rewrite app_nil_r; split; [reflexivity|intros ? ? ? ? ? ? ? []]|]. split; reflexivity.
    - pose proof H as H'. apply Attach_spec in H as (g & s & _ & _ & _ & _ & _ & HN & HE & HL & HD & HD' & HC & HC').
      split; [eexists; split; [exact HL|]; intros ? ? ? ? ? ? ? [X|[]]; discriminate|]. split; [|assumption].
      intros c'. destruct (Nat.eq_dec c' c) as [->|NE]; [rewrite HC'; reflexivity|rewrite HC by assumption; reflexivity].
    - apply bind_ok in H as ([b w1] & H & E). injection E as <-. unfold ChannelDetach in H.
      assert (HB : forall x, BaseDetach x c i = (b, w1) -> w_chan w1 = w_chan x /\ (forall d, d_cfg (w_dev w1 d) = d_cfg (w_dev x d)) /\
        exists new, w_log w1 = w_log x ++ new /\ forall t c p src dst tx delay, ~ In (t, TxRx c p src dst tx delay) new).
      { intros x Hx. unfold BaseDetach in Hx. destruct (nth_error (c_link (w_chan x c)) i) as [y|].
        - destruct (d_up (w_dev x y)); injection Hx as <- <-.
          + split; [reflexivity|]. split.
            * intros d. cbn. unfold upd. destruct (Nat.eqb_spec d y) as [->|]; reflexivity.
            * eexists. split; [reflexivity|]. intros ? ? ? ? ? ? ? [X|[]]; discriminate.
          + split; [reflexivity|]. split; [reflexivity|]. exists []; rewrite app_nil_r; split; [reflexivity|intros ? ? ? ? ? ? ? []].
        - injection Hx as <- <-. split; [reflexivity|]. split; [reflexivity|]. exists []; rewrite app_nil_r; split; [reflexivity|intros ? ? ? ? ? ? ? []]. }
      destruct (c_kind (w_chan w c)) eqn:K.
      + injection H as H. apply HB in H as (-> & HD & HL). split; [assumption|]. split; [reflexivity|].
        split; [assumption|]. split; [reflexivity|]. split; [reflexivity|discriminate].
      + destruct (nth_error _ _) as [d|] eqn:ND; [|discriminate]. injection H as H. apply HB in H as (HC & HD & HL).
        split; [exact HL|]. rewrite HC. split; [intros c'; cbn; unfold upd; destruct (Nat.eqb_spec c' c) as [->|]; [rewrite K|]; reflexivity|].
        split; [exact HD|]. split; [intros c'; cbn; unfold upd; destruct (Nat.eqb_spec c' c) as [->|]; reflexivity|].
        split; [|intros _; exists d; split; [first [reflexivity|assumption]|]; cbn; rewrite upd_same; split; reflexivity].
        intros c' [NE|X]; [cbn; rewrite upd_other by assumption; reflexivity|discriminate].
    - injection H as <-. split; [exists []; rewrite app_nil_r; split; [reflexivity|intros ? ? ? ? ? ? ? []]|].
      split; [|split; [reflexivity|]]; intros c'; cbn; unfold upd; (destruct (Nat.eqb_spec c' c) as [->|]; [|auto]); auto.
    - injection H as <-. split; [exists []; rewrite app_nil_r; split; [reflexivity|intros ? ? ? ? ? ? ? []]|].
      split; [|split; [reflexivity|]]; intros c'; cbn; unfold upd; (destruct (Nat.eqb_spec c' c) as [->|]; [|auto]); auto.
  Qed.

  (** ** Sides: C41 *)
  Definition side_ok (who : nat -> Prop) w (c : nat) (k : dkind) (m : list (Z * nat)) : Prop :=
    forall a x, In (a, x) m -> In x (c_link (w_chan w c)) /\ (who x -> addr_of w x = a /\ g_kind (d_cfg (w_dev w x)) = k).
  Definition sides (who : nat -> Prop) w : Prop := forall c, c_kind (w_chan w c) = LeoChannel ->
    side_ok who w c Gnd (c_gnd (w_chan w c)) /\ side_ok who w c Sat (c_sat (w_chan w c)).

  Lemma step_sides : forall who w o w', indexed_ok w -> keeps who w o -> step w o = Ok w' -> sides who w -> sides who w'.
  Proof.
    intros who w o w' HI HK H HS.
    assert (HMono : (forall d, d_cfg (w_dev w' d) = d_cfg (w_dev w d)) ->
      (forall c, c_kind (w_chan w' c) = LeoChannel -> c_kind (w_chan w c) = LeoChannel /\
         (forall x, In x (c_link (w_chan w c)) -> In x (c_link (w_chan w' c))) /\
         (forall a x, In (a, x) (c_gnd (w_chan w' c)) -> In (a, x) (c_gnd (w_chan w c)) \/
            (a = addr_of w x /\ g_kind (d_cfg (w_dev w x)) = Gnd /\ In x (c_link (w_chan w' c)))) /\
         (forall a x, In (a, x) (c_sat (w_chan w' c)) -> In (a, x) (c_sat (w_chan w c)) \/
            (a = addr_of w x /\ g_kind (d_cfg (w_dev w x)) = Sat /\ In x (c_link (w_chan w' c))))) -> sides who w').
    { intros HD HC c K. destruct (HC c K) as (K' & HL & HG & HT). destruct (HS c K') as [H1 H2]. split; intros a x Hx.
      - unfold addr_of. rewrite HD. apply HG in Hx as [Hx|(-> & Hk & Hl)]; [|auto].
        destruct (H1 a x Hx) as [Hl Hw]. auto.
      - unfold addr_of. rewrite HD. apply HT in Hx as [Hx|(-> & Hk & Hl)]; [|auto].
        destruct (H2 a x Hx) as [Hl Hw]. auto. }
    destruct (moves o) eqn:M.
    - apply (step_moves w o w' HI M) in H as [[HC HD] _]. apply HMono; [assumption|]. rewrite HC. auto.
    - apply other_step in H as (_ & HKind & H); [|assumption]. destruct o; try discriminate M.
      + (* set *) subst w'. intros c K. destruct (HS c K) as [H1 H2].
        assert (HX : forall k m, side_ok who w c k m -> side_ok who (Configure w d s) c k m).
        { intros k m Hm a x Hx. destruct (Hm a x Hx) as [Hl Hw]. split; [exact Hl|]. intros W. destruct (Hw W) as [Ha Hk].
          unfold addr_of in *. cbn. unfold upd. destruct (Nat.eqb_spec x d) as [->|]; [|auto].
          destruct s; cbn; auto; exfalso; eapply HK; eassumption. }
        split; apply HX; assumption.
      + (* attach *)
        apply Attach_spec in H as (g & s & HP & Hg & Hs & HG & HSat & _ & _ & _ & HD & HD' & HC & HC').
        apply HMono.
        * intros d'. destruct (Nat.eq_dec d' d) as [->|NE]; [rewrite HD'; reflexivity|rewrite HD by assumption; reflexivity].
        * intros c' K. destruct (Nat.eq_dec c' c) as [->|NE]; [|rewrite HC in * by assumption; auto].
          rewrite HC' in *. cbn in *. split; [assumption|]. split; [intros; apply in_or_app; auto|].
          destruct (g_kind (d_cfg (w_dev w d))) eqn:KD.
          -- exfalso. apply HP; auto.
          -- rewrite HG, Hs by (auto; right; discriminate). split; [|auto]. intros a x Hx.
             apply index_set_in in Hx as [Hx|Hx]; [|auto]. injection Hx as -> ->. right. split; [reflexivity|]. split; [assumption|].
             apply in_or_app. right. left. reflexivity.
          -- rewrite Hg, HSat by (auto; right; discriminate). split; [auto|]. intros a x Hx.
             apply index_set_in in Hx as [Hx|Hx]; [|auto]. injection Hx as -> ->. right. split; [reflexivity|]. split; [assumption|].
             apply in_or_app. right. left. reflexivity.
      + (* detach *)
        destruct H as (HD & HL & HC & HE). apply HMono; [assumption|]. intros c' K. rewrite HKind in K.
        split; [assumption|]. split; [intros x; rewrite HL; auto|].
        destruct (Nat.eq_dec c' c) as [->|NE]; [|rewrite HC by auto; auto].
        destruct (HE K) as (d & _ & -> & ->). split; intros a x Hx; apply index_erase_in in Hx as [Hx _]; auto.
      + destruct H as [HD HC]. apply HMono; [assumption|]. intros c' K. rewrite HKind in K. destruct (HC c') as (-> & -> & ->). auto.
      + destruct H as [HD HC]. apply HMono; [assumption|]. intros c' K. rewrite HKind in K. destruct (HC c') as (-> & -> & ->). auto.
  Qed.

  Lemma run_sides : forall who ops w w', indexed_ok w -> steady who w ops -> run w ops = Ok w' -> sides who w ->
    sides who w' /\ indexed_ok w'.
  Proof.
    induction ops as [|o r IH]; intros w w' HI HK H HS; cbn in *; [injection H as <-; auto|].
    apply bind_ok in H as (w1 & H1 & H2). destruct HK as [HK HK']. rewrite H1 in HK'.
    apply (IH w1 w'); [eapply step_indexed; eassumption|exact HK'|exact H2|eapply step_sides; eassumption].
  Qed.
  Lemma initial_sides : forall who dk ck, sides who (initial dk ck).
  Proof. intros who dk ck c _. split; intros a x []. Qed.

  Lemma steady_sides : forall who dk ck ops w, steady who (initial dk ck) ops -> run (initial dk ck) ops = Ok w -> sides who w.
  Proof.
    intros who dk ck ops w HK H. eapply run_sides; try eassumption; [apply initial_indexed|apply initial_sides].
  Qed.

  Definition everyone (d : nat) : Prop := True.

  Lemma reached_opposite : forall w c src dst, sides everyone w -> distinct_addresses w c ->
    c_kind (w_chan w c) = LeoChannel -> In src (c_link (w_chan w c)) -> reachable_on w c src dst ->
    In dst (c_link (w_chan w c)) /\
    ((g_kind (d_cfg (w_dev w src)) = Gnd /\ g_kind (d_cfg (w_dev w dst)) = Sat) \/
     (g_kind (d_cfg (w_dev w src)) = Sat /\ g_kind (d_cfg (w_dev w dst)) = Gnd)).
  Proof.
    intros w c src dst HS HD K HI HR. unfold reachable_on in HR. rewrite K in HR. destruct (HS c K) as [HG HT].
    destruct HR as [(H1 & _ & H2)|(H1 & _ & H2)]; apply indexed_in in H1 as (x & Hx);
      apply in_map_iff in H2 as ([a y] & <- & Hy); cbn.
    - destruct (HG _ _ Hx) as (Lx & Wx). destruct (Wx I) as [Ax Kx]. destruct (HT _ _ Hy) as (Ly & Wy). destruct (Wy I) as [Ay Ky].
      split; [assumption|]. left. split; [|assumption]. rewrite <- (HD x src); assumption.
    - destruct (HT _ _ Hx) as (Lx & Wx). destruct (Wx I) as [Ax Kx]. destruct (HG _ _ Hy) as (Ly & Wy). destruct (Wy I) as [Ay Ky].
      split; [assumption|]. right. split; [|assumption]. rewrite <- (HD x src); assumption.
  Qed.

  (** One step of a steady execution. *)
  Lemma opposite_sides : forall dk ck ops w o w' c, steady everyone (initial dk ck) ops -> run (initial dk ck) ops = Ok w ->
    step w o = Ok w' -> c_kind (w_chan w c) = LeoChannel -> distinct_addresses w c ->
    exists new, w_log w' = w_log w ++ new /\ forall t p src dst tx delay, In (t, TxRx c p src dst tx delay) new ->
      In src (c_link (w_chan w c)) /\ In dst (c_link (w_chan w c)) /\
      ((g_kind (d_cfg (w_dev w src)) = Gnd /\ g_kind (d_cfg (w_dev w dst)) = Sat) \/
       (g_kind (d_cfg (w_dev w src)) = Sat /\ g_kind (d_cfg (w_dev w dst)) = Gnd)).
  Proof.
    intros dk ck ops w o w' c HK H HO K HD.
    assert (R : reachable w) by (exists dk, ck, ops; assumption).
    pose proof (steady_sides _ _ _ _ _ HK H) as HS. destruct (moves o) eqn:M.
    - apply (step_moves w o w' (reachable_indexed _ _ _ _ w R) M) in HO as (_ & new & HL & HH). exists new. split; [assumption|].
      intros t p src dst tx delay HI. apply HH in HI as [H1 H2]. split; [assumption|]. apply reached_opposite; assumption.
    - apply other_step in HO as ((new & HL & HN) & _); [|assumption]. exists new. split; [assumption|].
      intros t p src dst tx delay HI. apply HN in HI. destruct HI.
  Qed.

  (** In a steady execution an attached device is indexed by its current address
      unless it was detached, so that a transmission reaches exactly the other side. *)
  Lemma leo_reaches : forall w c p i src dest tx b w', sides everyone w -> distinct_addresses w c ->
    c_kind (w_chan w c) = LeoChannel -> nth_error (c_link (w_chan w c)) i = Some src ->
    In (addr_of w src, src) (c_gnd (w_chan w c)) \/ In (addr_of w src, src) (c_sat (w_chan w c)) ->
    LeoTransmitStart has_mob w c p i dest tx = Ok (b, w') ->
    receptions has_mob w c src p tx
      (filter (hears has_mob w c src) (map snd (match g_kind (d_cfg (w_dev w src)) with Gnd => c_sat (w_chan w c) | _ => c_gnd (w_chan w c) end))) w'.
  Proof.
    intros w c p i src dest tx b w' HS HD K ND HI H. apply leo_transmit in H. cbv zeta in H. rewrite ND in H.
    destruct H as (dsts & _ & R & HC). destruct (HS c K) as [HG HT].
    assert (G : forall x, In (addr_of w src, x) (c_gnd (w_chan w c)) -> g_kind (d_cfg (w_dev w src)) = Gnd).
    { intros x Hx. destruct (HG _ _ Hx) as (Lx & Wx). destruct (Wx I) as [Ax Kx]. rewrite <- (HD x src); try assumption.
      eapply nth_error_In; eassumption. }
    assert (S : forall x, In (addr_of w src, x) (c_sat (w_chan w c)) -> g_kind (d_cfg (w_dev w src)) = Sat).
    { intros x Hx. destruct (HT _ _ Hx) as (Lx & Wx). destruct (Wx I) as [Ax Kx]. rewrite <- (HD x src); try assumption.
      eapply nth_error_In; eassumption. }
    destruct HC as [((x & Hx) & _ & ->)|[((x & Hx) & _ & ->)|(N1 & N2 & ->)]].
    - rewrite (G x Hx). exact R.
    - rewrite (S x Hx). exact R.
    - exfalso. destruct HI as [HI|HI]; eauto.
  Qed.

  (** ** Index order *)
  Definition increasing (m : list (Z * nat)) : Prop := Sorted.StronglySorted (fun x y => fst x < fst y) m.
  Lemma index_set_increasing : forall a d m, increasing m -> increasing (index_set a d m).
  Proof.
    intros a d m H. unfold increasing. induction H as [|[k x] r Hr IH Hx]; cbn [index_set]; [repeat constructor|].
    destruct (Z.ltb_spec a k).
    - constructor; [constructor; assumption|]. constructor; [cbn; lia|]. eapply Forall_impl; [|exact Hx]. intros [b y]; cbn. lia.
    - destruct (Z.eqb_spec a k) as [->|].
      + constructor; [assumption|]. eapply Forall_impl; [|exact Hx]. intros [b y]; cbn. lia.
      + constructor; [exact IH|]. apply Forall_forall. intros [b y] Hb. apply index_set_in in Hb as [Hb|Hb].
        * injection Hb as -> ->. cbn. lia.
        * rewrite Forall_forall in Hx. apply Hx in Hb. exact Hb.
  Qed.
  Lemma index_erase_increasing : forall a m, increasing m -> increasing (index_erase a m).
  Proof.
    intros a m H. unfold increasing, index_erase. induction H as [|x r Hr IH Hx]; cbn; [constructor|].
    destruct (negb _); [|assumption]. constructor; [assumption|]. rewrite Forall_forall in *. intros y Hy.
    apply filter_In in Hy as [Hy _]. auto.
  Qed.
  Definition ordered w : Prop := forall c, increasing (c_gnd (w_chan w c)) /\ increasing (c_sat (w_chan w c)).
  Lemma step_ordered : forall w o w', indexed_ok w -> step w o = Ok w' -> ordered w -> ordered w'.
  Proof.
    intros w o w' HI H HO c. destruct (moves o) eqn:M.
    - apply (step_moves w o w' HI M) in H as [[HC _] _]. rewrite HC. apply HO.
    - apply other_step in H as (_ & _ & H); [|assumption]. destruct (HO c) as [O1 O2]. destruct o; try discriminate M.
      + subst w'. split; assumption.
      + apply Attach_spec in H as (g & s & HP & Hg & Hs & HG & HSat & _ & _ & _ & _ & _ & HC & HC').
        destruct (Nat.eq_dec c c0) as [->|NE]; [|rewrite HC by assumption; apply HO].
        rewrite HC'. cbn. destruct (c_kind (w_chan w c0)).
        * rewrite Hg, Hs by auto. auto.
        * destruct (g_kind (d_cfg (w_dev w d))).
          -- exfalso. apply HP; reflexivity.
          -- rewrite HG, Hs by (auto; right; discriminate). split; [apply index_set_increasing|]; assumption.
          -- rewrite Hg, HSat by (auto; right; discriminate). split; [|apply index_set_increasing]; assumption.
      + destruct H as (_ & _ & HC & HE). destruct (Nat.eq_dec c c0) as [->|NE]; [|rewrite HC by auto; auto].
        destruct (c_kind (w_chan w c0)); [rewrite HC by auto; auto|].
        destruct (HE eq_refl) as (d & _ & -> & ->). split; apply index_erase_increasing; assumption.
      + destruct H as [_ HC]. destruct (HC c) as (_ & -> & ->). auto.
      + destruct H as [_ HC]. destruct (HC c) as (_ & -> & ->). auto.
  Qed.
  Lemma reachable_ordered : forall w, reachable w -> ordered w.
  Proof.
    intros w (dk & ck & ops & H). assert (HO : ordered (initial dk ck)) by (split; constructor).
    pose proof (initial_indexed (N:=N) dk ck) as HI. revert HO HI H. generalize (initial (N:=N) dk ck).
    induction ops as [|o r IH]; intros w0 HO HI H; cbn in H; [injection H as <-; assumption|].
    apply bind_ok in H as (w1 & H1 & H2). eapply IH; [| |eassumption]; [eapply step_ordered|eapply step_indexed]; eassumption.
  Qed.

  (** ** Detach: C49 *)
  Lemma isl_detach : forall w c i, c_kind (w_chan w c) = IslChannel ->
    exists b w', ChannelDetach w c i = Ok (b, w') /\ w_now w' = w_now w /\ w_chan w' = w_chan w /\ w_events w' = w_events w /\
    (b = true <-> exists d, nth_error (c_link (w_chan w c)) i = Some d /\ d_up (w_dev w d) = true) /\
    (if b then exists d, nth_error (c_link (w_chan w c)) i = Some d /\ d_up (w_dev w' d) = false /\
                 w_log w' = w_log w ++ [(w_now w, LinkChange d false)] /\
                 (forall d', d' <> d -> w_dev w' d' = w_dev w d') /\
                 (let x := w_dev w d in w_dev w' d = mkDev (d_cfg x) (d_queue x) (d_q x) (d_busy x) (d_cur x) (d_chan x) (d_id x) false)
     else w' = w).
  Proof.
    intros w c i K. unfold ChannelDetach. rewrite K. unfold BaseDetach.
    destruct (nth_error (c_link (w_chan w c)) i) as [d|] eqn:E.
    - destruct (d_up (w_dev w d)) eqn:U.
      + exists true. eexists. split; [reflexivity|]. do 3 (split; [reflexivity|]). split; [split; [intros _; eauto|auto]|].
        exists d. split; [reflexivity|]. cbn. rewrite upd_same. split; [reflexivity|]. split; [reflexivity|].
        split; [|reflexivity]. intros d' NE. apply upd_other. assumption.
      + exists false, w. do 4 (split; [reflexivity|]). split; [|reflexivity]. split; [discriminate|]. intros (x & Hx & Ux).
        injection Hx as <-. congruence.
    - exists false, w. do 4 (split; [reflexivity|]). split; [|reflexivity]. split; [discriminate|]. intros (x & Hx & Ux). discriminate.
  Qed.

  Lemma isl_still_receives : forall w c i d w' p j src tx, c_kind (w_chan w c) = IslChannel ->
    ChannelDetach w c i = Ok (true, w') -> nth_error (c_link (w_chan w c)) i = Some d ->
    nth_error (c_link (w_chan w c)) j = Some src -> distinct_addresses w c ->
    hears has_mob w c src d = true -> 0 <= delay_to has_mob w c src d tx ->
    exists w'', IslTransmitStart has_mob w' c p j (addr_of w d) tx = Ok (true, w'') /\
      In (w_now w, TxRx c p src d tx (delay_to has_mob w c src d tx)) (w_log w'').
  Proof.
    intros w c i d w' p j src tx K HD ND NS HA HH HY.
    destruct (isl_detach w c i K) as (b & w1 & E & EN & EC & EE & _ & HB). rewrite HD in E. injection E as <- <-.
    destruct HB as (d' & ND' & _ & EL & ED & ED'). rewrite ND in ND'. injection ND' as <-.
    assert (HCfg : forall x, d_cfg (w_dev w' x) = d_cfg (w_dev w x)).
    { intros x. destruct (Nat.eq_dec x d) as [->|NE]; [rewrite ED'; reflexivity|rewrite ED by assumption; reflexivity]. }
    unfold IslTransmitStart. rewrite EC, NS.
    assert (G : GetDevice w' c (addr_of w d) = Some d).
    { unfold GetDevice. rewrite EC. unfold distinct_addresses in HA.
      assert (HL : In d (c_link (w_chan w c))) by (eapply nth_error_In; eassumption).
      destruct (find _ _) as [x|] eqn:F.
      - apply find_some in F as [Fx Fa]. apply Z.eqb_eq in Fa. unfold addr_of in *. rewrite HCfg in Fa. f_equal. apply HA; assumption.
      - eapply find_none in F; [|exact HL]. unfold addr_of in F. rewrite HCfg, Z.eqb_refl in F. discriminate. }
    rewrite G. unfold Deliver, node_of. rewrite !HCfg, EC, EN.
    unfold hears, delay_to, node_of, link_delay, cut_off in *.
    destruct (g_node (d_cfg (w_dev w src))) as [m|]; [|discriminate].
    destruct (g_node (d_cfg (w_dev w d))) as [n|]; [|discriminate].
    assert (HSch : forall pw dl, 0 <= dl -> exists w'', (let* w2 := schedule w' dl (RxEvent d p src pw) in Ok (true, log1 w2 (TxRx c p src d tx dl)))%res = Ok (true, w'') /\
       In (w_now w, TxRx c p src d tx dl) (w_log w'')).
    { intros pw dl Hdl. unfold schedule. destruct (Z.ltb_spec dl 0); [lia|]. cbn. eexists. split; [reflexivity|]. cbn.
      apply in_or_app. right. left. rewrite EN. reflexivity. }
    unfold GetPropagationDelay. destruct (has_mob m && has_mob n); [|apply HSch; assumption].
    destruct (c_loss (w_chan w c)); [|apply HSch; assumption]. cbn [andb] in HH. destruct (nlt N _ _); [discriminate|].
    apply HSch. assumption.
  Qed.

  Definition absent (c d : nat) w : Prop := c_kind (w_chan w c) = LeoChannel /\
    (forall a, ~ In (a, d) (c_gnd (w_chan w c))) /\ (forall a, ~ In (a, d) (c_sat (w_chan w c))).

  Lemma leo_detach_absent : forall w c i d b w', sides (eq d) w -> c_kind (w_chan w c) = LeoChannel ->
    nth_error (c_link (w_chan w c)) i = Some d -> ChannelDetach w c i = Ok (b, w') -> absent c d w'.
  Proof.
    intros w c i d b w' HS K ND H. destruct (HS c K) as [HG HT].
    assert (H' : step w (ODetach c i) = Ok w') by (cbn; rewrite H; reflexivity).
    apply other_step in H' as (_ & HK & _ & _ & _ & HE); [|reflexivity]. split; [rewrite HK; assumption|].
    destruct (HE K) as (d' & ND' & -> & ->). rewrite ND in ND'. injection ND' as <-.
    split; intros a X; apply index_erase_in in X as [X NE]; apply NE; cbn; symmetry.
    - destruct (HG _ _ X) as [_ W]. apply W. reflexivity.
    - destruct (HT _ _ X) as [_ W]. apply W. reflexivity.
  Qed.

  Lemma step_absent : forall w o w' c d, indexed_ok w -> o <> OAttach d c -> step w o = Ok w' -> absent c d w ->
    absent c d w' /\ exists new, w_log w' = w_log w ++ new /\ forall t p src tx delay, ~ In (t, TxRx c p src d tx delay) new.
  Proof.
    intros w o w' c d HI HO H (K & HG & HS). destruct (moves o) eqn:M.
    - apply (step_moves w o w' HI M) in H as [[HC _] (new & HL & HH)]. split; [unfold absent; rewrite HC; auto|].
      exists new. split; [assumption|]. intros t p src tx delay X. apply HH in X as [_ X]. unfold reachable_on in X. rewrite K in X.
      destruct X as [(_ & _ & X)|(_ & _ & X)]; apply in_map_iff in X as ([a y] & E & X); cbn in E; subst y; [eapply HS|eapply HG]; eassumption.
    - apply other_step in H as ((new & HL & HN) & HK & H); [|assumption]. split; [|exists new; split; [assumption|intros; apply HN]].
      unfold absent. rewrite HK. split; [assumption|]. destruct o; try discriminate M.
      + subst w'. auto.
      + apply Attach_spec in H as (g & s & HP & Hg & Hs & HG' & HSat & _ & _ & _ & _ & _ & HC & HC').
        destruct (Nat.eq_dec c c0) as [->|NE]; [|rewrite HC by assumption; auto].
        rewrite HC'. cbn. rewrite K in *. assert (ND : d0 <> d) by (intros ->; apply HO; reflexivity).
        destruct (g_kind (d_cfg (w_dev w d0))).
        * exfalso. apply HP; reflexivity.
        * rewrite HG', Hs by (auto; right; discriminate). split; [|assumption]. intros a X.
          apply index_set_in in X as [X|X]; [injection X as _ ->; contradiction|eapply HG; eassumption].
        * rewrite Hg, HSat by (auto; right; discriminate). split; [assumption|]. intros a X.
          apply index_set_in in X as [X|X]; [injection X as _ ->; contradiction|eapply HS; eassumption].
      + destruct H as (_ & _ & HC & HE). destruct (Nat.eq_dec c c0) as [->|NE]; [|rewrite HC by auto; auto].
        destruct (HE K) as (x & _ & -> & ->). split; intros a X; apply index_erase_in in X as [X _]; [eapply HG|eapply HS]; eassumption.
      + destruct H as [_ HC]. destruct (HC c) as (_ & -> & ->). auto.
      + destruct H as [_ HC]. destruct (HC c) as (_ & -> & ->). auto.
  Qed.

  Lemma run_absent : forall ops w w' c d, indexed_ok w -> ~ In (OAttach d c) ops -> run w ops = Ok w' -> absent c d w ->
    exists new, w_log w' = w_log w ++ new /\ forall t p src tx delay, ~ In (t, TxRx c p src d tx delay) new.
  Proof.
    induction ops as [|o r IH]; intros w w' c d HI HO H HA; cbn in H.
    - injection H as <-. exists []. rewrite app_nil_r. split; [reflexivity|]. intros ? ? ? ? ? [].
    - apply bind_ok in H as (w1 & H1 & H2). pose proof (step_indexed _ _ _ HI H1) as HI1.
      apply (step_absent w o w1 c d) in H1 as (A1 & n1 & L1 & N1); try assumption; [|intros ->; apply HO; left; reflexivity].
      apply (IH w1 w' c d) in H2 as (n2 & L2 & N2); try assumption; [|intros X; apply HO; right; assumption].
      exists (n1 ++ n2). split; [rewrite L2, L1, app_assoc; reflexivity|]. intros t p src tx delay X.
      apply in_app_or in X as [X|X]; [eapply N1|eapply N2]; eassumption.
  Qed.

  Lemma leo_detached_silent : forall dk ck ops w c i d b w1 ops2 w2, steady (eq d) (initial dk ck) ops ->
    run (initial dk ck) ops = Ok w -> c_kind (w_chan w c) = LeoChannel ->
    nth_error (c_link (w_chan w c)) i = Some d -> ChannelDetach w c i = Ok (b, w1) ->
    ~ In (OAttach d c) ops2 -> run w1 ops2 = Ok w2 ->
    exists new, w_log w2 = w_log w1 ++ new /\ forall t p src tx delay, ~ In (t, TxRx c p src d tx delay) new.
  Proof.
    intros dk ck ops w c i d b w1 ops2 w2 HK H K ND HD HO H2.
    assert (R1 : reachable w1).
    { apply (reachable_step crc fcs tx_time has_mob w (ODetach c i)); [exists dk, ck, ops; assumption|]. cbn. rewrite HD. reflexivity. }
    apply (run_absent ops2 w1 w2 c d); try assumption.
    - apply (reachable_indexed _ _ _ _ w1 R1).
    - eapply leo_detach_absent; try eassumption. eapply steady_sides; eassumption.
  Qed.

  Lemma leo_detach : forall w c i, c_kind (w_chan w c) = LeoChannel ->
    match nth_error (c_link (w_chan w c)) i with
    | None => ChannelDetach w c i = UB OutOfRange
    | Some d => exists w', ChannelDetach w c i = Ok (d_up (w_dev w d), w') /\ d_up (w_dev w' d) = false /\
        forall d', d' <> d -> w_dev w' d' = w_dev w d'
    end.
  Proof.
    intros w c i K. unfold ChannelDetach. rewrite K. destruct (nth_error (c_link (w_chan w c)) i) as [d|] eqn:E; [|reflexivity].
    unfold BaseDetach. cbn. rewrite upd_same. cbn. rewrite E. destruct (d_up (w_dev w d)) eqn:U.
    - eexists. split; [reflexivity|]. cbn. rewrite upd_same. split; [reflexivity|]. intros d' NE. apply upd_other. assumption.
    - eexists. split; [reflexivity|]. cbn. split; [assumption|reflexivity].
  Qed.

  (** ** Address changes: C50 *)
  Definition unindexed (a : Z) (c : nat) w : Prop :=
    (forall x, ~ In (a, x) (c_gnd (w_chan w c))) /\ (forall x, ~ In (a, x) (c_sat (w_chan w c))).

  Lemma unindexed_fails : forall w c p i d dest tx, nth_error (c_link (w_chan w c)) i = Some d ->
    unindexed (addr_of w d) c w -> LeoTransmitStart has_mob w c p i dest tx = Ok (false, w).
  Proof.
    intros w c p i d dest tx ND [H1 H2]. unfold LeoTransmitStart. rewrite ND.
    destruct (indexed _ (c_gnd _)) eqn:G; [apply indexed_in in G as (x & G); apply H1 in G; destruct G|].
    destruct (indexed _ (c_sat _)) eqn:S; [apply indexed_in in S as (x & S); apply H2 in S; destruct S|]. reflexivity.
  Qed.

  Lemma step_unindexed : forall w o w' a c d, indexed_ok w -> step w o = Ok w' -> addr_of w d = a -> unindexed a c w ->
    (forall b, o <> OSet d (CAddress b)) -> (forall x, o = OAttach x c -> addr_of w x <> a) ->
    addr_of w' d = a /\ unindexed a c w'.
  Proof.
    intros w o w' a c d HI H HA [HG HS] HO HX. unfold unindexed, addr_of in *. destruct (moves o) eqn:M.
    - apply (step_moves w o w' HI M) in H as [[HC HD] _]. rewrite HC, HD. auto.
    - apply other_step in H as (_ & _ & H); [|assumption]. destruct o; try discriminate M.
      + subst w'. split; [|auto]. cbn. unfold upd. destruct (Nat.eqb_spec d d0) as [->|]; [|assumption].
        destruct s; cbn; try assumption. exfalso. eapply HO. reflexivity.
      + apply Attach_spec in H as (g & s & HP & Hg & Hs & HG' & HSat & _ & _ & _ & HD & HD' & HC & HC'). split.
        { destruct (Nat.eq_dec d d0) as [->|NE]; [rewrite HD'; exact HA|rewrite HD by assumption; exact HA]. }
        destruct (Nat.eq_dec c c0) as [->|NE]; [|rewrite HC by assumption; auto].
        specialize (HX d0 eq_refl). rewrite HC'. cbn. destruct (c_kind (w_chan w c0)).
        * rewrite Hg, Hs by auto. auto.
        * destruct (g_kind (d_cfg (w_dev w d0))).
          -- exfalso. apply HP; reflexivity.
          -- rewrite HG', Hs by (auto; right; discriminate). split; [|assumption]. intros x X.
             apply index_set_in in X as [X|X]; [injection X as X _; apply HX; symmetry; exact X|eapply HG; eassumption].
          -- rewrite Hg, HSat by (auto; right; discriminate). split; [assumption|]. intros x X.
             apply index_set_in in X as [X|X]; [injection X as X _; apply HX; symmetry; exact X|eapply HS; eassumption].
      + destruct H as (HD & _ & HC & HE). rewrite HD. split; [assumption|].
        destruct (Nat.eq_dec c c0) as [->|NE]; [|rewrite HC by auto; auto].
        destruct (c_kind (w_chan w c0)); [rewrite HC by auto; auto|].
        destruct (HE eq_refl) as (x & _ & -> & ->). split; intros y X; apply index_erase_in in X as [X _]; [eapply HG|eapply HS]; eassumption.
      + destruct H as [HD HC]. rewrite HD. destruct (HC c) as (_ & -> & ->). auto.
      + destruct H as [HD HC]. rewrite HD. destruct (HC c) as (_ & -> & ->). auto.
  Qed.

  Lemma run_unindexed : forall ops w w' a c d, indexed_ok w -> run w ops = Ok w' -> addr_of w d = a -> unindexed a c w ->
    (forall b, ~ In (OSet d (CAddress b)) ops) ->
    (forall ops1 x ops2 w1, ops = ops1 ++ OAttach x c :: ops2 -> run w ops1 = Ok w1 -> addr_of w1 x <> a) ->
    addr_of w' d = a /\ unindexed a c w'.
  Proof.
    induction ops as [|o r IH]; intros w w' a c d HI H HA HU HO HX; cbn in H; [injection H as <-; auto|].
    apply bind_ok in H as (w1 & H1 & H2). pose proof (step_indexed _ _ _ HI H1) as HI1. pose proof H1 as H1'.
    eapply (step_unindexed w o w1 a c d) in H1 as [A1 U1]; try assumption.
    - eapply (IH w1 w' a c d); try eassumption.
      + intros b X. apply (HO b). right. assumption.
      + intros ops1 x ops2 w2 E R2. eapply (HX (o :: ops1)); [rewrite E; reflexivity|]. cbn. rewrite H1'. exact R2.
    - intros b ->. apply (HO b). left. reflexivity.
    - intros x ->. eapply (HX [] x r w); reflexivity.
  Qed.

  Lemma address_changed : forall w c i d a, reachable w -> nth_error (c_link (w_chan w c)) i = Some d ->
    unindexed a c w -> forall ops w', run (Configure w d (CAddress a)) ops = Ok w' ->
    (forall b, ~ In (OSet d (CAddress b)) ops) ->
    (forall ops1 x ops2 w1, ops = ops1 ++ OAttach x c :: ops2 ->
       run (Configure w d (CAddress a)) ops1 = Ok w1 -> addr_of w1 x <> a) ->
    forall p dest tx, LeoTransmitStart has_mob w' c p i dest tx = Ok (false, w').
  Proof.
    intros w c i d a R ND HU ops w' H HO HX p dest tx.
    assert (R1 : reachable (Configure w d (CAddress a))).
    { apply (reachable_step crc fcs tx_time has_mob w (OSet d (CAddress a))); [assumption|reflexivity]. }
    destruct (run_unindexed ops _ w' a c d (reachable_indexed _ _ _ _ _ R1) H) as [HA HU']; try assumption.
    { unfold addr_of. cbn. rewrite upd_same. reflexivity. }
    destruct (run_links crc fcs tx_time has_mob _ _ _ c R1 H) as (ext & HL).
    apply (unindexed_fails w' c p i d); [|rewrite HA; assumption]. rewrite HL, nth_error_app1; [exact ND|].
    apply nth_error_Some. cbn. congruence.
  Qed.

  Lemma detach_leaves : forall w c i d a, c_kind (w_chan w c) = LeoChannel ->
    nth_error (c_link (w_chan w c)) i = Some d -> unindexed a c w ->
    exists w', ChannelDetach (Configure w d (CAddress a)) c i = Ok (d_up (w_dev w d), w') /\
      (forall x, d_cfg (w_dev w' x) = d_cfg (w_dev (Configure w d (CAddress a)) x)) /\
      c_gnd (w_chan w' c) = c_gnd (w_chan w c) /\ c_sat (w_chan w' c) = c_sat (w_chan w c) /\
      c_link (w_chan w' c) = c_link (w_chan w c) /\ d_up (w_dev w' d) = false.
  Proof.
    intros w c i d a K ND [HG HS].
    assert (E : forall m, (forall x, ~ In (a, x) m) -> index_erase a m = m).
    { intros m Hm. unfold index_erase. induction m as [|[k x] r IH]; [reflexivity|]. cbn. destruct (Z.eqb_spec k a) as [->|].
      - exfalso. eapply Hm. left. reflexivity.
      - cbn. rewrite IH; [reflexivity|]. intros y Y. eapply Hm. right. eassumption. }
    unfold ChannelDetach. cbn. rewrite K, ND. unfold addr_of. cbn. rewrite upd_same. cbn. rewrite !E by assumption.
    unfold BaseDetach. cbn. rewrite !upd_same. cbn. rewrite ND, !upd_same. cbn. destruct (d_up (w_dev w d)) eqn:U.
    - eexists. split; [reflexivity|]. cbn. rewrite !upd_same. cbn. repeat split. intros x. unfold upd.
      destruct (Nat.eqb_spec x d) as [->|]; reflexivity.
    - eexists. split; [reflexivity|]. cbn. rewrite !upd_same. cbn. repeat split; [|assumption]. intros x. unfold upd.
      destruct (Nat.eqb_spec x d) as [->|]; reflexivity.
  Qed.

  (** A sufficient condition for [steady]: addresses and types are set before devices
      are attached. *)
  Fixpoint set_before (seen : list nat) (ops : list (op N)) : bool :=
    match ops with
    | [] => true
    | OAttach d _ :: r => set_before (d :: seen) r
    | OSet d (CAddress _) :: r | OSet d (CType _) :: r => negb (existsb (Nat.eqb d) seen) && set_before seen r
    | _ :: r => set_before seen r
    end.
  Lemma set_before_steady : forall who ops seen w, indexed_ok w ->
    (forall c d, In d (c_link (w_chan w c)) -> In d seen) -> set_before seen ops = true -> steady who w ops.
  Proof.
    intros who. induction ops as [|o r IH]; intros seen w HI HS H; [exact I|].
    assert (HK : keeps who w o).
    { destruct o; try exact I. cbn in H. destruct s; try exact I; apply andb_true_iff in H as [H _]; intros _ c _ Hc;
        apply HS in Hc; apply negb_true_iff in H; assert (X : existsb (Nat.eqb d) seen = true)
          by (apply existsb_exists; exists d; split; [assumption|apply Nat.eqb_refl]); congruence. }
    cbn [NetSpec.steady]. split; [exact HK|]. destruct (step w o) as [w1| |] eqn:E; [|exact I..].
    pose proof (step_indexed _ _ _ HI E) as HI1.
    destruct (moves o) eqn:M.
    - destruct (step_moves _ _ _ HI M E) as [[HC _] _].
      assert (H' : set_before seen r = true) by (destruct o; try discriminate; exact H).
      eapply IH; [exact HI1| |exact H']. intros c d. rewrite HC. apply HS.
    - destruct (other_step _ _ _ M E) as (_ & _ & X). destruct o; try discriminate; cbn in H.
      + assert (H' : set_before seen r = true) by (destruct s; try exact H; apply andb_true_iff in H; apply H).
        eapply IH; [exact HI1| |exact H']. intros c d'. subst w1. cbn. apply HS.
      + eapply IH; [exact HI1| |exact H]. intros c' d'.
        apply Attach_spec in X as (g & s & _ & _ & _ & _ & _ & _ & _ & _ & _ & _ & HC & HC').
        destruct (Nat.eq_dec c' c) as [->|Nc]; [rewrite HC'|rewrite HC by assumption]; cbn.
        * intros Hd. apply in_app_iff in Hd as [Hd|[<-|[]]]; [right; eauto|left; reflexivity].
        * intros Hd. right. eauto.
      + eapply IH; [exact HI1| |exact H]. intros c' d'. destruct X as (_ & X & _). rewrite X. apply HS.
      + eapply IH; [exact HI1| |exact H]. intros c' d'. destruct X as (_ & X). destruct (X c') as [-> _]. apply HS.
      + eapply IH; [exact HI1| |exact H]. intros c' d'. destruct X as (_ & X). destruct (X c') as [-> _]. apply HS.
  Qed.
End Side.
