(** What follows a transmission in a trace, its duration, and the order of receptions. *)
Require Import ZArith List Bool Lia Sorted.
Require Import Verif.Base Verif.Num Verif.FrameModel Verif.NetModel Verif.NetSpec Verif.NetSteps Verif.NetInv
  Verif.NetTxProofs Verif.NetChanProofs Verif.NetSendProofs Verif.NetSideProofs.
Import ListNotations.
Local Open Scope Z_scope.

(** Every transmission is followed by its first reception or by its drop, unless
    it is a broadcast between satellites. [dur]: durations of the transmissions *)
Section Marked.
  Variable isl : nat -> Prop.
  Variable dur : nat -> nat -> Z -> pkt -> Z -> Z -> Prop.
  Inductive marked : trace -> Prop :=
  | k_nil : marked []
  | k_other : forall t o l, match o with ToChannel _ _ _ _ _ _ | PhyTxDrop _ _ => False | _ => True end ->
      marked l -> marked ((t, o) :: l)
  | k_fail : forall t d c p dest tx gap l, dur d c t p tx gap -> marked l ->
      marked ((t, ToChannel d c p dest tx gap) :: (t, PhyTxDrop d p) :: l)
  | k_sent : forall t d c p dest tx gap dst delay l, dur d c t p tx gap -> marked l ->
      marked ((t, ToChannel d c p dest tx gap) :: (t, TxRx c p d dst tx delay) :: l)
  | k_lost : forall t d c p dest tx gap l, dur d c t p tx gap -> isl c -> dest = 2 ^ 48 - 1 -> marked l ->
      marked ((t, ToChannel d c p dest tx gap) :: l).

  Lemma marked_app : forall l m, marked l -> marked m -> marked (l ++ m).
  Proof. induction 1; intros; cbn; [assumption|apply k_other; auto|apply k_fail; auto|apply k_sent; auto|apply k_lost; auto]. Qed.
  Lemma marked_others : forall t l, Forall (fun o => match o with ToChannel _ _ _ _ _ _ | PhyTxDrop _ _ => False | _ => True end) l ->
    marked (map (pair t) l).
  Proof. induction 1; cbn; constructor; assumption. Qed.

  Lemma marked_drop : forall l, marked l -> forall l1 t d p l2, l = l1 ++ (t, PhyTxDrop d p) :: l2 ->
    exists l0 c dest tx gap, l1 = l0 ++ [(t, ToChannel d c p dest tx gap)].
  Proof.
    induction 1 as [|t0 o l HO HM IH|t0 d0 c p0 dest tx gap l HD HM IH|t0 d0 c p0 dest tx gap dst delay l HD HM IH|t0 d0 c p0 dest tx gap l HD HI HB HM IH];
      intros l1 t d p l2 E.
    - destruct l1; discriminate.
    - destruct l1 as [|y l1]; [injection E as _ -> _; destruct HO|]. injection E as <- E.
      destruct (IH _ _ _ _ _ E) as (l0 & c & dest & tx & gap & ->). exists ((t0, o) :: l0). repeat eexists.
    - destruct l1 as [|y l1]; [discriminate|]. injection E as <- E. destruct l1 as [|y l1].
      + injection E as <- <- <- _. exists [], c, dest, tx, gap. reflexivity.
      + injection E as <- E. destruct (IH _ _ _ _ _ E) as (l0 & c' & dest' & tx' & gap' & ->).
        exists ((t0, ToChannel d0 c p0 dest tx gap) :: (t0, PhyTxDrop d0 p0) :: l0). repeat eexists.
    - destruct l1 as [|y l1]; [discriminate|]. injection E as <- E. destruct l1 as [|y l1]; [discriminate|].
      injection E as <- E. destruct (IH _ _ _ _ _ E) as (l0 & c' & dest' & tx' & gap' & ->).
      exists ((t0, ToChannel d0 c p0 dest tx gap) :: (t0, TxRx c p0 d0 dst tx delay) :: l0). repeat eexists.
    - destruct l1 as [|y l1]; [discriminate|]. injection E as <- E.
      destruct (IH _ _ _ _ _ E) as (l0 & c' & dest' & tx' & gap' & ->).
      exists ((t0, ToChannel d0 c p0 dest tx gap) :: l0). repeat eexists.
  Qed.

  Lemma marked_next : forall l, marked l -> forall l1 t d c p dest tx gap l2, l = l1 ++ (t, ToChannel d c p dest tx gap) :: l2 ->
    dur d c t p tx gap /\
    ((exists l3, l2 = (t, PhyTxDrop d p) :: l3) \/ (exists dst delay l3, l2 = (t, TxRx c p d dst tx delay) :: l3) \/
     (isl c /\ dest = 2 ^ 48 - 1)).
  Proof.
    induction 1 as [|t0 o l HO HM IH|t0 d0 c0 p0 dest0 tx0 gap0 l HD HM IH|t0 d0 c0 p0 dest0 tx0 gap0 dst delay l HD HM IH|t0 d0 c0 p0 dest0 tx0 gap0 l HD HI HB HM IH];
      intros l1 t d c p dest tx gap l2 E.
    - destruct l1; discriminate.
    - destruct l1 as [|y l1]; [injection E as _ -> _; destruct HO|]. injection E as <- E. exact (IH _ _ _ _ _ _ _ _ _ E).
    - destruct l1 as [|y l1]; [injection E as <- <- <- <- <- <- <- <-; split; [exact HD|eauto]|].
      injection E as <- E. destruct l1 as [|y l1]; [discriminate|]. injection E as <- E. exact (IH _ _ _ _ _ _ _ _ _ E).
    - destruct l1 as [|y l1]; [injection E as <- <- <- <- <- <- <- <-; split; [exact HD|eauto 6]|].
      injection E as <- E. destruct l1 as [|y l1]; [discriminate|]. injection E as <- E. exact (IH _ _ _ _ _ _ _ _ _ E).
    - destruct l1 as [|y l1]; [injection E as <- <- <- <- <- <- <- <-; split; [exact HD|auto]|].
      injection E as <- E. exact (IH _ _ _ _ _ _ _ _ _ E).
  Qed.
End Marked.
Lemma marked_weak : forall isl (D1 D2 : nat -> nat -> Z -> pkt -> Z -> Z -> Prop) l,
  (forall d c t p tx gap, D1 d c t p tx gap -> D2 d c t p tx gap) -> marked isl D1 l -> marked isl D2 l.
Proof. intros isl D1 D2 l H M. induction M; [apply k_nil|apply k_other; auto|apply k_fail; auto|apply k_sent; auto|apply k_lost; auto]. Qed.

Lemma filter_none : forall A (f : A -> bool) l, (forall x, In x l -> f x = false) -> filter f l = [].
Proof.
  induction l as [|x r IH]; intros H; [reflexivity|]. cbn. rewrite (H x (or_introl eq_refl)). apply IH. intros y Hy. apply H. right. exact Hy.
Qed.

Section Order.
  Context {N : Num}.
  Variable crc : list Z -> Z.
  Variable fcs : bool.
  Variable tx_time : Z -> Z -> Z.
  Variable has_mob : nat -> bool.
  Implicit Type w : world N.
  Notation step := (@step N crc fcs tx_time has_mob).
  Notation run := (@run N crc fcs tx_time has_mob).
  Notation reachable := (@reachable N crc fcs tx_time has_mob).

  Definition isl_of w (c : nat) : Prop := c_kind (w_chan w c) = IslChannel.
  (** Durations as configured in w *)
  Definition configured w (d c : nat) (t : Z) (p : pkt) (tx gap : Z) : Prop :=
    tx = tx_time (g_bps (d_cfg (w_dev w d))) (len (p_bytes p)) /\ gap = g_gap (d_cfg (w_dev w d)) /\
    d_chan (w_dev w d) = Some c.

  Lemma rx_marked : forall isl D t c p src tx (f : nat -> Z) dsts,
    marked isl D (map (fun dst => (t, TxRx c p src dst tx (f dst))) dsts).
  Proof. induction dsts; cbn; constructor; auto. Qed.

  Lemma channel_marked : forall w c p i dest tx b w' d gap (D : nat -> nat -> Z -> pkt -> Z -> Z -> Prop),
    nth_error (c_link (w_chan w c)) i = Some d -> D d c (w_now w) p tx gap ->
    ChannelTransmitStart has_mob w c p i dest tx = Ok (b, w') ->
    w_now w' = w_now w /\ exists l, w_log w' = w_log w ++ l /\
    marked (isl_of w) D ((w_now w, ToChannel d c p dest tx gap) :: l ++ if b then [] else [(w_now w, PhyTxDrop d p)]).
  Proof.
    intros w c p i dest tx b w' d gap D HN HD H. unfold ChannelTransmitStart in H. destruct (c_kind (w_chan w c)) eqn:K.
    - apply isl_transmit in H. cbv zeta in H. rewrite HN in H.
      destruct H as [(k & dst & _ & _ & _ & -> & R)|[(_ & HB & -> & R)|(_ & _ & -> & ->)]].
      + destruct R as (E1 & _ & _ & E4 & _). split; [exact E1|]. eexists. split; [exact E4|].
        destruct (hears has_mob w c d dst); cbn; [apply k_sent|apply k_fail]; auto using k_nil.
      + destruct R as (E1 & _ & _ & E4 & _). split; [exact E1|]. eexists. split; [exact E4|]. rewrite app_nil_r.
        apply k_lost; [assumption|exact K|exact HB|apply rx_marked].
      + split; [reflexivity|]. exists []. rewrite app_nil_r. split; [reflexivity|]. apply k_fail; [assumption|apply k_nil].
    - apply leo_transmit in H. cbv zeta in H. rewrite HN in H. destruct H as (dsts & -> & R & _).
      destruct R as (E1 & _ & _ & E4 & _). split; [exact E1|]. eexists. split; [exact E4|].
      destruct dsts as [|x r]; cbn; [apply k_fail; auto using k_nil|]. rewrite app_nil_r.
      apply k_sent; [assumption|apply rx_marked].
  Qed.

  Lemma TransmitStart_marked : forall w d p dest b w', indexed_ok w ->
    TransmitStart tx_time has_mob w d p dest = Ok (b, w') ->
    exists l, w_log w' = w_log w ++ l /\ marked (isl_of w) (fun d' c t p tx gap => configured w d' c t p tx gap /\ t = w_now w) l /\
      w_now w' = w_now w.
  Proof.
    intros w d p dest b w' HI H. unfold TransmitStart in H. destruct (d_busy (w_dev w d)); [discriminate|].
    apply bind_ok in H as (w2 & H1 & H). apply schedule_ok in H1 as [H0 ->].
    destruct (d_chan (w_dev w d)) as [c|] eqn:C; [|discriminate].
    apply bind_ok in H as ([result w4] & H1 & H).
    eapply (channel_marked _ _ _ _ _ _ _ _ d (g_gap (d_cfg (w_dev w d))) (fun d' c t p tx gap => configured w d' c t p tx gap /\ t = w_now w)) in H1;
      [|cbn; apply HI; exact C|cbn; repeat split; exact C].
    destruct H1 as (E1 & l & E4 & M). cbn in E1, E4.
    exists ((w_now w, PhyTxBegin d p) :: (w_now w, ToChannel d c p dest (tx_time (g_bps (d_cfg (w_dev w d))) (len (p_bytes p))) (g_gap (d_cfg (w_dev w d)))) ::
            l ++ if result then [] else [(w_now w, PhyTxDrop d p)]).
    split; [|split].
    - destruct result; injection H as <- <-; cbn; rewrite E4, <- !app_assoc; cbn; rewrite ?app_nil_r; [|rewrite E1]; reflexivity.
    - apply k_other; [exact I|]. exact M.
    - destruct result; injection H as <- <-; cbn; assumption.
  Qed.

  Lemma step_marked : forall w o w', indexed_ok w -> step w o = Ok w' ->
    exists l, w_log w' = w_log w ++ l /\
      marked (isl_of w) (fun d c t p tx gap => configured w d c t p tx gap /\ t = w_now w') l.
  Proof.
    intros w o w' HI H.
    assert (NOP : forall w', w_log w' = w_log w -> exists l, w_log w' = w_log w ++ l /\
      marked (isl_of w) (fun d c t p tx gap => configured w d c t p tx gap /\ t = w_now w') l)
      by (intros w0 E; exists []; rewrite app_nil_r; split; [exact E|apply k_nil]).
    assert (ONE : forall w' o, w_log w' = w_log w ++ [(w_now w, o)] ->
      match o with ToChannel _ _ _ _ _ _ | PhyTxDrop _ _ => False | _ => True end -> exists l, w_log w' = w_log w ++ l /\
      marked (isl_of w) (fun d c t p tx gap => configured w d c t p tx gap /\ t = w_now w') l)
      by (intros w0 x E HO; eexists; split; [exact E|apply k_other; [exact HO|apply k_nil]]).
    destruct o; cbn in H.
    - apply bind_ok in H as ([b w1] & H & H1). injection H1 as <-. unfold Send in H. destruct dest as [a|].
      + destruct (d_up (w_dev w d)); cbn [negb] in H.
        * destruct (d_queue (w_dev w d)) as [admit|] eqn:Q; [|discriminate]. destruct (admit _ _).
          -- destruct (d_busy (w_dev w d)).
             ++ injection H as <- <-. eexists. split; [cbn; rewrite <- app_assoc; reflexivity|]. cbn. repeat constructor.
             ++ destruct (d_q (w_dev w d) ++ _) as [|h r]; [discriminate|].
                apply bind_ok in H as ([b2 w2] & H & H1). injection H1 as <- <-.
                apply TransmitStart_marked in H.
                ** destruct H as (l & E & M & EN). cbn in E, EN. rewrite <- !app_assoc in E. eexists. split; [exact E|]. rewrite EN.
                   cbn. do 4 (apply k_other; [exact I|]). eapply marked_weak; [|exact M].
                   intros d' c t p' tx gap [[A [B C]] D]. cbn in A, B, C, D. unfold configured.
                   unfold upd in A, B, C. destruct (Nat.eqb_spec d' d) as [->|]; cbn in A, B, C; auto.
                ** intros x c. cbn. unfold upd. destruct (Nat.eqb_spec x d) as [->|]; cbn; apply HI.
          -- injection H as <- <-. eexists. split; [cbn; rewrite <- !app_assoc; reflexivity|]. cbn. repeat constructor.
        * injection H as <- <-. eexists. split; [cbn; rewrite <- !app_assoc; reflexivity|]. cbn. repeat constructor.
      + destruct (d_up (w_dev w d)); [discriminate|]. injection H as <- <-. eapply ONE; [reflexivity|exact I].
    - injection H as <-. apply NOP. reflexivity.
    - injection H as <-. eapply ONE; [reflexivity|exact I].
    - apply Attach_spec in H as (g & s & _ & _ & _ & _ & _ & HN & HE & HL & _). eapply ONE; [exact HL|exact I].
    - apply bind_ok in H as ([b w1] & H & H1). injection H1 as <-. unfold ChannelDetach in H.
      assert (HB : forall x, w_log x = w_log w -> w_now x = w_now w -> BaseDetach x c i = (b, w1) -> exists l, w_log w1 = w_log w ++ l /\
        marked (isl_of w) (fun d c t p tx gap => configured w d c t p tx gap /\ t = w_now w1) l).
      { intros x E EN Hx. unfold BaseDetach in Hx. destruct (nth_error (c_link (w_chan x c)) i) as [y|]; [|injection Hx as <- <-; apply NOP; exact E].
        destruct (d_up (w_dev x y)); injection Hx as <- <-; [|apply NOP; exact E].
        eapply ONE; [cbn; rewrite E, EN; reflexivity|exact I]. }
      destruct (c_kind (w_chan w c)); [injection H as H; apply (HB w); auto|].
      destruct (nth_error _ _); [|discriminate]. injection H as H. eapply HB; [| |exact H]; reflexivity.
    - injection H as <-. eapply ONE; [reflexivity|exact I].
    - injection H as <-. apply NOP. reflexivity.
    - injection H as <-. apply NOP. reflexivity.
    - destruct (_ && _); injection H as <-; apply NOP; reflexivity.
    - unfold run_next in H. destruct (w_events w) as [|[t e] r] eqn:E; [injection H as <-; apply NOP; reflexivity|].
      destruct e as [d dest|dst p src power].
      + unfold DoTransmitComplete in H. cbn [w_dev] in H. destruct (d_busy (w_dev w d)); [|discriminate]. cbn [negb] in H.
        destruct (d_cur (w_dev w d)) as [cur|]; [|discriminate]. destruct (d_queue (w_dev w d)) as [admit|]; [|discriminate].
        destruct (d_q (w_dev w d)) as [|h q].
        * injection H as <-. eexists. split; [cbn; reflexivity|]. repeat constructor.
        * apply bind_ok in H as ([b2 w2] & H & H1). injection H1 as <-. apply TransmitStart_marked in H.
          -- destruct H as (l & EL & M & EN). cbn in EL, EN. rewrite <- !app_assoc in EL. eexists. split; [exact EL|]. rewrite EN.
             cbn. do 3 (apply k_other; [exact I|]). eapply marked_weak; [|exact M].
             intros d' c t' p' tx gap [[A [B C]] D]. cbn in A, B, C, D. unfold configured.
             unfold upd in A, B, C. destruct (Nat.eqb_spec d' d) as [->|]; cbn in A, B, C; auto.
             rewrite Nat.eqb_refl in A, B, C. cbn in A, B, C. auto.
          -- intros x c. cbn. unfold upd. destruct (Nat.eqb_spec x d) as [->|]; cbn; try rewrite Nat.eqb_refl; cbn; apply HI.
      + apply Receive_table in H as (new & -> & DD). cbn [w_dev w_log w_now] in *. eexists. split; [reflexivity|].
        apply marked_others.
        destruct DD as [(_ & ->)|[(_ & _ & p' & _ & ->)|(_ & _ & payload & proto & ty & _ & ->)]];
          try destruct (g_pcb _); try destruct ty; repeat constructor.
  Qed.

  Lemma run_app_log : forall w o w' l, step w o = Ok w' -> w_log w' = w_log w ++ l ->
    forall D, marked (isl_of w) D (w_log w) -> marked (isl_of w) D l -> (forall c, c_kind (w_chan w' c) = c_kind (w_chan w c)) ->
    marked (isl_of w') D (w_log w').
  Proof.
    intros w o w' l _ E D M1 M2 K. rewrite E. assert (M := marked_app _ _ _ _ M1 M2). clear - M K.
    induction M; [apply k_nil|apply k_other; auto|apply k_fail; auto|apply k_sent; auto|apply k_lost; auto].
    unfold isl_of in *. rewrite K. assumption.
  Qed.

  Lemma step_kind : forall w o w', indexed_ok w -> step w o = Ok w' -> forall c, c_kind (w_chan w' c) = c_kind (w_chan w c).
  Proof.
    intros w o w' HI H c. destruct (moves o) eqn:M.
    - apply step_moves in H; [|exact HI|exact M]. destruct H as [[H _] _]. rewrite H. reflexivity.
    - apply other_step in H as (_ & K & _); [apply K|exact M].
  Qed.

  Lemma reachable_marked : forall w, reachable w -> marked (isl_of w) (fun _ _ _ _ _ _ => True) (w_log w).
  Proof.
    intros w (dk & ck & ops & H).
    assert (G : forall ops w0 w, indexed_ok w0 -> marked (isl_of w0) (fun _ _ _ _ _ _ => True) (w_log w0) -> run w0 ops = Ok w ->
      marked (isl_of w) (fun _ _ _ _ _ _ => True) (w_log w)).
    { clear. induction ops as [|o r IH]; intros w0 w HI M H; cbn in H; [injection H as <-; exact M|].
      apply bind_ok in H as (w1 & H1 & H). eapply IH; [| |exact H].
      - eapply step_indexed; eassumption.
      - destruct (step_marked _ _ _ HI H1) as (l & E & ML). eapply run_app_log; [exact H1|exact E|exact M| |].
        + eapply marked_weak; [|exact ML]. auto.
        + eapply step_kind; eassumption. }
    eapply G; [| |exact H]; [apply initial_indexed|apply k_nil].
  Qed.

  (** ** Members of a LEO channel *)
  Lemma kind_setting : forall (g : cfg N) s, g_kind (apply_setting g s) = Plain <-> g_kind g = Plain.
  Proof. intros g s. destruct s; cbn; try reflexivity. destruct (g_kind g), sat; split; congruence. Qed.
  Lemma reachable_members : forall w, reachable w -> forall c d, c_kind (w_chan w c) = LeoChannel -> In d (c_link (w_chan w c)) ->
    g_kind (d_cfg (w_dev w d)) <> Plain.
  Proof.
    apply (invariant crc fcs tx_time has_mob (fun w => forall c d, c_kind (w_chan w c) = LeoChannel ->
      In d (c_link (w_chan w c)) -> g_kind (d_cfg (w_dev w d)) <> Plain)); [intros dk ck c d _ []|].
    intros w w' M _ IH c d K HI.
    assert (SAME : forall w', w_chan w' = w_chan w -> (forall x, d_cfg (w_dev w' x) = d_cfg (w_dev w x)) ->
      c_kind (w_chan w' c) = LeoChannel -> In d (c_link (w_chan w' c)) -> g_kind (d_cfg (w_dev w' d)) <> Plain).
    { intros v E1 E2. rewrite E1, E2. apply IH. }
    assert (TX : forall (v : world N) e q b cur x, d_cfg (w_dev (set_tx v e q b cur) x) = d_cfg (w_dev v x))
      by (intros; cbn; unfold upd; destruct (Nat.eqb_spec x e) as [->|]; reflexivity).
    assert (BT : forall (v : world N) e q h dest k pre x, d_cfg (w_dev (begin_tx tx_time v e q h dest k pre) x) = d_cfg (w_dev v x))
      by (intros; cbn; unfold upd; destruct (Nat.eqb_spec x e) as [->|]; reflexivity).
    destruct M.
    1-3: revert K HI; apply SAME; reflexivity.
    - revert K HI. apply SAME; [reflexivity|intros; apply TX].
    - revert K HI. apply SAME; [reflexivity|]. intros. rewrite BT, TX. reflexivity.
    - revert K HI. apply SAME; [reflexivity|]. intros. exact (TX (pop w t r) _ _ _ _ _).
    - revert K HI. apply SAME; [reflexivity|]. intros. rewrite BT, !TX. reflexivity.
    - revert K HI; apply SAME; reflexivity.
    - revert K HI; apply SAME; reflexivity.
    - apply Receive_emit in H0 as (l & ->). revert K HI; apply SAME; reflexivity.
    - cbn in *. unfold upd. destruct (Nat.eqb_spec d d0) as [->|]; cbn; [rewrite kind_setting|]; eapply IH; eassumption.
    - revert K HI. apply SAME; [reflexivity|]. intros x. cbn. unfold upd. destruct (Nat.eqb_spec x d0) as [->|]; reflexivity.
    - apply Attach_spec in H as (g & s & HP & _ & _ & _ & _ & _ & _ & _ & HD & HD' & HC & HC').
      assert (E : forall x, d_cfg (w_dev w' x) = d_cfg (w_dev w x)).
      { intros x. destruct (Nat.eq_dec x d0) as [->|NE]; [rewrite HD'; reflexivity|rewrite HD by exact NE; reflexivity]. }
      rewrite E. destruct (Nat.eq_dec c c0) as [->|NE].
      + rewrite HC' in K, HI. cbn in K, HI. apply in_app_or in HI as [HI|[<-|[]]]; [eapply IH; eassumption|apply HP; exact K].
      + rewrite HC in K, HI by exact NE. eapply IH; eassumption.
    - revert K HI. apply SAME; [reflexivity|]. intros x. cbn. unfold upd. destruct (Nat.eqb_spec x d0) as [->|]; reflexivity.
    - cbn in *. unfold upd in *. destruct (Nat.eqb_spec c c0) as [->|]; cbn in *; eapply IH; eassumption.
    - revert K HI; apply SAME; reflexivity.
  Qed.

  (** ** Order of receptions *)
  Definition at_time (t : Z) (l : list (Z * pkt * nat * nat)) : list (Z * pkt * nat * nat) :=
    filter (fun x => fst (fst (fst x)) =? t) l.
  Definition in_order w : Prop :=
    timely w /\
    StronglySorted (fun x y => fst (fst (fst x)) <= fst (fst (fst y))) (performed (w_log w)) /\
    Forall (fun x => fst (fst (fst x)) <= w_now w) (performed (w_log w)) /\
    forall t, at_time t (scheduled (w_log w)) = at_time t (performed (w_log w)) ++ at_time t (waiting (w_events w)).

  Lemma at_app : forall t a b, at_time t (a ++ b) = at_time t a ++ at_time t b.
  Proof. intros. apply filter_app. Qed.
  Lemma waiting_insert_tx : forall t d dest (l : list (Z * ev N)), waiting (insert_event (t, TxComplete d dest) l) = waiting l.
  Proof.
    intros t d dest. induction l as [|z r IH]; [reflexivity|]. cbn [insert_event]. destruct (fst z <=? fst _); [|reflexivity].
    unfold waiting in *. cbn [flat_map]. rewrite IH. reflexivity.
  Qed.
  Lemma waiting_times : forall (l : list (Z * ev N)) x, In x (waiting l) -> exists e, In (fst (fst (fst x)), e) l.
  Proof.
    intros l x H. unfold waiting in H. apply in_flat_map in H as ([t e] & H1 & H2). cbn in H2. destruct e; [destruct H2|].
    destruct H2 as [<-|[]]. cbn. eauto.
  Qed.
  Lemma waiting_insert_rx : forall t dst p src power (l : list (Z * ev N)) u,
    StronglySorted (fun x y => fst x <= fst y) l ->
    at_time u (waiting (insert_event (t, RxEvent dst p src power) l)) = at_time u (waiting l) ++ at_time u [(t, p, src, dst)].
  Proof.
    intros t dst p src power l u S. induction S as [|z r S IH F]; [reflexivity|]. cbn [insert_event fst].
    destruct (Z.leb_spec (fst z) t) as [L|L].
    - unfold waiting in *. cbn [flat_map]. rewrite !at_app, IH, app_assoc. reflexivity.
    - change (waiting ((t, RxEvent dst p src power) :: z :: r)) with ([(t, p, src, dst)] ++ waiting (z :: r)). rewrite at_app.
      cbn [at_time filter]. destruct (Z.eqb_spec t u) as [->|NE]; cbn [fst]; [|destruct (Z.eqb_spec t u); [contradiction|cbn; rewrite app_nil_r; reflexivity]].
      destruct (Z.eqb_spec u u) as [_|]; [|contradiction].
      assert (E : at_time u (waiting (z :: r)) = []).
      { unfold at_time. apply filter_none. intros x Hx. apply waiting_times in Hx as [e [E|Hx]].
        - rewrite E in L. cbn in L. apply Z.eqb_neq. lia.
        - rewrite Forall_forall in F. apply F in Hx. cbn in Hx. apply Z.eqb_neq. lia. }
      rewrite E. reflexivity.
  Qed.

  Lemma order_same : forall w w' t l, in_order w -> timely w' -> w_now w <= w_now w' ->
    w_log w' = w_log w ++ map (pair t) l ->
    Forall (fun o => match o with TxRx _ _ _ _ _ _ | PhyRxEnd _ _ _ | MacRxDrop _ _ => False | _ => True end) l ->
    waiting (w_events w') = waiting (w_events w) -> in_order w'.
  Proof.
    intros w w' t l (T & S & B & E) T' HN HL HF HW. destruct (quiet t l HF) as [H1 H2]. unfold in_order.
    unfold scheduled, performed in *. rewrite HL, !flat_map_app, H1, H2, !app_nil_r, HW.
    split; [exact T'|]. split; [exact S|]. split; [|exact E]. eapply Forall_impl; [|exact B]. intros x Hx. cbn in Hx. lia.
  Qed.
  Lemma order_rx : forall w w' t x o l r, in_order w -> timely w' -> w_now w <= t -> w_now w' = t -> fst (fst (fst x)) = t ->
    w_log w' = w_log w ++ (t, o) :: map (pair t) l ->
    Forall (fun o => match o with TxRx _ _ _ _ _ _ | PhyRxEnd _ _ _ | MacRxDrop _ _ => False | _ => True end) l ->
    scheduled [(t, o)] = [] -> performed [(t, o)] = [x] -> w_events w' = r -> waiting (w_events w) = x :: waiting r -> in_order w'.
  Proof.
    intros w w' t x o l r (T & S & B & E) T' HN HN' HX HL HF HS HP HR HW. destruct (quiet t l HF) as [H1 H2].
    assert (PE : performed (w_log w') = performed (w_log w) ++ [x]).
    { change (w_log w' = w_log w ++ [(t, o)] ++ map (pair t) l) in HL. unfold performed in *.
      rewrite HL, !flat_map_app, H2, app_nil_r, HP. reflexivity. }
    assert (SE : scheduled (w_log w') = scheduled (w_log w)).
    { change (w_log w' = w_log w ++ [(t, o)] ++ map (pair t) l) in HL. unfold scheduled in *.
      rewrite HL, !flat_map_app, H1, app_nil_r, HS, app_nil_r. reflexivity. }
    unfold in_order. rewrite PE, SE, HR. split; [exact T'|]. split; [|split].
    - clear - S B HN HX. induction S as [|y s S IH F]; cbn; [repeat constructor|]. inversion B; subst. constructor; [auto|].
      apply Forall_app. split; [exact F|]. constructor; [lia|constructor].
    - apply Forall_app. split; [eapply Forall_impl; [|exact B]; intros y Hy; cbn in Hy; lia|]. constructor; [lia|constructor].
    - intros u. rewrite E, HW. change (x :: waiting r) with ([x] ++ waiting r). rewrite !at_app, app_assoc. reflexivity.
  Qed.

  Lemma micro_order : forall w w', micro crc fcs tx_time has_mob true every w w' -> in_order w -> in_order w'.
  Proof.
    intros w w' M O. assert (T' : timely w') by (eapply micro_timely; [exact M|apply O]).
    destruct M.
    1-4: eapply order_same; [exact O|exact T'|cbn; lia|reflexivity|repeat constructor|reflexivity].
    - eapply order_same; [exact O|exact T'|cbn; lia|reflexivity|repeat constructor|cbn; apply waiting_insert_tx].
    - assert (HN : w_now w <= t) by (destruct O as ((_ & F) & _); rewrite H in F; inversion F; assumption).
      eapply order_same; [exact O|exact T'|exact HN|reflexivity|repeat constructor|cbn; rewrite H; reflexivity].
    - assert (HN : w_now w <= t) by (destruct O as ((_ & F) & _); rewrite H in F; inversion F; assumption).
      eapply order_same; [exact O|exact T'|exact HN|reflexivity|repeat constructor|]. rewrite H. apply (waiting_insert_tx _ d dest r).
    - destruct O as (T & S & B & E). unfold in_order. cbn [w_log w_now w_events].
      assert (PE : performed (w_log w ++ [(w_now w, TxRx c p src dst txTime (link_delay has_mob w c a b txTime))]) = performed (w_log w))
        by (unfold performed; rewrite flat_map_app; cbn; apply app_nil_r).
      rewrite PE. split; [exact T'|]. split; [exact S|]. split; [exact B|]. intros u.
      assert (SE : scheduled (w_log w ++ [(w_now w, TxRx c p src dst txTime (link_delay has_mob w c a b txTime))]) =
                   scheduled (w_log w) ++ [(w_now w + link_delay has_mob w c a b txTime, p, src, dst)])
        by (unfold scheduled; rewrite flat_map_app; reflexivity).
      rewrite SE, at_app, E, waiting_insert_rx, app_assoc by apply T. reflexivity.
    - eapply order_same; [exact O|exact T'|cbn; lia|reflexivity|repeat constructor|reflexivity].
    - assert (HN : w_now w <= t) by (destruct O as ((_ & F) & _); rewrite H in F; inversion F; assumption).
      apply Receive_table in H0 as (new & -> & D).
      assert (HH : exists o l, new = o :: l /\
        Forall (fun o => match o with TxRx _ _ _ _ _ _ | PhyRxEnd _ _ _ | MacRxDrop _ _ => False | _ => True end) l /\
        (o = PhyRxEnd d p src \/ (o = MacRxDrop d p /\ src = d))).
      { destruct D as [(ES & ->)|[(_ & _ & p' & _ & ->)|(_ & _ & payload & proto & ty & _ & ->)]]; eexists _, _;
          (split; [reflexivity|]); (split; [|auto]);
          try destruct (g_pcb _); try destruct ty; repeat constructor. }
      destruct HH as (o & l & -> & HF & HO).
      eapply (order_rx w _ t (t, p, src, d) o l r); [exact O|exact T'|exact HN|reflexivity|reflexivity|reflexivity|exact HF| | |reflexivity|rewrite H; reflexivity].
      + destruct HO as [->|[-> _]]; reflexivity.
      + destruct HO as [->|[-> ->]]; reflexivity.
    - eapply (order_same w _ 0 []); [exact O|exact T'|cbn; lia|cbn; rewrite app_nil_r; reflexivity|constructor|reflexivity].
    - eapply order_same with (l := [QueueSet d]); [exact O|exact T'|cbn; lia|reflexivity|repeat constructor|reflexivity].
    - apply Attach_spec in H as (g & s & _ & _ & _ & _ & _ & HN & HE & HL & _).
      eapply order_same with (l := [LinkChange d true]); [exact O|exact T'|rewrite HN; lia|exact HL|repeat constructor|rewrite HE; reflexivity].
    - eapply order_same with (l := [LinkChange d false]); [exact O|exact T'|cbn; lia|reflexivity|repeat constructor|reflexivity].
    - eapply (order_same w _ 0 []); [exact O|exact T'|cbn; lia|cbn; rewrite app_nil_r; reflexivity|constructor|reflexivity].
    - eapply (order_same w _ 0 []); [exact O|exact T'|cbn; lia|cbn; rewrite app_nil_r; reflexivity|constructor|reflexivity].
  Qed.

  Lemma reachable_order : forall w, reachable w -> in_order w.
  Proof.
    apply invariant; [|intros w w' M _ O; eapply micro_order; eassumption].
    intros dk ck. split; [split; constructor|]. split; [constructor|]. split; [constructor|]. reflexivity.
  Qed.

  Lemma receptions_in_order : forall w, reachable w ->
    StronglySorted (fun x y => fst (fst (fst x)) <= fst (fst (fst y))) (performed (w_log w) ++ waiting (w_events w)) /\
    forall t, filter (fun x => fst (fst (fst x)) =? t) (performed (w_log w) ++ waiting (w_events w)) =
              filter (fun x => fst (fst (fst x)) =? t) (scheduled (w_log w)).
  Proof.
    intros w R. apply reachable_order in R as ((TS & TF) & S & B & E). split.
    - assert (SW : StronglySorted (fun x y => fst (fst (fst x)) <= fst (fst (fst y))) (waiting (w_events w)) /\
                   Forall (fun x => w_now w <= fst (fst (fst x))) (waiting (w_events w))).
      { clear E. revert TF. induction TS as [|[t e] r TS IH F]; intros TF; [split; constructor|]. inversion TF as [|? ? H1 H2]; subst.
        destruct (IH H2) as [I1 I2]. destruct e; [split; assumption|]. cbn. split; constructor; cbn; auto.
        rewrite Forall_forall. intros x Hx. apply waiting_times in Hx as [e Hx]. rewrite Forall_forall in F. apply F in Hx. exact Hx. }
      destruct SW as [S1 S2]. clear - S B S1 S2. induction S as [|y s S IH F]; [exact S1|]. inversion B; subst. cbn. constructor; [auto|].
      apply Forall_app. split; [exact F|]. eapply Forall_impl; [|exact S2]. intros z Hz. cbn in Hz. lia.
    - intros t. fold (at_time t (performed (w_log w) ++ waiting (w_events w))). rewrite at_app, <- E. reflexivity.
  Qed.
End Order.
