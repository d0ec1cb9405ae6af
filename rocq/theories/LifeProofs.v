Require Import ZArith List Bool Lia.
Require Import Verif.Base Verif.Num Verif.FrameModel Verif.NetModel Verif.NetSpec Verif.NetSteps Verif.NetRunSpec
  Verif.NetChanProofs Verif.NetDrainProofs Verif.TraceModel
  Verif.LifeModel Verif.LifeSpec.
Import ListNotations.
Local Open Scope Z_scope.

Lemma agree_bind : forall A B C D (R : A -> B -> Prop) (S : C -> D -> Prop) x y f g, agree R x y ->
  (forall a b, R a b -> agree S (f a) (g b)) -> agree S (bind x f) (bind y g).
Proof. intros A B C D R S [a|e|e] [b|e'|e'] f g H HF; cbn in *; try contradiction; auto. Qed.

Section Life.
  Context {N : Num}.
  Variable crc : list Z -> Z.
  Variable fcs : bool.
  Variable tx_time : Z -> Z -> Z.
  Variable has_mob : nat -> bool.
  Notation step := (@step N crc fcs tx_time has_mob).
  Notation run := (@run N crc fcs tx_time has_mob).
  Notation ystep := (@ystep N crc fcs tx_time has_mob).
  Notation yrun := (@yrun N crc fcs tx_time has_mob).

  (** ** A device that nothing calls *)
  Section Sim.
    Variable d : nat.
    (** [v] is [w] with another device d; of it only the address, the kind and the link
        state matter. *)
    Definition sim (w v : world N) : Prop :=
      same_but d w v /\ addr_of v d = addr_of w d /\ d_up (w_dev v d) = d_up (w_dev w d) /\ apart d w /\
      (forall e c, e <> d -> d_chan (w_dev w e) = Some c -> nth_error (c_link (w_chan w c)) (d_id (w_dev w e)) = Some e).
    Definition sim2 (x y : bool * world N) : Prop := fst x = fst y /\ sim (snd x) (snd y).

    Lemma sim_dev : forall w v e, sim w v -> e <> d -> w_dev v e = w_dev w e.
    Proof. intros w v e H. apply H. Qed.
    Lemma sim_addr : forall w v e, sim w v -> addr_of v e = addr_of w e.
    Proof.
      intros w v e ((_ & _ & _ & _ & HD) & HA & _) . destruct (Nat.eq_dec e d) as [->|]; [assumption|].
      unfold addr_of. rewrite HD; auto.
    Qed.
    Lemma sim_log : forall w v o, sim w v -> sim (log1 w o) (log1 v o).
    Proof.
      intros w v o ((Ha & Hb & Hc & Hd & He) & HA & HU & HP & HI). split; [|auto].
      unfold same_but, log1. cbn. rewrite Ha, Hd. auto.
    Qed.
    Lemma sim_set : forall w v e x, sim w v -> e <> d ->
      (forall c, d_chan x = Some c -> nth_error (c_link (w_chan w c)) (d_id x) = Some e) ->
      sim (set_dev w e x) (set_dev v e x).
    Proof.
      intros w v e x ((Ha & Hb & Hc & Hd & He) & HA & HU & HP & HI) Hne HX. unfold set_dev. split; [|split; [|split; [|split]]]; cbn.
      - unfold same_but. cbn. repeat split; auto. intros f Hf. unfold upd. destruct (Nat.eqb f e); auto.
      - unfold addr_of in *. cbn. rewrite !upd_other; auto.
      - rewrite !upd_other; auto.
      - exact HP.
      - intros f c Hf. unfold upd. destruct (Nat.eqb_spec f e) as [->|]; [apply HX|apply HI; assumption].
    Qed.
    Lemma sim_set_tx : forall w v e q b cur, sim w v -> e <> d -> sim (set_tx w e q b cur) (set_tx v e q b cur).
    Proof.
      intros w v e q b cur H Hne. unfold set_tx. rewrite (sim_dev w v e H Hne). apply sim_set; try assumption.
      intros c. cbn. apply H. assumption.
    Qed.
    Lemma sim_chan : forall w v, sim w v -> w_chan v = w_chan w.
    Proof. intros w v H. apply H. Qed.
    Lemma sim_now : forall w v, sim w v -> w_now v = w_now w.
    Proof. intros w v H. apply H. Qed.

    Definition away (e : ev N) : Prop := match e with TxComplete f _ => f <> d | RxEvent f _ _ _ => f <> d end.
    Lemma insert_in : forall (x y : Z * ev N) l, In x (insert_event y l) <-> x = y \/ In x l.
    Proof.
      intros x y l. induction l as [|z l IH]; cbn; [intuition|]. destruct (fst z <=? fst y); cbn; [rewrite IH; intuition|intuition].
    Qed.
    Lemma schedule_sim : forall w v t e, sim w v -> away e -> agree sim (schedule w t e) (schedule v t e).
    Proof.
      intros w v t e H HA. unfold schedule. destruct (t <? 0); [reflexivity|]. cbn.
      destruct H as ((Ha & Hb & Hc & Hd & He) & HAd & HU & (P1 & P2 & P3) & HI). split; [|split; [|split; [|split]]].
      - unfold same_but. cbn. rewrite Ha, Hc. repeat split; auto.
      - exact HAd.
      - exact HU.
      - split; [|split]; cbn.
        + intros t' dest HI'. apply insert_in in HI' as [HE|HI']; [|eapply P1; eassumption]. injection HE as _ <-. apply HA. reflexivity.
        + intros t' p src power HI'. apply insert_in in HI' as [HE|HI']; [|eapply P2; eassumption]. injection HE as _ <-. apply HA. reflexivity.
        + exact P3.
      - exact HI.
    Qed.

    Lemma Deliver_sim : forall w v c p src dst tx, sim w v -> src <> d -> dst <> d ->
      agree sim2 (Deliver has_mob w c p src dst tx) (Deliver has_mob v c p src dst tx).
    Proof.
      intros w v c p src dst tx H Hs Hd. unfold Deliver, node_of.
      rewrite (sim_dev w v src H Hs), (sim_dev w v dst H Hd), (sim_chan w v H), (sim_now w v H).
      destruct (g_node (d_cfg (w_dev w src))) as [a|]; [|reflexivity].
      destruct (g_node (d_cfg (w_dev w dst))) as [b|]; [|reflexivity].
      assert (G : forall power delay,
        agree sim2 (bind (schedule w delay (RxEvent dst p src power)) (fun w1 => Ok (true, log1 w1 (TxRx c p src dst tx delay))))
                   (bind (schedule v delay (RxEvent dst p src power)) (fun w1 => Ok (true, log1 w1 (TxRx c p src dst tx delay))))).
      { intros power delay. eapply agree_bind; [apply schedule_sim; [assumption|exact Hd]|].
        intros a' b' Hab. split; [reflexivity|]. apply sim_log; assumption. }
      destruct (has_mob a && has_mob b); [|apply G].
      destruct (c_loss (w_chan w c)) as [f|]; [|apply G]. destruct (nlt N _ _); [split; [reflexivity|assumption]|apply G].
    Qed.
    Lemma deliver_all_sim : forall dsts w v c p src tx, sim w v -> src <> d -> ~ In d dsts ->
      agree sim2 (deliver_all has_mob w c p src dsts tx) (deliver_all has_mob v c p src dsts tx).
    Proof.
      induction dsts as [|x r IH]; intros w v c p src tx H Hs Hd; cbn [deliver_all]; [split; [reflexivity|assumption]|].
      eapply agree_bind; [apply Deliver_sim; [assumption|assumption|intros ->; apply Hd; left; reflexivity]|].
      intros [b1 w1] [b2 w2] [E1 H1]. cbn in E1, H1. subst b2.
      eapply agree_bind; [apply IH; [assumption|assumption|intros X; apply Hd; right; exact X]|].
      intros [b3 w3] [b4 w4] [E3 H3]. cbn in E3, H3. subst b4. split; [reflexivity|assumption].
    Qed.
    Lemma except_in : forall l k i x, In x (except_at k i l) -> In x l.
    Proof. induction l as [|y l IH]; intros k i x H; cbn in *; [assumption|]. destruct (Nat.eqb k i); [right; eauto|destruct H as [->|H]; eauto]. Qed.

    Lemma Channel_sim : forall w v c p id dest tx src, sim w v -> nth_error (c_link (w_chan w c)) id = Some src -> src <> d ->
      agree sim2 (ChannelTransmitStart has_mob w c p id dest tx) (ChannelTransmitStart has_mob v c p id dest tx).
    Proof.
      intros w v c p id dest tx src H HS Hs. unfold ChannelTransmitStart. rewrite (sim_chan w v H).
      pose proof H as (_ & _ & _ & (_ & _ & P3) & _). specialize (P3 c).
      destruct (c_kind (w_chan w c)) eqn:K.
      - unfold IslTransmitStart. rewrite (sim_chan w v H), HS.
        replace (GetDevice v c dest) with (GetDevice w c dest).
        2:{ unfold GetDevice. rewrite (sim_chan w v H). clear - H. induction (c_link (w_chan w c)) as [|x l IH]; cbn; [reflexivity|].
            rewrite (sim_addr w v x H), IH. reflexivity. }
        destruct (GetDevice w c dest) as [dst|] eqn:G.
        + apply Deliver_sim; try assumption. intros ->. unfold GetDevice in G. apply find_some in G as [G _]. contradiction.
        + destruct (dest =? broadcast); [|split; [reflexivity|assumption]].
          eapply agree_bind; [apply deliver_all_sim; [assumption|assumption|intros X; apply except_in in X; contradiction]|].
          intros [b1 w1] [b2 w2] [_ H1]. split; [reflexivity|assumption].
      - unfold LeoTransmitStart. rewrite (sim_chan w v H), HS, (sim_addr w v src H).
        assert (Q : forall m : list (Z * nat), (forall a, ~ In (a, d) m) -> ~ In d (map snd m)).
        { intros m Hm X. apply in_map_iff in X as ([a y] & E & X). cbn in E. subst y. exact (Hm a X). }
        destruct (indexed (addr_of w src) (c_gnd (w_chan w c))) eqn:IG; destruct (indexed (addr_of w src) (c_sat (w_chan w c))) eqn:IS; cbn [andb].
        + reflexivity.
        + apply deliver_all_sim; try assumption. apply Q. intros a. apply P3.
        + apply deliver_all_sim; try assumption. apply Q. intros a. apply P3.
        + split; [reflexivity|assumption].
    Qed.
    Lemma TransmitStart_sim : forall w v e p dest, sim w v -> e <> d ->
      agree sim2 (TransmitStart tx_time has_mob w e p dest) (TransmitStart tx_time has_mob v e p dest).
    Proof.
      intros w v e p dest H He. unfold TransmitStart. rewrite (sim_dev w v e H He). destruct (d_busy (w_dev w e)); [reflexivity|]. cbv zeta.
      assert (L : forall c w1, schedule (log1 (set_tx w e (d_q (w_dev w e)) true (Some p)) (PhyTxBegin e p))
                    (tx_time (g_bps (d_cfg (w_dev w e))) (len (p_bytes p)) + g_gap (d_cfg (w_dev w e))) (TxComplete e dest) = Ok w1 ->
                  w_chan w1 c = w_chan w c).
      { intros c w1. unfold schedule. destruct (_ <? 0); [discriminate|]. intros X. injection X as <-. reflexivity. }
      pose proof (schedule_sim _ _ (tx_time (g_bps (d_cfg (w_dev w e))) (len (p_bytes p)) + g_gap (d_cfg (w_dev w e))) (TxComplete e dest)
                    (sim_log _ _ (PhyTxBegin e p) (sim_set_tx w v e (d_q (w_dev w e)) true (Some p) H He)) He) as HS.
      destruct (schedule (log1 (set_tx w e _ _ _) _) _ _) as [w1|x|x] eqn:S1; destruct (schedule (log1 (set_tx v e _ _ _) _) _ _) as [v1|x'|x']; cbn in HS |- *; try contradiction; try exact HS.
      destruct (d_chan (w_dev w e)) as [c|] eqn:C; [|reflexivity].
      eapply agree_bind.
      - apply (Channel_sim _ _ _ _ _ _ _ e); [apply sim_log; assumption| |assumption]. cbn. rewrite (L c w1 eq_refl). apply H; assumption.
      - intros [b1 w2] [b2 v2] [E H2]. cbn in E, H2. subst b2. destruct b1; split; try reflexivity; cbn; [assumption|apply sim_log; assumption].
    Qed.
    Lemma Complete_sim : forall w v e dest, sim w v -> e <> d ->
      agree sim (DoTransmitComplete tx_time has_mob w e dest) (DoTransmitComplete tx_time has_mob v e dest).
    Proof.
      intros w v e dest H He. unfold DoTransmitComplete. rewrite (sim_dev w v e H He). destruct (negb (d_busy (w_dev w e))); [reflexivity|].
      destruct (d_cur (w_dev w e)) as [cur|]; [|reflexivity].
      assert (H1 : sim (log1 (set_tx w e (d_q (w_dev w e)) false None) (PhyTxEnd e cur)) (log1 (set_tx v e (d_q (w_dev w e)) false None) (PhyTxEnd e cur)))
        by (apply sim_log, sim_set_tx; assumption).
      destruct (d_queue (w_dev w e)) as [admit|]; [|reflexivity]. destruct (d_q (w_dev w e)) as [|h q]; [exact H1|].
      eapply agree_bind.
      - apply TransmitStart_sim; [|assumption]. apply sim_log, sim_log, sim_set_tx; assumption.
      - intros [b1 w2] [b2 v2] [_ H2]. exact H2.
    Qed.
    Lemma Send_sim : forall w v e p dest q, sim w v -> e <> d ->
      agree sim2 (Send crc fcs tx_time has_mob w e p dest q) (Send crc fcs tx_time has_mob v e p dest q).
    Proof.
      intros w v e p dest q H He. unfold Send. rewrite (sim_addr w v e H), (sim_dev w v e H He). destruct dest as [a|].
      2:{ destruct (d_up (w_dev w e)); [reflexivity|]. split; [reflexivity|]. apply sim_log; assumption. }
      destruct (negb (d_up (w_dev w e))); [split; [reflexivity|]; apply sim_log, sim_log; assumption|].
      destruct (d_queue (w_dev w e)) as [admit|]; [|reflexivity]. destruct (admit _ _).
      2:{ split; [reflexivity|]. repeat apply sim_log; assumption. }
      destruct (d_busy (w_dev w e)).
      - split; [reflexivity|]. cbn [snd]. apply sim_set_tx; [|assumption]. repeat apply sim_log; assumption.
      - destruct (_ ++ _) as [|h r]; [reflexivity|]. eapply agree_bind.
        + apply TransmitStart_sim; [|assumption]. apply sim_log, sim_log, sim_set_tx; [|assumption]. repeat apply sim_log; assumption.
        + intros [b1 w2] [b2 v2] [_ H2]. split; [reflexivity|exact H2].
    Qed.
    Lemma Receive_sim : forall w v e p src power, sim w v -> e <> d ->
      agree sim (Receive crc fcs w e p src power) (Receive crc fcs v e p src power).
    Proof.
      intros w v e p src power H He. unfold Receive. rewrite (sim_dev w v e H He), (sim_now w v H).
      destruct (Nat.eqb src e); [apply sim_log; assumption|]. destruct (nlt N _ _); [repeat apply sim_log; assumption|].
      destruct (match g_err _ with Some _ => _ | None => _ end); [repeat apply sim_log; assumption|].
      destruct (Decapsulate crc fcs (p_bytes p)) as [[|pl pr fr to]|x|x]; try reflexivity; cbn [bind]; [repeat apply sim_log; assumption|].
      cbv zeta. destruct (g_pcb _); destruct (classify _ _); try destruct (g_rxcb _); try reflexivity; repeat apply sim_log; assumption.
    Qed.
    Lemma sim_set_link : forall w v e up, sim w v -> sim (set_link w e up) (set_link v e up).
    Proof.
      intros w v e up H. unfold set_link. apply sim_log. destruct (Nat.eq_dec e d) as [->|He].
      - destruct H as ((Ha & Hb & Hc & Hd & He) & HA & HU & HP & HI). unfold set_dev. split; [|split; [|split; [|split]]]; cbn.
        + unfold same_but. cbn. repeat split; auto. intros f Hf. rewrite !upd_other; auto.
        + unfold addr_of in *. cbn. rewrite !upd_same. exact HA.
        + rewrite !upd_same. reflexivity.
        + exact HP.
        + intros f c Hf. rewrite upd_other by assumption. apply HI; assumption.
      - rewrite (sim_dev w v e H He). apply sim_set; try assumption. intros c. cbn. apply H. assumption.
    Qed.
    Lemma sim_set_chan : forall w v c x, sim w v ->
      (forall i e, nth_error (c_link (w_chan w c)) i = Some e -> nth_error (c_link x) i = Some e) ->
      match c_kind x with
      | IslChannel => ~ In d (c_link x)
      | LeoChannel => forall a, ~ In (a, d) (c_gnd x) /\ ~ In (a, d) (c_sat x)
      end -> sim (set_chan w c x) (set_chan v c x).
    Proof.
      intros w v c x ((Ha & Hb & Hc & Hd & He) & HA & HU & (P1 & P2 & P3) & HI) HL HX. unfold set_chan. split; [|split; [|split; [|split]]]; cbn.
      - unfold same_but. cbn. rewrite Hb. repeat split; auto.
      - exact HA.
      - exact HU.
      - split; [exact P1|split; [exact P2|]]. intros c'. cbn. unfold upd. destruct (Nat.eqb c' c); [exact HX|apply P3].
      - intros f c' Hf Hc'. unfold upd. destruct (Nat.eqb_spec c' c) as [->|]; [apply HL|]; apply HI; assumption.
    Qed.
    Lemma index_set_in : forall a e m b f, In (b, f) (index_set a e m) -> (b = a /\ f = e) \/ In (b, f) m.
    Proof.
      intros a e m b f. induction m as [|[k x] m IH]; cbn.
      - intros [E|[]]. injection E as <- <-. auto.
      - destruct (a <? k); [|destruct (a =? k)]; cbn; intros [E|X]; try (injection E as <- <-; auto); auto.
        apply IH in X as [X|X]; auto.
    Qed.
    Lemma sim_set_own : forall w v e g qu q b cur up, sim w v -> e <> d ->
      sim (set_dev w e (mkDev g qu q b cur (d_chan (w_dev w e)) (d_id (w_dev w e)) up))
          (set_dev v e (mkDev g qu q b cur (d_chan (w_dev w e)) (d_id (w_dev w e)) up)).
    Proof. intros w v e g qu q b cur up H He. apply sim_set; try assumption. intros c. cbn. apply H. assumption. Qed.
    Lemma Attach_sim : forall w v e c, sim w v -> e <> d -> agree sim (Attach w e c) (Attach v e c).
    Proof.
      intros w v e c H He. unfold Attach. rewrite (sim_chan w v H).
      assert (P3 : match c_kind (w_chan w c) with IslChannel => ~ In d (c_link (w_chan w c))
                   | LeoChannel => forall a, ~ In (a, d) (c_gnd (w_chan w c)) /\ ~ In (a, d) (c_sat (w_chan w c)) end)
        by (destruct H as (_ & _ & _ & (_ & _ & P3) & _); apply P3).
      set (id := length (c_link (w_chan w c))).
      assert (G : forall g s, match c_kind (w_chan w c) with IslChannel => True | LeoChannel => forall a, ~ In (a, d) g /\ ~ In (a, d) s end ->
        agree sim (bind (Ok (set_chan w c (mkChan (c_kind (w_chan w c)) (c_link (w_chan w c) ++ [e]) g s (c_loss (w_chan w c)) (c_delay (w_chan w c)))))
                   (fun w1 => let x := w_dev w1 e in Ok (set_link (set_dev w1 e (mkDev (d_cfg x) (d_queue x) (d_q x) (d_busy x) (d_cur x) (Some c) id (d_up x))) e true)))
                  (bind (Ok (set_chan v c (mkChan (c_kind (w_chan w c)) (c_link (w_chan w c) ++ [e]) g s (c_loss (w_chan w c)) (c_delay (w_chan w c)))))
                   (fun w1 => let x := w_dev w1 e in Ok (set_link (set_dev w1 e (mkDev (d_cfg x) (d_queue x) (d_q x) (d_busy x) (d_cur x) (Some c) id (d_up x))) e true)))).
      { intros g s HG. cbn [bind]. cbv zeta. cbn [agree].
        assert (HC : sim (set_chan w c (mkChan (c_kind (w_chan w c)) (c_link (w_chan w c) ++ [e]) g s (c_loss (w_chan w c)) (c_delay (w_chan w c))))
                         (set_chan v c (mkChan (c_kind (w_chan w c)) (c_link (w_chan w c) ++ [e]) g s (c_loss (w_chan w c)) (c_delay (w_chan w c))))).
        { apply sim_set_chan; [assumption| |].
          - cbn. intros i f X. rewrite nth_error_app1; [assumption|]. apply nth_error_Some. congruence.
          - cbn. destruct (c_kind (w_chan w c)); [|exact HG]. intros X. apply in_app_or in X as [X|[X|[]]]; [contradiction|congruence]. }
        apply sim_set_link. rewrite (sim_dev _ _ e HC He). apply sim_set; try assumption. intros c' X. cbn in X. injection X as <-.
        cbn. rewrite upd_same. cbn. unfold id. rewrite nth_error_app2, Nat.sub_diag by lia. reflexivity. }
      unfold ChannelAttach. rewrite (sim_chan w v H), (sim_dev w v e H He), (sim_addr w v e H).
      assert (IS : forall a m, (forall b, ~ In (b, d) m) -> forall b, ~ In (b, d) (index_set a e m)).
      { intros a m Hm b X. apply index_set_in in X as [[_ X]|X]; [congruence|exact (Hm b X)]. }
      destruct (c_kind (w_chan w c)) eqn:K.
      - apply G. exact I.
      - destruct (g_kind (d_cfg (w_dev w e))); [reflexivity| |]; apply G; intros a; (split; [|]); try apply P3;
          apply IS; intros b; apply P3.
    Qed.
    Lemma Detach_sim : forall w v c i, sim w v -> agree sim2 (ChannelDetach w c i) (ChannelDetach v c i).
    Proof.
      intros w v c i H. unfold ChannelDetach.
      assert (B : forall w v, sim w v -> sim2 (BaseDetach w c i) (BaseDetach v c i)).
      { intros w' v' H'. unfold BaseDetach. rewrite (sim_chan w' v' H'). destruct (nth_error _ i) as [e|]; [|split; [reflexivity|assumption]].
        replace (d_up (w_dev v' e)) with (d_up (w_dev w' e)).
        2:{ destruct (Nat.eq_dec e d) as [->|He]; [symmetry; apply H'|rewrite (sim_dev w' v' e H' He); reflexivity]. }
        destruct (d_up (w_dev w' e)); split; try reflexivity; [apply sim_set_link|]; assumption. }
      rewrite (sim_chan w v H). destruct (c_kind (w_chan w c)) eqn:K; [apply B; assumption|].
      destruct (nth_error (c_link (w_chan w c)) i) as [e|]; [|reflexivity]. rewrite (sim_addr w v e H). cbn [agree]. apply B.
      apply sim_set_chan; [assumption|cbn; auto|]. cbn.
      assert (P3 : forall a, ~ In (a, d) (c_gnd (w_chan w c)) /\ ~ In (a, d) (c_sat (w_chan w c))).
      { destruct H as (_ & _ & _ & (_ & _ & P3) & _). specialize (P3 c). rewrite K in P3. exact P3. }
      intros a. unfold index_erase. split; intros X; apply filter_In in X as [X _]; destruct (P3 a) as [Q1 Q2]; auto.
    Qed.

    Lemma step_sim : forall w v o, sim w v -> elsewhere_op d o -> agree sim (step w o) (step v o).
    Proof.
      intros w v o H HO. destruct o; cbn in HO |- *.
      - eapply agree_bind; [apply Send_sim; assumption|]. intros [b1 w1] [b2 v1] [_ H1]. exact H1.
      - unfold Configure. rewrite (sim_dev w v d0 H HO). apply sim_set_own; assumption.
      - unfold SetQueue. rewrite (sim_dev w v d0 H HO). apply sim_log, sim_set_own; assumption.
      - apply Attach_sim; assumption.
      - eapply agree_bind; [apply Detach_sim; assumption|]. intros [b1 w1] [b2 v1] [_ H1]. exact H1.
      - apply sim_set_link; assumption.
      - unfold SetPropagationLoss. rewrite (sim_chan w v H). apply sim_set_chan; [assumption|cbn; auto|]. destruct H as (_ & _ & _ & (_ & _ & P3) & _). apply P3.
      - unfold SetPropagationDelay. rewrite (sim_chan w v H). apply sim_set_chan; [assumption|cbn; auto|]. destruct H as (_ & _ & _ & (_ & _ & P3) & _). apply P3.
      - replace (w_events v) with (w_events w) by (symmetry; apply H). rewrite (sim_now w v H).
        destruct (_ && _); cbn; [|assumption].
        destruct H as ((Ha & Hb & Hc & Hd & He) & HA & HU & HP & HI). split; [|auto]. unfold same_but. cbn. auto.
      - unfold run_next. replace (w_events v) with (w_events w) by (symmetry; apply H).
        destruct (w_events w) as [|[t e] r] eqn:E; [exact H|].
        assert (HP : sim (mkWorld t (w_dev w) (w_chan w) r (w_log w)) (mkWorld t (w_dev v) (w_chan v) r (w_log v))).
        { destruct H as ((Ha & Hb & Hc & Hd & He) & HA & HU & (P1 & P2 & P3) & HI). rewrite E in *. split; [|split; [|split; [|split]]]; auto.
          - unfold same_but. cbn. auto.
          - split; [|split]; cbn; auto.
            + intros t' dest X. apply (P1 t' dest). right. exact X.
            + intros t' p src power X. apply (P2 t' p src power). right. exact X. }
        assert (HE : away e).
        { destruct H as (_ & _ & _ & (P1 & P2 & _) & _). rewrite E in *. destruct e; cbn; intros ->; [eapply P1|eapply P2]; left; reflexivity. }
        destruct e as [e dest|dst p src power]; [apply Complete_sim|apply Receive_sim]; assumption.
    Qed.
    Lemma run_sim : forall ops w v, sim w v -> Forall (elsewhere_op d) ops -> agree sim (run w ops) (run v ops).
    Proof.
      induction ops as [|o r IH]; intros w v H HO; cbn [NetModel.run]; [exact H|].
      inversion HO as [|? ? H1 H2]; subst. eapply agree_bind; [apply step_sim; assumption|]. intros a b Hab. apply IH; assumption.
    Qed.
    Lemma dispose_sim : forall w, indexed_ok w -> apart d w -> sim w (DoDispose w d).
    Proof.
      intros w HI HA. unfold DoDispose, set_dev. split; [|split; [|split; [|split]]]; cbn.
      - unfold same_but. cbn. repeat split. intros e He. rewrite upd_other by assumption. reflexivity.
      - unfold addr_of. cbn. rewrite upd_same. reflexivity.
      - rewrite upd_same. reflexivity.
      - assumption.
      - intros e c _. apply HI.
    Qed.
  End Sim.

  (** ** What a disposed device does *)
  Lemma dispose_dev : forall (w : world N) d, w_dev (DoDispose w d) d =
    let x := w_dev w d in let g := d_cfg x in
    mkDev (mkCfg (g_kind g) None (g_addr g) (g_bps g) (g_gap g) (g_thr g) (g_txp g) (g_gain g) (g_loss g) None (g_rxcb g) (g_pcb g))
          None [] (d_busy x) None None (d_id x) (d_up x).
  Proof. intros w d. unfold DoDispose, set_dev. cbn. rewrite upd_same. reflexivity. Qed.
  Lemma dispose_other : forall (w : world N) d e, e <> d -> w_dev (DoDispose w d) e = w_dev w e.
  Proof. intros w d e He. unfold DoDispose, set_dev. cbn. apply upd_other. assumption. Qed.
  Lemma dispose_addr : forall (w : world N) d e, addr_of (DoDispose w d) e = addr_of w e.
  Proof.
    intros w d e. unfold addr_of. destruct (Nat.eq_dec e d) as [->|He]; [rewrite dispose_dev; reflexivity|rewrite dispose_other by assumption; reflexivity].
  Qed.

  Lemma Deliver_ok : forall (w : world N) c p src dst tx, timed w c -> 0 <= tx ->
    (exists b w1, Deliver has_mob w c p src dst tx = Ok (b, w1) /\ w_now w1 = w_now w /\ w_chan w1 = w_chan w /\ w_dev w1 = w_dev w) \/
    Deliver has_mob w c p src dst tx = UB NullDeref.
  Proof.
    intros w c p src dst tx HT Htx. unfold Deliver.
    destruct (node_of w src) as [a|]; [|right; reflexivity]. destruct (node_of w dst) as [b|]; [|right; reflexivity]. left.
    assert (G : forall power delay, 0 <= delay -> exists b0 w1,
      bind (schedule w delay (RxEvent dst p src power)) (fun w1 => Ok (true, log1 w1 (TxRx c p src dst tx delay))) = Ok (b0, w1) /\
      w_now w1 = w_now w /\ w_chan w1 = w_chan w /\ w_dev w1 = w_dev w).
    { intros power delay HD. unfold schedule. destruct (Z.ltb_spec delay 0); [lia|]. cbn. eexists _, _. split; [reflexivity|]. auto. }
    assert (HP : 0 <= GetPropagationDelay (w_chan w c) a b (w_now w)).
    { unfold GetPropagationDelay. destruct (c_delay (w_chan w c)) as [f|] eqn:E; [apply HT; assumption|lia]. }
    destruct (has_mob a && has_mob b); [|apply G; assumption].
    destruct (c_loss (w_chan w c)) as [f|]; [|apply G; assumption]. destruct (nlt N _ _); [|apply G; assumption].
    eexists _, _. split; [reflexivity|]. auto.
  Qed.
  Lemma deliver_all_dead : forall dsts (w : world N) c p src tx dst, timed w c -> 0 <= tx -> In dst dsts -> node_of w dst = None ->
    deliver_all has_mob w c p src dsts tx = UB NullDeref.
  Proof.
    induction dsts as [|x r IH]; intros w c p src tx dst HT Htx HI HN; [destruct HI|]. cbn [deliver_all].
    destruct (Deliver_ok w c p src x tx HT Htx) as [(b & w1 & E & E1 & E2 & E3)|E]; rewrite E; [|reflexivity]. cbn [bind].
    destruct HI as [->|HI].
    { exfalso. unfold Deliver in E. rewrite HN in E. destruct (node_of w src); discriminate. }
    rewrite (IH w1 c p src tx dst); [reflexivity| |assumption|assumption|].
    - unfold timed. rewrite E1, E2. exact HT.
    - unfold node_of. rewrite E3. exact HN.
  Qed.
  Lemma except_at_in : forall l k i j x, nth_error l j = Some x -> (k + j <> i)%nat -> In x (except_at k i l).
  Proof.
    induction l as [|y l IH]; intros k i j x H NE; [destruct j; discriminate|]. destruct j as [|j]; cbn in H |- *.
    - injection H as ->. destruct (Nat.eqb_spec k i); [lia|left; reflexivity].
    - destruct (Nat.eqb k i); [|right]; eapply IH; eauto; lia.
  Qed.
  Lemma find_first : forall (w : world N) l k dst dest, nth_error l k = Some dst -> addr_of w dst = dest ->
    (forall j x, (j < k)%nat -> nth_error l j = Some x -> addr_of w x <> dest) -> find (fun d => addr_of w d =? dest) l = Some dst.
  Proof.
    intros w. induction l as [|y l IH]; intros k dst dest H HA HF; [destruct k; discriminate|]. destruct k as [|k]; cbn in H |- *.
    - injection H as ->. rewrite HA, Z.eqb_refl. reflexivity.
    - destruct (Z.eqb_spec (addr_of w y) dest) as [E|]; [exfalso; apply (HF O y); [lia|reflexivity|assumption]|].
      eapply IH; [exact H|assumption|]. intros j x Hj Hx. apply (HF (S j) x); [lia|exact Hx].
  Qed.

  Lemma Channel_dead : forall (w : world N) c p src dest tx dst, nth_error (c_link (w_chan w c)) (d_id (w_dev w src)) = Some src ->
    timed w c -> 0 <= tx -> recipient w c src dest dst -> node_of w dst = None ->
    ChannelTransmitStart has_mob w c p (d_id (w_dev w src)) dest tx = UB NullDeref.
  Proof.
    intros w c p src dest tx dst HN HT Htx HR HD. unfold ChannelTransmitStart. unfold recipient in HR. cbv zeta in HR.
    destruct (c_kind (w_chan w c)).
    - unfold IslTransmitStart. rewrite HN. destruct HR as [(k & H1 & H2 & H3)|(H1 & H2 & k & H3 & H4)].
      + unfold GetDevice. rewrite (find_first w _ k dst dest H1 H2 H3). unfold Deliver. rewrite HD. destruct (node_of w src); reflexivity.
      + replace (GetDevice w c dest) with (@None nat).
        2:{ symmetry. unfold GetDevice. destruct (find _ _) as [x|] eqn:E; [|reflexivity]. apply find_some in E as [E1 E2]. exfalso.
            apply (H1 x E1). lia. }
        replace (dest =? broadcast) with true by (symmetry; apply Z.eqb_eq; rewrite H2; reflexivity).
        rewrite (deliver_all_dead _ w c p src tx dst); try assumption; [reflexivity|]. eapply except_at_in; [exact H4|]. lia.
    - unfold LeoTransmitStart. rewrite HN.
      assert (I1 : forall m, (exists x, In (addr_of w src, x) m) -> indexed (addr_of w src) m = true).
      { intros m (x & X). unfold indexed. apply existsb_exists. exists (addr_of w src, x). split; [assumption|apply Z.eqb_refl]. }
      assert (I2 : forall m, ~ (exists x, In (addr_of w src, x) m) -> indexed (addr_of w src) m = false).
      { intros m Hm. destruct (indexed _ m) eqn:E; [|reflexivity]. exfalso. apply Hm. unfold indexed in E. apply existsb_exists in E as ([a x] & X & E).
        cbn in E. apply Z.eqb_eq in E. subst a. eauto. }
      destruct HR as [(H1 & H2 & H3)|(H1 & H2 & H3)]; rewrite (I1 _ H1), (I2 _ H2); cbn [andb];
        rewrite (deliver_all_dead _ w c p src tx dst); auto.
  Qed.
  Lemma TransmitStart_dead : forall (w : world N) d src c p dest, indexed_ok w -> src <> d -> d_busy (w_dev w src) = false ->
    d_chan (w_dev w src) = Some c -> timed w c -> 0 <= tx_time (g_bps (d_cfg (w_dev w src))) (len (p_bytes p)) ->
    0 <= g_gap (d_cfg (w_dev w src)) -> recipient w c src dest d ->
    TransmitStart tx_time has_mob (DoDispose w d) src p dest = UB NullDeref.
  Proof.
    intros w d src c p dest HI Hs HB HC HT Htx Hg HR. unfold TransmitStart. rewrite dispose_other by assumption. rewrite HB.
    unfold schedule. destruct (Z.ltb_spec (tx_time (g_bps (d_cfg (w_dev w src))) (len (p_bytes p)) + g_gap (d_cfg (w_dev w src))) 0); [lia|].
    cbn [bind]. rewrite HC.
    match goal with |- context [ChannelTransmitStart has_mob ?x c p _ dest ?t] => set (v := x); set (tx := t) end.
    assert (EI : d_id (w_dev v src) = d_id (w_dev w src)).
    { unfold v. cbn. rewrite upd_same. cbn. rewrite upd_other by assumption. reflexivity. }
    rewrite <- EI. rewrite (Channel_dead v c p src dest tx d); [reflexivity| | | | |].
    - rewrite EI. unfold v. cbn. apply HI. assumption.
    - exact HT.
    - exact Htx.
    - assert (EA : forall x, addr_of v x = addr_of w x).
      { intros x. rewrite <- (dispose_addr w d x). unfold v, addr_of. cbn. unfold upd. destruct (Nat.eqb_spec x src) as [->|]; [|reflexivity].
        destruct (Nat.eqb_spec src d) as [->|]; reflexivity. }
      unfold recipient in HR |- *. cbv zeta in HR |- *. rewrite EI. change (w_chan v) with (w_chan w). destruct (c_kind (w_chan w c)).
      + destruct HR as [(k & H1 & H2 & H3)|(H1 & H2 & H3)]; [left; exists k|right].
        * rewrite EA. repeat split; try assumption. intros j x. rewrite EA. apply H3.
        * split; [intros x; rewrite EA; apply H1|auto].
      + rewrite EA. exact HR.
    - unfold v, node_of. cbn. rewrite upd_other by congruence. rewrite upd_same. reflexivity.
  Qed.

  (** Detaching from a LEO channel takes a device out of its indices. *)
  Lemma retire : forall (w w1 : world N) d c i, nth_error (c_link (w_chan w c)) i = Some d -> c_kind (w_chan w c) = LeoChannel ->
    (forall t dest, ~ In (t, TxComplete d dest) (w_events w)) -> (forall t p src power, ~ In (t, RxEvent d p src power) (w_events w)) ->
    (forall c', c' <> c -> ~ In d (c_link (w_chan w c')) /\ forall a, ~ In (a, d) (c_gnd (w_chan w c')) /\ ~ In (a, d) (c_sat (w_chan w c'))) ->
    (forall a, In (a, d) (c_gnd (w_chan w c)) \/ In (a, d) (c_sat (w_chan w c)) -> a = addr_of w d) ->
    step w (ODetach c i) = Ok w1 -> apart d w1.
  Proof.
    intros w w1 d c i HN HK E1 E2 HO HA H. cbn in H. apply bind_ok in H as ([b w2] & H & X). injection X as <-.
    unfold ChannelDetach in H. rewrite HK, HN in H. injection H as H. unfold BaseDetach in H. cbn in H. rewrite upd_same in H. cbn in H. rewrite HN in H.
    assert (G : apart d (set_chan w c (mkChan LeoChannel (c_link (w_chan w c)) (index_erase (addr_of w d) (c_gnd (w_chan w c)))
                  (index_erase (addr_of w d) (c_sat (w_chan w c))) (c_loss (w_chan w c)) (c_delay (w_chan w c))))).
    { split; [exact E1|split; [exact E2|]]. intros c'. cbn. unfold upd. destruct (Nat.eqb_spec c' c) as [->|n]; cbn.
      - intros a. unfold index_erase. split; intros X; apply filter_In in X as [X Y]; cbn in Y;
          rewrite (HA a) in Y by auto; rewrite Z.eqb_refl in Y; discriminate.
      - destruct (HO c' n) as [H1 H2]. destruct (c_kind (w_chan w c')); assumption. }
    destruct (d_up (w_dev w d)); injection H as <- <-; exact G.
  Qed.

  (** ** Configuration *)
  Lemma step_config : forall (w : world N) o w' d, step w o = Ok w' ->
    d_cfg (w_dev w' d) = match o with OSet e s => if Nat.eqb e d then apply_setting (d_cfg (w_dev w d)) s else d_cfg (w_dev w d)
                         | _ => d_cfg (w_dev w d) end.
  Proof.
    intros w o w' d H. destruct o; try (eapply (step_cfg crc fcs tx_time has_mob); [exact H|exact I]).
    cbn in H. injection H as <-. unfold Configure, set_dev. cbn. unfold upd. rewrite (Nat.eqb_sym d0 d). destruct (Nat.eqb_spec d d0) as [->|]; reflexivity.
  Qed.
  Lemma run_config : forall (A : Type) (get : cfg N -> A) (f : setting N -> option A),
    (forall g s, get (apply_setting g s) = match f s with Some x => x | None => get g end) ->
    forall ops (w w' : world N) d, run w ops = Ok w' ->
    get (d_cfg (w_dev w' d)) = last_given (given d f) ops (get (d_cfg (w_dev w d))).
  Proof.
    intros A get f HF. induction ops as [|o r IH]; intros w w' d H; cbn in H; [injection H as <-; reflexivity|].
    apply bind_ok in H as (w1 & H1 & H). rewrite (IH w1 w' d H). unfold last_given. cbn [fold_left]. f_equal.
    rewrite (step_config w o w1 d H1). destruct o; try reflexivity. cbn [given]. destruct (Nat.eqb d0 d); [apply HF|reflexivity].
  Qed.

  (** ** Attributes without effect *)
  Lemma net_step_ok : forall y o y', net_step crc fcs tx_time has_mob y o = Ok y' -> step (y_net y) o = Ok (y_net y').
  Proof. intros y o y' H. unfold net_step in H. apply bind_ok in H as (w & H & X). injection X as <-. exact H. Qed.
  Lemma ystep_net : forall y o y', ~ disposes o -> ystep y o = Ok y' -> run (y_net y) (net_ops [o]) = Ok (y_net y').
  Proof.
    intros y o y' HD H. destruct o; cbn in H |- *.
    - rewrite (net_step_ok _ _ _ H). reflexivity.
    - injection H as <-. reflexivity.
    - injection H as <-. reflexivity.
    - injection H as <-. reflexivity.
    - unfold AggregateObject in H. destruct o, (s_object (y_side y d)); try discriminate; injection H as <-; reflexivity.
    - unfold ConnectQueueTraces in H. destruct (d_queue _); [|discriminate]. injection H as <-. reflexivity.
    - unfold Initialize in H. destruct (s_initialized _); [injection H as <-; reflexivity|]. apply bind_ok in H as (y1 & H & X). injection X as <-.
      unfold DoInitialize, ConnectQueueTraces in H. cbn. destruct (s_iface _); [destruct (d_queue _); [|discriminate]|]; injection H as <-; reflexivity.
    - exfalso. apply HD. exact I.
  Qed.
  Lemma yrun_net : forall ops y y', Forall (fun o => ~ disposes o) ops -> yrun y ops = Ok y' -> run (y_net y) (net_ops ops) = Ok (y_net y').
  Proof.
    induction ops as [|o r IH]; intros y y' HD H; cbn in H; [injection H as <-; reflexivity|].
    apply bind_ok in H as (y1 & H1 & H). inversion HD as [|? ? D1 D2]; subst.
    change (net_ops (o :: r)) with (net_ops [o] ++ net_ops r) || replace (net_ops (o :: r)) with (net_ops [o] ++ net_ops r) by (unfold net_ops; cbn; rewrite app_nil_r; reflexivity).
    rewrite run_app, (ystep_net y o y1 D1 H1). cbn [bind]. apply IH; assumption.
  Qed.
  Lemma yrun_exact : forall ops y, Forall net_or_idle ops ->
    agree (fun w y' => w = y_net y') (run (y_net y) (net_ops ops)) (yrun y ops).
  Proof.
    induction ops as [|o r IH]; intros y HD; cbn [LifeModel.yrun]; [reflexivity|]. inversion HD as [|? ? D1 D2]; subst.
    destruct o; cbn in D1; try contradiction; cbn [LifeModel.ystep bind];
      [|exact (IH (set_side y d _) D2)|exact (IH (set_side y d _) D2)|exact (IH y D2)].
    change (net_ops (YNet o :: r)) with (o :: net_ops r). cbn [NetModel.run]. unfold net_step.
    destruct (step (y_net y) o) as [w|e|e]; cbn [bind agree]; try reflexivity. exact (IH (mkSystem w _ _) D2).
  Qed.
  Lemma ystep_mtu : forall y o y' d, ystep y o = Ok y' ->
    GetMtu y' d = last_mtu d [o] (GetMtu y d) /\ s_ifindex (y_side y' d) = last_index d [o] (s_ifindex (y_side y d)).
  Proof.
    intros y o y' d H. unfold GetMtu. destruct o; cbn in H |- *.
    - unfold net_step in H. apply bind_ok in H as (w & H & X). injection X as <-. cbn. destruct o; try (split; reflexivity).
      unfold upd. destruct (Nat.eqb_spec d d0) as [->|]; split; reflexivity.
    - injection H as <-. cbn. unfold upd. rewrite (Nat.eqb_sym d0 d). destruct (Nat.eqb_spec d d0) as [->|]; split; reflexivity.
    - injection H as <-. cbn. unfold upd. rewrite (Nat.eqb_sym d0 d). destruct (Nat.eqb_spec d d0) as [->|]; split; reflexivity.
    - injection H as <-. split; reflexivity.
    - unfold AggregateObject, NotifyNewAggregate in H. destruct o, (s_object (y_side y d0)) eqn:EO; try discriminate; cbn in H; injection H as <-; cbn; unfold upd;
        (destruct (Nat.eqb_spec d d0) as [->|]; [destruct (s_iface (y_side y d0))|]; split; reflexivity).
    - unfold ConnectQueueTraces in H. destruct (d_queue _); [|discriminate]. injection H as <-. cbn. unfold upd. destruct (Nat.eqb_spec d d0) as [->|]; split; reflexivity.
    - unfold Initialize in H. destruct (s_initialized _); [injection H as <-; split; reflexivity|]. apply bind_ok in H as (y1 & H & X). injection X as <-.
      unfold DoInitialize, ConnectQueueTraces in H. destruct (s_iface _); [destruct (d_queue _); [|discriminate]|]; injection H as <-; cbn; unfold upd;
        destruct (Nat.eqb_spec d d0) as [->|]; rewrite ?Nat.eqb_refl; split; reflexivity.
    - injection H as <-. unfold Dispose. destruct (s_disposed _); [split; reflexivity|]. cbn. unfold upd. destruct (Nat.eqb_spec d d0) as [->|]; split; reflexivity.
  Qed.
  Lemma yrun_mtu : forall ops y y' d, yrun y ops = Ok y' ->
    GetMtu y' d = last_mtu d ops (GetMtu y d) /\ s_ifindex (y_side y' d) = last_index d ops (s_ifindex (y_side y d)).
  Proof.
    induction ops as [|o r IH]; intros y y' d H; cbn in H; [injection H as <-; split; reflexivity|].
    apply bind_ok in H as (y1 & H1 & H). destruct (IH y1 y' d H) as [E1 E2]. destruct (ystep_mtu y o y1 d H1) as [F1 F2].
    rewrite E1, E2, F1, F2. split; reflexivity.
  Qed.
End Life.
