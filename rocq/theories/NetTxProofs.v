Require Import ZArith List Bool Lia Sorted.
Require Import Verif.Base Verif.Num Verif.FrameModel Verif.NetModel Verif.NetSpec Verif.NetSteps Verif.NetInv.
Import ListNotations.
Local Open Scope Z_scope.

Lemma app_cons_split : forall A (l new l1 l2 : list A) x, l ++ new = l1 ++ x :: l2 ->
  (exists l2', l = l1 ++ x :: l2' /\ l2 = l2' ++ new) \/ (exists n1, l1 = l ++ n1 /\ new = n1 ++ x :: l2).
Proof.
  induction l as [|y r IH]; intros new l1 l2 x H.
  - right. exists l1. auto.
  - destruct l1 as [|z l1]; cbn in H; injection H as -> H.
    + left. exists r. auto.
    + apply IH in H as [(l2' & -> & ->)|(n1 & -> & ->)]; [left; exists l2'|right; exists n1]; auto.
Qed.

Section Tx.
  Context {N : Num}.
  Variable crc : list Z -> Z.
  Variable fcs : bool.
  Variable tx_time : Z -> Z -> Z.
  Variable has_mob : nat -> bool.
  Notation reachable := (@reachable N crc fcs tx_time has_mob).
  Notation run := (@run N crc fcs tx_time has_mob).
  Notation step := (@step N crc fcs tx_time has_mob).
  Implicit Type w : world N.

  Lemma run_app : forall a b w, run w (a ++ b) = bind (run w a) (fun w1 => run w1 b).
  Proof.
    induction a as [|o r IH]; intros b w; [reflexivity|]. cbn. destruct (step w o); cbn; [apply IH|reflexivity|reflexivity].
  Qed.
  Lemma reachable_run : forall w ops w', reachable w -> run w ops = Ok w' -> reachable w'.
  Proof.
    intros w ops w' (dk & ck & o1 & H) H'. exists dk, ck, (o1 ++ ops). rewrite run_app, H. exact H'.
  Qed.
  Lemma reachable_step : forall w o w', reachable w -> step w o = Ok w' -> reachable w'.
  Proof. intros w o w' R H. apply (reachable_run w [o]); [assumption|]. cbn. rewrite H. reflexivity. Qed.
  Lemma reachable_initial : forall dk ck, reachable (initial dk ck).
  Proof. intros. exists dk, ck, []. reflexivity. Qed.

  (** ** C33 *)
  Lemma bind_abort : forall A B (x : res A) (f : A -> res B) e, bind x f = Abort e ->
    x = Abort e \/ exists a, x = Ok a /\ f a = Abort e.
  Proof. intros A B [a|e'|e'] f e H; cbn in H; [right; eauto|left; congruence|discriminate]. Qed.

  Lemma schedule_no_tx : forall w t e, schedule w t e <> Abort AssertTx.
  Proof. intros w t e. unfold schedule. destruct (t <? 0); discriminate. Qed.
  Lemma Deliver_no_tx : forall w c p src dst t, Deliver has_mob w c p src dst t <> Abort AssertTx.
  Proof.
    intros w c p src dst t. unfold Deliver. destruct (node_of w src), (node_of w dst); try discriminate.
    assert (H : forall d e f, (let* w1 := schedule w d e in Ok (true, f w1))%res <> Abort AssertTx :> res (bool * world N)).
    { intros d e f H. apply bind_abort in H as [H|(w1 & _ & H)]; [eapply schedule_no_tx; eassumption|discriminate]. }
    destruct (has_mob _ && has_mob _); [|apply H]. destruct (c_loss _); [|apply H]. destruct (nlt N _ _); [discriminate|apply H].
  Qed.
  Lemma deliver_all_no_tx : forall l w c p src t, deliver_all has_mob w c p src l t <> Abort AssertTx.
  Proof.
    induction l as [|d r IH]; intros w c p src t H; cbn in H; [discriminate|].
    apply bind_abort in H as [H|([b1 w1] & _ & H)]; [eapply Deliver_no_tx; eassumption|].
    apply bind_abort in H as [H|([b2 w2] & _ & H)]; [eapply IH; eassumption|discriminate].
  Qed.
  Lemma Channel_no_tx : forall w c p i dest t, ChannelTransmitStart has_mob w c p i dest t <> Abort AssertTx.
  Proof.
    intros w c p i dest t. unfold ChannelTransmitStart, IslTransmitStart, LeoTransmitStart.
    destruct (c_kind _), (nth_error _ _); try discriminate.
    - destruct (GetDevice _ _ _); [apply Deliver_no_tx|]. destruct (dest =? broadcast); [|discriminate].
      intros H. apply bind_abort in H as [H|([b1 w1] & _ & H)]; [eapply deliver_all_no_tx; eassumption|discriminate].
    - destruct (indexed _ _), (indexed _ _); cbn; try discriminate; apply deliver_all_no_tx.
  Qed.
  Lemma TransmitStart_no_tx : forall w d p dest, d_busy (w_dev w d) = false ->
    TransmitStart tx_time has_mob w d p dest <> Abort AssertTx.
  Proof.
    intros w d p dest B H. unfold TransmitStart in H. rewrite B in H.
    apply bind_abort in H as [H|(w1 & _ & H)]; [eapply schedule_no_tx; eassumption|].
    destruct (d_chan (w_dev w d)); [|discriminate].
    apply bind_abort in H as [H|([b1 w2] & _ & H)]; [eapply Channel_no_tx; eassumption|].
    destruct b1; discriminate.
  Qed.

  Lemma step_no_tx : forall w o, reachable w -> step w o <> Abort AssertTx.
  Proof.
    intros w o R H. destruct o; cbn in H; try discriminate.
    - apply bind_abort in H as [H|([b w1] & _ & H)]; [|discriminate]. unfold Send in H.
      destruct dest; destruct (d_up (w_dev w d)); cbn [negb] in H; try discriminate.
      destruct (d_queue (w_dev w d)); [|discriminate]. destruct (b _ _); [|discriminate].
      destruct (d_busy (w_dev w d)) eqn:B; [discriminate|]. destruct (_ ++ _); [discriminate|].
      apply bind_abort in H as [H|([b2 w1] & _ & H)]; [|discriminate].
      eapply TransmitStart_no_tx; [|eassumption]. cbn. rewrite upd_same. reflexivity.
    - unfold Attach in H. apply bind_abort in H as [H|(w1 & _ & H)]; [|discriminate]. unfold ChannelAttach in H.
      destruct (c_kind (w_chan w c)), (g_kind (d_cfg (w_dev w d))); discriminate.
    - apply bind_abort in H as [H|([b w1] & _ & H)]; [|discriminate]. unfold ChannelDetach in H.
      destruct (c_kind _); [discriminate|]. destruct (nth_error _ _); discriminate.
    - destruct (_ && _); discriminate.
    - unfold run_next in H. destruct (w_events w) as [|[t e] r] eqn:EV; [discriminate|]. destruct e as [d dest|d p src power].
      + destruct (reachable_transmitter crc fcs tx_time has_mob d w R) as [(_ & _ & line & free & _ & _ & _ & HB) _].
        unfold DoTransmitComplete in H. cbn [w_dev] in H. rewrite EV, ends_cons_self in HB.
        destruct (d_busy (w_dev w d)); [|destruct HB as [HB _]; discriminate]. cbn [negb] in H.
        destruct HB as (u & p & _ & _ & HC). rewrite HC in H.
        destruct (d_queue (w_dev w d)); [|discriminate]. destruct (d_q (w_dev w d)); [discriminate|].
        apply bind_abort in H as [H|([b2 w1] & _ & H)]; [|discriminate].
        eapply TransmitStart_no_tx; [|eassumption]. cbn. rewrite upd_same. reflexivity.
      + unfold Receive in H. destruct (Nat.eqb src d); [discriminate|]. destruct (nlt N _ _); [discriminate|].
        destruct (match g_err _ with Some _ => _ | None => _ end); [discriminate|].
        apply bind_abort in H as [H|(r0 & _ & H)].
        * unfold Decapsulate in H. repeat (match type of H with (if ?b then _ else _) = _ => destruct b end; try discriminate).
        * destruct r0; [discriminate|]. destruct (g_pcb _), (classify _ _); try discriminate; destruct (g_rxcb _); discriminate.
  Qed.

  Lemma run_no_tx : forall ops w, reachable w -> run w ops <> Abort AssertTx.
  Proof.
    induction ops as [|o r IH]; intros w R H; cbn in H; [discriminate|].
    apply bind_abort in H as [H|(w1 & H1 & H)]; [eapply step_no_tx; eassumption|].
    eapply IH; [|eassumption]. eapply reachable_step; eassumption.
  Qed.

  (** ** C34 *)
  Lemma busy_pending : forall d w, reachable w ->
    (d_busy (w_dev w d) = true <-> length (ends d (w_events w)) = 1%nat) /\
    (length (ends d (w_events w)) <= 1)%nat /\
    (d_busy (w_dev w d) = false -> d_q (w_dev w d) = []).
  Proof.
    intros d w R. destruct (reachable_transmitter crc fcs tx_time has_mob d w R) as [(_ & _ & line & free & _ & _ & _ & HB) _].
    destruct (d_busy (w_dev w d)).
    - destruct HB as (u & p & _ & -> & _). cbn. intuition; try lia; discriminate.
    - destruct HB as (-> & _ & Q & _). cbn. intuition; try lia; discriminate.
  Qed.

  (** ** Trace records *)
  Inductive closed : list (bool * pkt) -> Prop :=
  | cl_nil : closed []
  | cl_pair : forall p l, closed l -> closed ((true, p) :: (false, p) :: l).
  Lemma closed_open : forall l p, closed l -> alternating (l ++ [(true, p)]).
  Proof. induction 1; cbn; constructor. assumption. Qed.
  Lemma closed_alt : forall l, closed l -> alternating l.
  Proof. induction 1; constructor. assumption. Qed.
  Lemma closed_snoc : forall l p, closed l -> closed (l ++ [(true, p); (false, p)]).
  Proof. induction 1; cbn; repeat constructor. assumption. Qed.

  Lemma sent_up_app : forall d l up l', sent_up crc fcs d up (l ++ l') = sent_up crc fcs d up l ++
    sent_up crc fcs d (fold_left (fun s x => match snd x with LinkChange d' b => if Nat.eqb d' d then b else s | _ => s end) l up) l'.
  Proof.
    induction l as [|[t o] r IH]; intros up l'; [reflexivity|].
    destruct o; cbn; rewrite ?IH; try reflexivity.
    destruct (Nat.eqb d0 d && up); cbn; rewrite ?IH; reflexivity.
  Qed.
  Lemma sent_up_other : forall d t l up, Forall (fun o => about d o = false) l ->
    sent_up crc fcs d up (map (pair t) l) = [].
  Proof.
    intros d t l up H. revert up. induction H as [|o r Ho Hr IH]; intros up; [reflexivity|].
    destruct o; cbn in *; rewrite ?Ho; cbn; auto.
  Qed.

  Definition records d w : Prop :=
    (exists M, closed M /\ tx_marks d (w_log w) = M ++ match d_busy (w_dev w d), d_cur (w_dev w d) with
                                                       | true, Some p => [(true, p)] | _, _ => [] end) /\
    length (begun d (w_log w)) = (length (ended d (w_log w)) + if d_busy (w_dev w d) then 1 else 0)%nat /\
    begun d (w_log w) = map (fun x => snd (fst x)) (transmissions d (w_log w)) /\
    sniffed d (w_log w) = begun d (w_log w) /\
    mac_tx d (w_log w) = sent_up crc fcs d false (w_log w).

  Lemma local_records : forall d w w', local crc fcs tx_time d w w' -> transmitter crc fcs d w -> records d w -> records d w'.
  Proof.
    intros d w w' L (_ & HK & line0 & free0 & _ & _ & _ & HX) ((M & HM & H1) & H2 & H3 & H4 & H5).
    assert (HB : d_busy (w_dev w d) = true -> exists p, d_cur (w_dev w d) = Some p).
    { intros B. rewrite B in HX. destruct HX as (u & p & _ & _ & C). eauto. }
    clear HX line0 free0.
    destruct L as [l E EV NW LG AB|l E EV NW LG AB|p a q U B E EV NW LG|p a q c h r U B Q C D E EV NW LG
                  |t r dest cur EV T B C Q E EV' NW LG|t r dest cur h q c EV T B C Q CH D E EV' NW LG
                  |E EV NW LG|c b E Hc Hb EV NW LG]; unfold logs in LG; unfold records;
    unfold tx_state in E; injection E as E1 E2 E3 E4 E5; rewrite E1, ?E2, LG;
    unfold tx_marks, begun, ended, sniffed, mac_tx, transmissions in *; rewrite ?flat_map_app, ?map_app, sent_up_app;
    fold (link d (w_log w)).
    - rewrite !(flat_other _ _ d); try assumption;
        try (intros t0 o Ho; destruct o; cbn in Ho |- *; try reflexivity; rewrite Ho; reflexivity).
      rewrite sent_up_other by assumption. cbn. rewrite !app_nil_r. eauto 8.
    - destruct AB as [(p & a & q & U & ->)|[(p & U & ->)|(p & a & q & U & ->)]]; cbn; rewrite ?Nat.eqb_refl, ?app_nil_r;
        cbn; rewrite ?app_nil_r, <- ?HK, ?U; cbn; rewrite ?app_nil_r.
      1, 2: eauto 8. rewrite H5. eauto 8.
    - cbn. rewrite Nat.eqb_refl. cbn. rewrite <- HK, U, ?app_nil_r. cbn. rewrite H5. rewrite B in *. eauto 8.
    - rewrite B in *. cbn. rewrite Nat.eqb_refl. cbn. rewrite <- HK, U. cbn.
      rewrite H1, H4, H5, !app_length, H2, H3. cbn.
      split; [exists M; split; [assumption|rewrite app_nil_r; reflexivity]|].
      split; [rewrite ?app_nil_r; cbn; lia|]. auto.
    - rewrite B, C in *. cbn. rewrite Nat.eqb_refl. cbn. rewrite H1, H5, !app_length, H2. cbn. rewrite !app_nil_r.
      split; [exists (M ++ [(true, cur); (false, cur)]); split; [apply closed_snoc; assumption|rewrite <- app_assoc, app_nil_r; reflexivity]|].
      split; [cbn; lia|]. auto.
    - rewrite B, C in *. cbn. rewrite Nat.eqb_refl. cbn. rewrite H1, H4, H5, !app_length, H2, H3. cbn. rewrite ?app_nil_r.
      split; [exists (M ++ [(true, cur); (false, cur)]); split; [apply closed_snoc; assumption|rewrite <- !app_assoc; reflexivity]|].
      split; [cbn; lia|]. auto.
    - cbn. rewrite !app_nil_r. eauto 8.
    - cbn. rewrite !app_nil_r. eauto 8.
  Qed.

  Lemma reachable_records : forall d w, reachable w -> records d w.
  Proof.
    intros d w R.
    assert (H : (transmitter crc fcs d w /\ records d w) /\ timely w).
    { revert w R. apply (local_invariant crc fcs tx_time has_mob d).
      - intros dk ck. split.
        + apply (reachable_transmitter crc fcs tx_time has_mob d), reachable_initial.
        + repeat split. exists []. split; [constructor|reflexivity].
      - intros w w' L [HT HR]. split; [eapply local_transmitter; eassumption|eapply local_records; eassumption]. }
    apply H.
  Qed.

  (** ** C35, C36 *)
  Lemma serve_none : forall d l, fold_left (serve crc fcs d) l None = None.
  Proof. induction l; [reflexivity|assumption]. Qed.

  Lemma service_fifo : forall d l line free line' free',
    (forall t, ~ In (t, QueueSet d) l) ->
    fold_left (serve crc fcs d) l (Some (line, free)) = Some (line', free') ->
    line ++ accepted crc fcs d l = combine (map fst (firstn (length (transmissions d l)) (line ++ accepted crc fcs d l)))
                                           (map (fun x => snd (fst x)) (transmissions d l)) ++ line' /\
    map (fun x => fst (fst x)) (transmissions d l) =
      first_come free (map fst (line ++ accepted crc fcs d l)) (map snd (transmissions d l)).
  Proof.
    intros d l. induction l as [|[t o] r IH]; intros line free line' free' HQ H.
    - cbn in *. injection H as <- <-. split; [rewrite app_nil_r; reflexivity|]. destruct (map fst (line ++ [])); reflexivity.
    - assert (HQ' : forall t, ~ In (t, QueueSet d) r) by (intros t' Ht; apply (HQ t'); right; assumption).
      cbn [fold_left] in H.
      assert (HO : about d o = false -> accepted crc fcs d ((t, o) :: r) = accepted crc fcs d r /\
                   transmissions d ((t, o) :: r) = transmissions d r).
      { intros Ho. destruct o; cbn in Ho |- *; try (split; reflexivity); rewrite Ho; try (split; reflexivity).
        destruct ok; split; reflexivity. }
      destruct (about d o) eqn:Ho.
      2:{ destruct (HO eq_refl) as [-> ->]. rewrite serve_other in H by assumption. apply IH in H; assumption. }
      clear HO. destruct o; cbn in Ho; try discriminate; apply Nat.eqb_eq in Ho; subst d0;
        try (apply IH in H; assumption).
      + destruct ok.
        * rewrite serve_sent in H. apply IH in H as [H1 H2]; [|assumption].
          unfold accepted. cbn [flat_map snd fst]. rewrite Nat.eqb_refl. fold (accepted crc fcs d r).
          change (transmissions d ((t, Sent d p dest proto own true) :: r)) with (transmissions d r).
          rewrite <- app_assoc in H1, H2. split; assumption.
        * apply IH in H; assumption.
      + unfold serve in H at 2. rewrite Nat.eqb_refl in H. cbn [negb] in H.
        destruct line as [|[arrival f] line]; [rewrite serve_none in H; discriminate|].
        set (start := match free with Some u => Z.max arrival u | None => arrival end) in *.
        destruct (Z.eqb_spec t start) as [Et|]; cbn [andb] in H; [|rewrite serve_none in H; discriminate].
        destruct (Z.eqb_spec (p_uid p) (p_uid f)) as [Eu|]; cbn [andb] in H; [|rewrite serve_none in H; discriminate].
        destruct (list_eq_dec Z.eq_dec (p_bytes p) (p_bytes f)) as [Eb|]; [|rewrite serve_none in H; discriminate].
        assert (p = f) as -> by (destruct p, f; cbn in *; congruence).
        apply IH in H as [H1 H2]; [|assumption].
        change (accepted crc fcs d ((t, ToChannel d c f dest txTime gap) :: r)) with (accepted crc fcs d r).
        unfold transmissions. cbn [flat_map snd fst]. rewrite Nat.eqb_refl. fold (transmissions d r).
        cbn [app map fst snd length firstn combine first_come]. split.
        * rewrite <- H1. reflexivity.
        * fold start. rewrite Et at 1. f_equal. rewrite H2. f_equal. f_equal. lia.
      + exfalso. apply (HQ t). left. reflexivity.
  Qed.

  Lemma service_empty : forall d l, accepted crc fcs d l = [] -> forall s, service crc fcs d l = Some s ->
    s = ([], None) /\ transmissions d l = [].
  Proof.
    intros d l. unfold service. induction l as [|[t o] r IH] using rev_ind; intros HA s H.
    - cbn in H. injection H as <-. auto.
    - unfold accepted in HA. rewrite flat_map_app in HA. apply app_eq_nil in HA as [HA1 HA2].
      fold (accepted crc fcs d r) in HA1. specialize (IH HA1).
      rewrite fold_left_app in H. cbn [fold_left] in H.
      destruct (fold_left (serve crc fcs d) r (Some ([], None))) as [s0|]; [|discriminate].
      destruct (IH s0 eq_refl) as [-> HT]. unfold transmissions. rewrite flat_map_app. fold (transmissions d r). rewrite HT.
      destruct (about d o) eqn:Ho.
      2:{ rewrite serve_other in H by assumption. injection H as <-. split; [reflexivity|].
          destruct o; cbn in Ho |- *; try reflexivity; rewrite Ho; reflexivity. }
      destruct o; cbn in Ho; try discriminate; apply Nat.eqb_eq in Ho; subst d0;
        try (injection H as <-; split; reflexivity).
      + destruct ok; [|injection H as <-; split; reflexivity]. exfalso. cbn in HA2. rewrite Nat.eqb_refl in HA2. discriminate.
      + unfold serve in H. rewrite Nat.eqb_refl in H. discriminate.
      + unfold serve in H. rewrite Nat.eqb_refl in H. injection H as <-. split; reflexivity.
  Qed.

  Notation queue_kept := (queue_kept crc fcs).

  Lemma kept_service : forall d w, reachable w -> queue_kept d (w_log w) -> exists line,
    map snd line = d_q (w_dev w d) /\
    accepted crc fcs d (w_log w) =
      combine (map fst (firstn (length (transmissions d (w_log w))) (accepted crc fcs d (w_log w))))
              (map (fun x => snd (fst x)) (transmissions d (w_log w))) ++ line /\
    map (fun x => fst (fst x)) (transmissions d (w_log w)) =
      first_come None (map fst (accepted crc fcs d (w_log w))) (map snd (transmissions d (w_log w))).
  Proof.
    intros d w R (l0 & l1 & HL & HA & HQ).
    destruct (reachable_transmitter crc fcs tx_time has_mob d w R) as [(_ & _ & line & free & HS & HM & _) _].
    exists line. split; [assumption|]. rewrite HL in *. rewrite service_app in HS.
    destruct (service crc fcs d l0) as [s|] eqn:E0; [|rewrite serve_none in HS; discriminate].
    apply service_empty in E0 as [-> ET]; [|assumption].
    apply service_fifo in HS as [H1 H2]; [|assumption].
    unfold accepted, transmissions in *. rewrite !flat_map_app, HA, ET. split; assumption.
  Qed.

  Lemma combine_snd : forall A B (a : list A) (b : list B), (length b <= length a)%nat -> map snd (combine a b) = b.
  Proof.
    induction a as [|x a IH]; intros [|y b] H; cbn in *; try reflexivity; try lia. rewrite IH by lia. reflexivity.
  Qed.
  Lemma first_come_length : forall u free a, (length (first_come free a u) = Nat.min (length a) (length u)).
  Proof. induction u as [|x u IH]; intros free [|y a]; cbn; try reflexivity. rewrite IH. reflexivity. Qed.

  Lemma accepted_order : forall d w, reachable w -> queue_kept d (w_log w) ->
    map snd (accepted crc fcs d (w_log w)) = begun d (w_log w) ++ d_q (w_dev w d).
  Proof.
    intros d w R K. destruct (kept_service d w R K) as (line & H0 & H1 & H2).
    destruct (reachable_records d w R) as (_ & _ & HB & _). rewrite HB, <- H0.
    assert (L : (length (transmissions d (w_log w)) <= length (accepted crc fcs d (w_log w)))%nat).
    { apply (f_equal (@length Z)) in H2. rewrite first_come_length, !map_length in H2. lia. }
    rewrite H1 at 1. rewrite map_app, combine_snd; [reflexivity|].
    rewrite !map_length, firstn_length. lia.
  Qed.

  Lemma begin_times : forall d w, reachable w -> queue_kept d (w_log w) ->
    map (fun x => fst (fst x)) (transmissions d (w_log w)) =
    first_come None (map fst (accepted crc fcs d (w_log w))) (map snd (transmissions d (w_log w))).
  Proof. intros d w R K. destruct (kept_service d w R K) as (line & H0 & H1 & H2). assumption. Qed.

  Lemma serve_free : forall d l line free line' free',
    (forall t c p a tx gap, ~ In (t, ToChannel d c p a tx gap) l) ->
    fold_left (serve crc fcs d) l (Some (line, free)) = Some (line', free') -> free' = free.
  Proof.
    intros d l. induction l as [|[t o] r IH]; intros line free line' free' HN H; cbn in H; [congruence|].
    assert (HN' : forall t c p a tx gap, ~ In (t, ToChannel d c p a tx gap) r) by (intros; intros X; eapply HN; right; eassumption).
    destruct (about d o) eqn:Ho; [|rewrite serve_other in H by assumption; eauto].
    destruct o; cbn in Ho; try discriminate; apply Nat.eqb_eq in Ho; subst d0; try (eapply IH; [|exact H]; assumption).
    - destruct ok; [rewrite serve_sent in H|]; eapply IH; try exact H; assumption.
    - exfalso. eapply HN. left. reflexivity.
    - unfold serve in H at 2. rewrite Nat.eqb_refl in H. eapply IH; try exact H; assumption.
  Qed.

  Lemma no_overlap : forall d w, reachable w -> forall l1 t1 c1 p1 a1 tx1 g1 l2 t2 c2 p2 a2 tx2 g2 l3,
    w_log w = l1 ++ (t1, ToChannel d c1 p1 a1 tx1 g1) :: l2 ++ (t2, ToChannel d c2 p2 a2 tx2 g2) :: l3 ->
    (forall t c p a tx gap, ~ In (t, ToChannel d c p a tx gap) l2) -> t1 + tx1 + g1 <= t2.
  Proof.
    intros d w R l1 t1 c1 p1 a1 tx1 g1 l2 t2 c2 p2 a2 tx2 g2 l3 HL HN.
    destruct (reachable_transmitter crc fcs tx_time has_mob d w R) as [(_ & _ & line & free & HS & _) _].
    rewrite HL, service_app in HS. cbn [fold_left] in HS.
    destruct (service crc fcs d l1) as [[line1 free1]|]; [|rewrite serve_none in HS; discriminate].
    unfold serve in HS at 2. rewrite Nat.eqb_refl in HS. cbn [negb] in HS.
    destruct line1 as [|[ar f] line1]; [rewrite serve_none in HS; discriminate|].
    destruct (_ && _ && _); [|rewrite serve_none in HS; discriminate].
    rewrite fold_left_app in HS. cbn [fold_left] in HS.
    destruct (fold_left _ l2 _) as [[line2 free2]|] eqn:E2; [|rewrite serve_none in HS; discriminate].
    apply serve_free in E2; [|assumption]. subst free2.
    unfold serve in HS at 2. rewrite Nat.eqb_refl in HS. cbn [negb] in HS.
    destruct line2 as [|[ar2 f2] line2]; [rewrite serve_none in HS; discriminate|].
    destruct (Z.eqb_spec t2 (Z.max ar2 (t1 + tx1 + g1))) as [E|]; cbn [andb] in HS; [lia|rewrite serve_none in HS; discriminate].
  Qed.
End Tx.
