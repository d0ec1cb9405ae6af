Require Import ZArith List Bool Lia Permutation.
Require Import Verif.Base Verif.Num Verif.FrameModel Verif.NetModel Verif.NetSpec Verif.NetSteps Verif.NetInv Verif.NetTxProofs.
Import ListNotations.
Local Open Scope Z_scope.

Section Chan.
  Context {N : Num}.
  Variable crc : list Z -> Z.
  Variable fcs : bool.
  Variable tx_time : Z -> Z -> Z.
  Variable has_mob : nat -> bool.
  Notation reachable := (@reachable N crc fcs tx_time has_mob).
  Notation run := (@run N crc fcs tx_time has_mob).
  Implicit Type w : world N.
  Notation Deliver := (@Deliver N has_mob).
  Notation deliver_all := (@deliver_all N has_mob).
  Notation hears := (@hears N has_mob).
  Notation receptions := (@receptions N has_mob).

  (** ** One destination: C46, C47 *)
  Lemma receptions_nil : forall w c src p tx, receptions w c src p tx [] w.
  Proof. intros. unfold NetSpec.receptions. cbn. rewrite app_nil_r. auto. Qed.

  Lemma Deliver_receptions : forall w c p src dst tx b w', Deliver w c p src dst tx = Ok (b, w') ->
    b = hears w c src dst /\ receptions w c src p tx (if b then [dst] else []) w'.
  Proof.
    intros w c p src dst tx b w' H. unfold NetSpec.hears.
    apply Deliver_spec in H as (m & n & E1 & E2 & [(-> & -> & C)|(-> & C & D & ->)]); rewrite E1, E2, C.
    - split; [reflexivity|apply receptions_nil].
    - split; [reflexivity|]. unfold NetSpec.receptions, delay_to, power_at. cbn. rewrite E1, E2. auto.
  Qed.

  (** ** Several destinations *)
  Lemma receptions_trans : forall w c src p tx a w1 b w2, receptions w c src p tx a w1 ->
    receptions w1 c src p tx b w2 -> receptions w c src p tx (a ++ b) w2.
  Proof.
    intros w c src p tx a w1 b w2 (N1 & D1 & C1 & L1 & E1) (N2 & D2 & C2 & L2 & E2).
    assert (HD : forall x, delay_to has_mob w1 c src x tx = delay_to has_mob w c src x tx).
    { intros x. unfold delay_to, link_delay, node_of. rewrite D1, C1, N1. reflexivity. }
    assert (HP : forall x, power_at has_mob w1 c src x = power_at has_mob w c src x).
    { intros x. unfold power_at, link_power, node_of. rewrite D1, C1, N1. reflexivity. }
    unfold NetSpec.receptions. rewrite N2, D2, C2, L2, E2, L1, E1, N1. repeat (split; [assumption || reflexivity|]). split.
    - rewrite map_app, app_assoc. f_equal. apply map_ext. intros x. rewrite HD. reflexivity.
    - rewrite fold_left_app. generalize (fold_left (fun l dst => insert_event (w_now w + delay_to has_mob w c src dst tx,
         RxEvent dst p src (power_at has_mob w c src dst)) l) a (w_events w)).
      clear - HD HP. induction b as [|x b IH]; intros l; [reflexivity|]. cbn. rewrite HD, HP. apply IH.
  Qed.

  Lemma hears_same : forall w w' c src dst, w_now w' = w_now w -> w_dev w' = w_dev w -> w_chan w' = w_chan w ->
    hears w' c src dst = hears w c src dst.
  Proof. intros w w' c src dst E1 E2 E3. unfold NetSpec.hears, cut_off, node_of. rewrite E1, E2, E3. reflexivity. Qed.

  Lemma deliver_all_receptions : forall dsts w c p src tx b w', deliver_all w c p src dsts tx = Ok (b, w') ->
    receptions w c src p tx (filter (hears w c src) dsts) w' /\ b = existsb (hears w c src) dsts.
  Proof.
    induction dsts as [|d r IH]; intros w c p src tx b w' H; cbn in H.
    - injection H as <- <-. split; [apply receptions_nil|reflexivity].
    - apply bind_ok in H as ([b1 w1] & H1 & H). apply bind_ok in H as ([b2 w2] & H2 & H). injection H as <- <-.
      apply Deliver_receptions in H1 as [-> R1]. apply IH in H2 as [R2 ->].
      assert (HS : forall x, hears w1 c src x = hears w c src x).
      { intros x. destruct R1 as (E1 & E2 & E3 & _). apply hears_same; assumption. }
      rewrite (filter_ext _ _ HS) in R2. cbn. split.
      + pose proof (receptions_trans _ _ _ _ _ _ _ _ _ R1 R2) as R3.
        destruct (hears w c src d); exact R3.
      + f_equal. clear - HS. induction r as [|x r IH]; [reflexivity|]. cbn. rewrite HS, IH. reflexivity.
  Qed.

  (** ** ISL channel: C43-C45 *)
  Lemma except_split : forall i k l, except_at k (k + i) l = firstn i l ++ skipn (S i) l.
  Proof.
    induction i as [|i IH]; intros k l.
    - rewrite Nat.add_0_r. destruct l as [|x l]; [reflexivity|]. cbn. rewrite Nat.eqb_refl.
      enough (H : forall l j, (k < j)%nat -> except_at j k l = l) by (apply H; lia).
      clear. induction l as [|x l IH]; intros j H; [reflexivity|]. cbn.
      destruct (Nat.eqb_spec j k); [lia|]. rewrite IH by lia. reflexivity.
    - destruct l as [|x l]; [reflexivity|]. cbn [except_at firstn]. destruct (Nat.eqb_spec k (k + S i)); [lia|].
      replace (k + S i)%nat with (S k + i)%nat by lia. rewrite IH. reflexivity.
  Qed.

  Lemma find_first : forall A (f : A -> bool) l x, find f l = Some x -> exists k, nth_error l k = Some x /\ f x = true /\
    forall j y, (j < k)%nat -> nth_error l j = Some y -> f y = false.
  Proof.
    induction l as [|z r IH]; intros x H; cbn in H; [discriminate|]. destruct (f z) eqn:E.
    - injection H as ->. exists 0%nat. split; [reflexivity|]. split; [assumption|]. intros. lia.
    - apply IH in H as (k & H1 & H2 & H3). exists (S k). split; [assumption|]. split; [assumption|].
      intros [|j] y Hj Hy; cbn in Hy; [congruence|]. eapply H3; [|eassumption]. lia.
  Qed.

  Lemma isl_transmit : forall w c p i dest tx b w', IslTransmitStart has_mob w c p i dest tx = Ok (b, w') ->
    let link := c_link (w_chan w c) in
    match nth_error link i with
    | None => b = false /\ w' = w
    | Some src =>
        (exists k dst, nth_error link k = Some dst /\ addr_of w dst = dest /\
           (forall j x, (j < k)%nat -> nth_error link j = Some x -> addr_of w x <> dest) /\
           b = hears w c src dst /\ receptions w c src p tx (if b then [dst] else []) w') \/
        ((forall x, In x link -> addr_of w x <> dest) /\ dest = 2 ^ 48 - 1 /\ b = true /\
           receptions w c src p tx (filter (hears w c src) (firstn i link ++ skipn (S i) link)) w') \/
        ((forall x, In x link -> addr_of w x <> dest) /\ dest <> 2 ^ 48 - 1 /\ b = false /\ w' = w)
    end.
  Proof.
    intros w c p i dest tx b w' H link. unfold IslTransmitStart in H. fold link in H.
    destruct (nth_error link i) as [src|]; [|injection H as <- <-; auto].
    unfold GetDevice in H. fold link in H. destruct (find _ link) as [dst|] eqn:F.
    - left. apply find_first in F as (k & H1 & H2 & H3). exists k, dst. split; [assumption|].
      split; [apply Z.eqb_eq; assumption|]. split.
      { intros j x Hj Hx E. specialize (H3 j x Hj Hx). apply Z.eqb_neq in H3. contradiction. }
      apply Deliver_receptions; assumption.
    - right. assert (HN : forall x, In x link -> addr_of w x <> dest).
      { intros x Hx E. eapply find_none in F; [|eassumption]. apply Z.eqb_neq in F. contradiction. }
      change broadcast with (2 ^ 48 - 1) in H. destruct (Z.eqb_spec dest (2 ^ 48 - 1)) as [E|E].
      + left. apply bind_ok in H as ([b1 w1] & H1 & H). injection H as <- <-.
        apply deliver_all_receptions in H1 as [H1 _].
        rewrite (except_split i 0) in H1. auto.
      + right. injection H as <- <-. auto.
  Qed.

  (** ** LEO channel: C41, C42 *)
  Lemma indexed_in : forall a m, indexed a m = true <-> exists d, In (a, d) m.
  Proof.
    intros a m. unfold indexed. rewrite existsb_exists. split.
    - intros ([k d] & HI & E). cbn in E. apply Z.eqb_eq in E as ->. eauto.
    - intros (d & HI). exists (a, d). split; [assumption|]. apply Z.eqb_refl.
  Qed.

  Lemma leo_transmit : forall w c p i dest tx b w', LeoTransmitStart has_mob w c p i dest tx = Ok (b, w') ->
    let ch := w_chan w c in
    match nth_error (c_link ch) i with
    | None => b = false /\ w' = w
    | Some src =>
        let on (m : list (Z * nat)) := exists x, In (addr_of w src, x) m in
        exists dsts, b = negb (match dsts with [] => true | _ => false end) /\ receptions w c src p tx dsts w' /\
        ((on (c_gnd ch) /\ ~ on (c_sat ch) /\ dsts = filter (hears w c src) (map snd (c_sat ch))) \/
         (on (c_sat ch) /\ ~ on (c_gnd ch) /\ dsts = filter (hears w c src) (map snd (c_gnd ch))) \/
         (~ on (c_gnd ch) /\ ~ on (c_sat ch) /\ dsts = []))
    end.
  Proof.
    intros w c p i dest tx b w' H ch. unfold LeoTransmitStart in H. fold ch in H.
    destruct (nth_error (c_link ch) i) as [src|]; [|injection H as <- <-; auto].
    assert (HF : forall m, indexed (addr_of w src) m = false -> ~ exists x, In (addr_of w src, x) m).
    { intros m E X. apply indexed_in in X. congruence. }
    assert (HE : forall A (f : A -> bool) l, existsb f l = negb (match filter f l with [] => true | _ => false end)).
    { intros A f l. induction l as [|x l IH]; [reflexivity|]. cbn. destruct (f x); [reflexivity|assumption]. }
    destruct (indexed _ (c_gnd ch)) eqn:G, (indexed _ (c_sat ch)) eqn:S; cbn [andb] in H; try discriminate.
    - apply deliver_all_receptions in H as [R ->]. eexists. split; [|split; [exact R|]]; [apply HE|]. left.
      split; [apply indexed_in; assumption|]. split; [apply HF; assumption|reflexivity].
    - apply deliver_all_receptions in H as [R ->]. eexists. split; [|split; [exact R|]]; [apply HE|]. right. left.
      split; [apply indexed_in; assumption|]. split; [apply HF; assumption|reflexivity].
    - injection H as <- <-. exists []. split; [reflexivity|]. split; [apply receptions_nil|]. right. right. auto.
  Qed.

  (** ** Every scheduled reception takes place: C46 *)
  Lemma waiting_insert : forall x l, Permutation (waiting (@insert_event N x l)) (waiting [x] ++ waiting l).
  Proof.
    intros x l. induction l as [|z r IH]; [cbn; rewrite !app_nil_r; reflexivity|]. cbn [insert_event].
    destruct (fst z <=? fst x); [|unfold waiting; cbn [flat_map]; rewrite app_nil_r; reflexivity]. unfold waiting in *. cbn [flat_map] in *. rewrite IH, app_nil_r.
    rewrite !app_assoc. apply Permutation_app_tail, Permutation_app_comm.
  Qed.

  Definition conserved w : Prop :=
    Permutation (scheduled (w_log w)) (performed (w_log w) ++ waiting (w_events w)).

  Lemma quiet : forall t l, Forall (fun o => match o with TxRx _ _ _ _ _ _ | PhyRxEnd _ _ _ | MacRxDrop _ _ => False | _ => True end) l ->
    scheduled (map (pair t) l) = [] /\ performed (map (pair t) l) = [].
  Proof.
    intros t l H. induction H as [|o r Ho Hr [IH1 IH2]]; [split; reflexivity|].
    unfold scheduled, performed in *. cbn. rewrite IH1, IH2. destruct o; try contradiction; split; reflexivity.
  Qed.

  Lemma conserved_quiet : forall w l (e : list (Z * ev N)) t, Forall (fun o => match o with TxRx _ _ _ _ _ _ | PhyRxEnd _ _ _ | MacRxDrop _ _ => False | _ => True end) l ->
    conserved w -> Permutation (waiting e) (waiting (w_events w)) ->
    Permutation (scheduled (w_log w ++ map (pair t) l)) (performed (w_log w ++ map (pair t) l) ++ waiting e).
  Proof.
    intros w l e t H HC HW. destruct (quiet t l H) as [H1 H2]. unfold scheduled, performed in *.
    rewrite !flat_map_app, H1, H2, !app_nil_r, HW. exact HC.
  Qed.

  Lemma micro_conserved : forall w w', micro crc fcs tx_time has_mob true every w w' -> conserved w -> conserved w'.
  Proof.
    intros w w' M HC. destruct M; unfold conserved; cbn [w_log w_events emit set_tx set_dev begin_tx pop Configure SetQueue log1
       set_link set_chan set_now]; try exact HC;
      try (apply conserved_quiet; [repeat constructor|assumption|reflexivity]).
    - apply (conserved_quiet w _ _ _); [repeat constructor|assumption|]. rewrite waiting_insert. reflexivity.
    - apply (conserved_quiet w); [repeat constructor|assumption|]. rewrite H. reflexivity.
    - apply (conserved_quiet w _ _ _); [repeat constructor|assumption|]. rewrite H, waiting_insert. reflexivity.
    - unfold scheduled, performed. rewrite !flat_map_app. cbn. rewrite app_nil_r, waiting_insert. cbn.
      etransitivity; [apply Permutation_app_comm|]. cbn. etransitivity; [|apply Permutation_middle]. constructor. exact HC.
    - assert (HL : exists o l, w' = mkWorld t (w_dev w) (w_chan w) r (w_log w ++ (t, o) :: map (pair t) l) /\
        Forall (fun o => match o with TxRx _ _ _ _ _ _ | PhyRxEnd _ _ _ | MacRxDrop _ _ => False | _ => True end) l /\
        (o = PhyRxEnd d p src \/ (o = MacRxDrop d p /\ src = d))).
      { unfold Receive in H0. destruct (Nat.eqb_spec src d) as [->|NE].
        { injection H0 as <-. exists (MacRxDrop d p), []. split; [reflexivity|]. split; [constructor|auto]. }
        rewrite !log1_emit in H0.
        assert (HX : forall l, Forall (fun o => match o with TxRx _ _ _ _ _ _ | PhyRxEnd _ _ _ | MacRxDrop _ _ => False | _ => True end) l ->
          emit (emit (pop w t r) [PhyRxEnd d p src]) l = w' -> exists o l, w' = mkWorld t (w_dev w) (w_chan w) r (w_log w ++ (t, o) :: map (pair t) l) /\
          Forall (fun o => match o with TxRx _ _ _ _ _ _ | PhyRxEnd _ _ _ | MacRxDrop _ _ => False | _ => True end) l /\
          (o = PhyRxEnd d p src \/ (o = MacRxDrop d p /\ src = d))).
        { intros l Hl <-. exists (PhyRxEnd d p src), l. split; [|auto]. rewrite emit_emit. reflexivity. }
        destruct (nlt N _ _); [injection H0 as H0; eapply HX; [|exact H0]; repeat constructor|].
        destruct (match g_err _ with Some _ => _ | None => _ end); [injection H0 as H0; eapply HX; [|exact H0]; repeat constructor|].
        apply bind_ok in H0 as (r0 & _ & H0). destruct r0 as [|payload protocol from to].
        { injection H0 as H0. rewrite ?log1_emit in H0. eapply HX; [|exact H0]. repeat constructor. }
        destruct (g_pcb _); rewrite !log1_emit in H0;
        destruct (classify _ _); try destruct (g_rxcb _); try discriminate; injection H0 as H0;
          rewrite ?log1_emit, ?emit_emit in H0; rewrite <- H0;
          eexists _, _; (split; [reflexivity|split; [repeat constructor|auto]]). }
      destruct HL as (o & l & -> & Hl & Ho). cbn [w_log w_events].
      destruct (quiet t l Hl) as [H1 H2]. unfold conserved in HC. rewrite H in HC.
      unfold scheduled, performed, waiting in *. rewrite !flat_map_app. cbn in HC |- *. rewrite H1, H2.
      destruct Ho as [->|[-> ->]]; cbn; rewrite app_nil_r, <- app_assoc; exact HC.
    - apply (conserved_quiet w [QueueSet d] _ (w_now w)); [repeat constructor|assumption|reflexivity].
    - apply Attach_spec in H as (g & s & _ & _ & _ & _ & _ & HN & HE & HL & _). rewrite HE, HL.
      apply (conserved_quiet w [LinkChange d true] _ (w_now w)); [repeat constructor|assumption|reflexivity].
    - apply (conserved_quiet w [LinkChange d false] _ (w_now w)); [repeat constructor|assumption|reflexivity].
  Qed.

  Lemma reachable_conserved : forall w, reachable w -> conserved w.
  Proof.
    apply invariant; [intros; constructor|]. intros w w' M _ HC. eapply micro_conserved; eassumption.
  Qed.

  (** ** Indices: C48 *)
  Lemma micro_links : forall w w' c, micro crc fcs tx_time has_mob true every w w' ->
    exists ext, c_link (w_chan w' c) = c_link (w_chan w c) ++ ext.
  Proof.
    intros w w' c M. destruct M; try (exists []; rewrite app_nil_r; reflexivity).
    - apply Receive_emit in H0 as (l & ->). exists []. rewrite app_nil_r. reflexivity.
    - apply Attach_spec in H as (g & s & _ & _ & _ & _ & _ & _ & _ & _ & _ & _ & HC & HC').
      destruct (Nat.eq_dec c c0) as [->|NE]; [rewrite HC'; eexists; reflexivity|].
      rewrite HC by assumption. exists []. rewrite app_nil_r. reflexivity.
    - exists []. rewrite app_nil_r. cbn. unfold upd. destruct (Nat.eqb_spec c c0) as [->|]; reflexivity.
  Qed.
  Lemma micros_links : forall w w' c, micros crc fcs tx_time has_mob true every w w' ->
    exists ext, c_link (w_chan w' c) = c_link (w_chan w c) ++ ext.
  Proof.
    induction 1; [exists []; rewrite app_nil_r; reflexivity|].
    destruct IHmicros as (e2 & ->). destruct (micro_links _ _ c H) as (e1 & ->). exists (e1 ++ e2). rewrite app_assoc. reflexivity.
  Qed.
  Lemma run_links : forall w ops w' c, reachable w -> run w ops = Ok w' ->
    exists ext, c_link (w_chan w' c) = c_link (w_chan w c) ++ ext.
  Proof.
    intros w ops w' c R H. eapply micros_links. eapply run_micros; [|eassumption].
    apply (reachable_indexed _ _ _ _ w R).
  Qed.
End Chan.
