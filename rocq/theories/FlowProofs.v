Require Import ZArith List Bool Lia.
Require Import Verif.Base Verif.Num Verif.FrameModel Verif.NetModel Verif.NetSpec Verif.NetSteps Verif.NetSendProofs
  Verif.TraceModel Verif.TraceProofs Verif.LifeModel Verif.LifeSpec.
Import ListNotations.
Local Open Scope Z_scope.

Lemma told_app : forall q a b, told q (a ++ b) = told q a + told q b.
Proof.
  intros q a b. induction a as [|[[i s] p] a IH]; [reflexivity|]. cbn [app told fold_right].
  fold (told q (a ++ b)). fold (told q a). destruct (Nat.eqb i q); [destruct s|]; lia.
Qed.
Lemma bytes_app : forall a b, bytes (a ++ b) = bytes a + bytes b.
Proof. induction a as [|p a IH]; intros b; [reflexivity|]. cbn. fold (bytes (a ++ b)). fold (bytes a). rewrite IH. lia. Qed.

(** Bytes enqueued less dequeued at device d, among firings. *)
Definition flow (d : nat) (l : list (Z * (nat * source * pkt))) : Z :=
  fold_right (fun x n => let '(_, (e, s, p)) := x in
                if Nat.eqb e d then match s with
                                    | SEnqueue => Z.of_nat (length (p_bytes p)) + n
                                    | SDequeue => n - Z.of_nat (length (p_bytes p))
                                    | _ => n end
                else n) 0 l.
Lemma flow_app : forall d a b, flow d (a ++ b) = flow d a + flow d b.
Proof.
  intros d a b. induction a as [|[t [[e s] p]] a IH]; [reflexivity|]. cbn [app flow fold_right].
  fold (flow d (a ++ b)). fold (flow d a). destruct (Nat.eqb e d); [destruct s|]; lia.
Qed.

Section Flow.
  Context {N : Num}.
  Variable crc : list Z -> Z.
  Variable fcs : bool.
  Variable tx_time : Z -> Z -> Z.
  Variable has_mob : nat -> bool.
  Notation step := (@step N crc fcs tx_time has_mob).
  Notation run := (@run N crc fcs tx_time has_mob).
  Notation ystep := (@ystep N crc fcs tx_time has_mob).
  Notation yrun := (@yrun N crc fcs tx_time has_mob).
  Implicit Type w : world N.

  (** The queue of d grows by what fires. *)
  Definition grows (d : nat) w w' : Prop := exists l, w_log w' = w_log w ++ l /\ sealed l = true /\
    flow d (fired l) = bytes (d_q (w_dev w' d)) - bytes (d_q (w_dev w d)).
  Lemma grows_refl : forall d w, grows d w w.
  Proof. intros d w. exists []. rewrite app_nil_r. repeat split. cbn. lia. Qed.
  Lemma grows_trans : forall d a b c, grows d a b -> grows d b c -> grows d a c.
  Proof.
    intros d a b c (l & L & S & F) (l' & L' & S' & F'). exists (l ++ l'). rewrite L', L, app_assoc. split; [reflexivity|].
    split; [apply sealed_app; assumption|]. rewrite fired_app, flow_app by assumption. lia.
  Qed.
  Lemma grows_log : forall d w w' l, w_log w' = w_log w ++ l -> sealed l = true -> flow d (fired l) = 0 ->
    d_q (w_dev w' d) = d_q (w_dev w d) -> grows d w w'.
  Proof. intros d w w' l L S F Q. exists l. rewrite Q. repeat split; try assumption. lia. Qed.

  Lemma micro_grows : forall d w w', micro crc fcs tx_time has_mob false (fun _ _ _ => True) w w' -> grows d w w'.
  Proof.
    intros d w w' H. destruct H; try discriminate.
    - eapply grows_log; reflexivity.
    - eapply grows_log; reflexivity.
    - eapply grows_log; [reflexivity|reflexivity| |reflexivity]. cbn. destruct (Nat.eqb d0 d); reflexivity.
    - remember (frame_of crc fcs p a q (addr_of w d0)) as f.
      eexists. split; [reflexivity|]. split; [reflexivity|]. cbn. unfold upd. rewrite (Nat.eqb_sym d d0). destruct (Nat.eqb_spec d0 d) as [->|]; [|lia].
      cbn. rewrite bytes_app. cbn. lia.
    - remember (frame_of crc fcs p a q (addr_of w d0)) as f.
      eexists. split; [reflexivity|]. split; [reflexivity|]. cbn. unfold upd. rewrite (Nat.eqb_sym d d0). destruct (Nat.eqb_spec d0 d) as [->|]; [|lia].
      cbn. pose proof (f_equal bytes H3) as E. rewrite bytes_app in E. cbn in E. fold (bytes r) in E. fold (bytes r). lia.
    - eapply grows_log; [reflexivity|reflexivity|reflexivity|]. cbn. unfold upd. destruct (Nat.eqb_spec d d0) as [->|]; reflexivity.
    - eexists. split; [reflexivity|]. split; [reflexivity|]. cbn. unfold upd. rewrite (Nat.eqb_sym d d0). destruct (Nat.eqb_spec d0 d) as [->|]; [|lia].
      cbn. rewrite H3. cbn. fold (bytes q). lia.
    - eapply (grows_log _ _ _ [_]); reflexivity.
    - eapply grows_log; reflexivity.
    - apply Receive_table in H0 as (new & -> & D). cbn [w_dev w_log w_now pop] in *.
      eapply grows_log; [reflexivity| | |reflexivity];
        destruct D as [(_ & ->)|[(_ & _ & p' & _ & ->)|(_ & _ & payload & proto & ty & _ & ->)]];
        try destruct (g_pcb _); try destruct ty; try reflexivity;
        cbn; destruct (Nat.eqb d0 d); reflexivity.
    - eapply (grows_log _ _ _ []); try reflexivity. cbn. rewrite app_nil_r. reflexivity.
  Qed.
  Lemma micros_grows : forall d w w', micros crc fcs tx_time has_mob false (fun _ _ _ => True) w w' -> grows d w w'.
  Proof. induction 1; [apply grows_refl|]. eapply grows_trans; [apply micro_grows|]; eassumption. Qed.

  Lemma step_grows : forall d w o w', indexed_ok w -> (forall f, o <> OSetQueue d f) -> step w o = Ok w' -> grows d w w'.
  Proof.
    intros d w o w' HI HQ H. destruct (external o) eqn:E.
    2:{ apply micros_grows. eapply step_micros; try eassumption; [rewrite E; discriminate|auto]. }
    destruct o; try discriminate; cbn in H.
    - injection H as <-. apply (grows_log _ _ _ []); try reflexivity; [cbn; rewrite app_nil_r; reflexivity|].
      unfold Configure, set_dev. cbn. unfold upd. destruct (Nat.eqb_spec d d0) as [->|]; reflexivity.
    - injection H as <-. eapply grows_log; try reflexivity. cbn. unfold upd. destruct (Nat.eqb_spec d d0) as [->|]; [|reflexivity].
      exfalso. eapply HQ. reflexivity.
    - apply Attach_spec in H as (g & s & _ & _ & _ & _ & _ & _ & _ & L & HD & HE & _). eapply grows_log; [exact L|reflexivity|reflexivity|].
      destruct (Nat.eq_dec d d0) as [->|n]; [rewrite HE; reflexivity|rewrite HD by assumption; reflexivity].
    - apply bind_ok in H as ([b w1] & H & X). injection X as <-. unfold ChannelDetach in H.
      assert (B : forall x, BaseDetach x c i = (b, w1) -> grows d x w1).
      { intros x Hx. unfold BaseDetach in Hx. destruct (nth_error (c_link (w_chan x c)) i) as [e|]; [|injection Hx as <- <-; apply grows_refl].
        destruct (d_up (w_dev x e)); injection Hx as <- <-; [|apply grows_refl].
        eapply grows_log; [reflexivity|reflexivity|reflexivity|]. cbn. unfold upd. destruct (Nat.eqb_spec d e) as [->|]; reflexivity. }
      destruct (c_kind (w_chan w c)); [injection H as H; auto|]. destruct (nth_error _ i); [|discriminate]. injection H as H. apply B in H.
      destruct H as (l & L & S & F). exists l. auto.
    - injection H as <-. eapply grows_log; [reflexivity|reflexivity|reflexivity|]. cbn. unfold upd. destruct (Nat.eqb_spec d d0) as [->|]; reflexivity.
    - injection H as <-. apply (grows_log _ _ _ []); try reflexivity. cbn. rewrite app_nil_r. reflexivity.
    - injection H as <-. apply (grows_log _ _ _ []); try reflexivity. cbn. rewrite app_nil_r. reflexivity.
  Qed.

  (** What the interface q hears of a list of observations. *)
  Definition heard_by (y : system N) (q d : nat) : Z := Z.of_nat (count_occ Nat.eq_dec (s_conn (y_side y d)) q).
  Lemma told_map : forall q s p l, told q (map (fun i => (i, s, p)) l) =
    Z.of_nat (count_occ Nat.eq_dec l q) * match s with SEnqueue => Z.of_nat (length (p_bytes p)) | SDequeue => - Z.of_nat (length (p_bytes p)) | _ => 0 end.
  Proof.
    intros q s p l. induction l as [|i l IH]; [cbn; lia|]. cbn [map told fold_right count_occ]. fold (told q (map (fun i => (i, s, p)) l)).
    rewrite IH. destruct (Nat.eq_dec i q) as [->|n]; [rewrite Nat.eqb_refl|apply Nat.eqb_neq in n; rewrite n; lia].
    rewrite Nat2Z.inj_succ. destruct s; lia.
  Qed.
  Lemma told_reports : forall (y : system N) q d l, (forall e, e <> d -> ~ In q (s_conn (y_side y e))) ->
    told q (queue_reports y l) = heard_by y q d * flow d (fired l).
  Proof.
    intros y q d l HO. unfold queue_reports. induction (fired l) as [|[t [[e s] p]] f IH]; [cbn; lia|].
    cbn [flat_map flow fold_right]. fold (flow d f). rewrite told_app, IH. unfold heard_by.
    destruct (Nat.eqb_spec e d) as [->|n].
    - destruct s; cbn [of_queue]; try (rewrite told_map); cbn; lia.
    - destruct (of_queue s); [|cbn; lia]. rewrite told_map. rewrite (proj1 (count_occ_not_In Nat.eq_dec _ _) (HO e n)). lia.
  Qed.

  Lemma dispose_indexed : forall w d, indexed_ok w -> indexed_ok (DoDispose w d).
  Proof.
    intros w d HI e c. unfold DoDispose, set_dev. cbn. unfold upd. destruct (Nat.eqb_spec e d) as [->|]; [discriminate|]. apply HI.
  Qed.
  Lemma step_indexed : forall w o w', indexed_ok w -> step w o = Ok w' -> indexed_ok w'.
  Proof.
    intros w o w' HI H. eapply micros_indexed; [|exact HI]. eapply (step_micros _ _ _ _ true (fun _ _ _ => True)); try eassumption; auto.
  Qed.
  Lemma ystep_indexed : forall y o y', indexed_ok (y_net y) -> ystep y o = Ok y' -> indexed_ok (y_net y').
  Proof.
    intros y o y' HI H. destruct o; cbn in H.
    - unfold net_step in H. apply bind_ok in H as (w & H & X). injection X as <-. eapply step_indexed; eassumption.
    - injection H as <-. exact HI.
    - injection H as <-. exact HI.
    - injection H as <-. exact HI.
    - unfold AggregateObject in H. destruct o, (s_object (y_side y d)); try discriminate; injection H as <-; exact HI.
    - unfold ConnectQueueTraces in H. destruct (d_queue _); [|discriminate]. injection H as <-. exact HI.
    - unfold Initialize in H. destruct (s_initialized _); [injection H as <-; exact HI|]. apply bind_ok in H as (y1 & H & X). injection X as <-.
      unfold DoInitialize, ConnectQueueTraces in H. cbn. destruct (s_iface _); [destruct (d_queue _); [|discriminate]|]; injection H as <-; exact HI.
    - injection H as <-. unfold Dispose. destruct (s_disposed _); [exact HI|]. apply dispose_indexed, HI.
  Qed.
  Lemma yrun_indexed : forall ops y y', indexed_ok (y_net y) -> yrun y ops = Ok y' -> indexed_ok (y_net y').
  Proof.
    induction ops as [|o r IH]; intros y y' HI H; cbn in H; [injection H as <-; exact HI|].
    apply bind_ok in H as (y1 & H1 & H). eapply IH; [|exact H]. eapply ystep_indexed; eassumption.
  Qed.
  Lemma yreachable_indexed : forall (y : system N), yreachable crc fcs tx_time has_mob y -> indexed_ok (y_net y).
  Proof. intros y (dk & ck & ops & H). eapply yrun_indexed; [|exact H]. apply initial_indexed. Qed.

  Lemma notify_conn : forall s, s_conn (NotifyNewAggregate s) = s_conn s.
  Proof. intros s. unfold NotifyNewAggregate. destruct (s_iface s), (s_object s); reflexivity. Qed.
  Lemma keeps_step : forall y o y', keeps_queues o -> ystep y o = Ok y' -> forall e, s_conn (y_side y' e) = s_conn (y_side y e).
  Proof.
    intros y o y' K H e. destruct o; cbn in K, H; try contradiction.
    - unfold net_step in H. apply bind_ok in H as (w & H & X). injection X as <-. cbn. destruct o; try reflexivity. contradiction.
    - injection H as <-. cbn. unfold upd. destruct (Nat.eqb_spec e d) as [->|]; reflexivity.
    - injection H as <-. cbn. unfold upd. destruct (Nat.eqb_spec e d) as [->|]; reflexivity.
    - injection H as <-. reflexivity.
    - unfold AggregateObject in H. destruct o, (s_object (y_side y d)); try discriminate; injection H as <-; cbn; unfold upd;
        (destruct (Nat.eqb_spec e d) as [->|]; [rewrite notify_conn|]; reflexivity).
  Qed.
  Lemma keeps_told : forall y o y' d q, indexed_ok (y_net y) -> keeps_queues o -> (forall e, e <> d -> ~ In q (s_conn (y_side y e))) ->
    ystep y o = Ok y' -> exists notes, y_notes y' = y_notes y ++ notes /\
      told q notes = heard_by y q d * (bytes (d_q (w_dev (y_net y') d)) - bytes (d_q (w_dev (y_net y) d))).
  Proof.
    intros y o y' d q HI K HO H. destruct o; cbn in K, H; try contradiction;
      try (injection H as <-; exists []; rewrite app_nil_r; cbn; split; [reflexivity|lia]).
    - unfold net_step in H. apply bind_ok in H as (w & H & X). injection X as <-. cbn [y_notes y_net].
      apply (step_grows d) in H as (l & L & _ & F); [|assumption|intros f ->; exact K].
      rewrite L. eexists. split; [reflexivity|]. rewrite skipn_app, skipn_all, Nat.sub_diag. cbn [app skipn].
      rewrite (told_reports y q d l HO), F. reflexivity.
    - exists []. rewrite app_nil_r. unfold AggregateObject in H.
      destruct o, (s_object (y_side y d0)); try discriminate; injection H as <-; cbn; split; try reflexivity; lia.
  Qed.
  Theorem reported : forall ops y y' d q, indexed_ok (y_net y) -> Forall keeps_queues ops ->
    (forall e, e <> d -> ~ In q (s_conn (y_side y e))) -> yrun y ops = Ok y' ->
    exists notes, y_notes y' = y_notes y ++ notes /\
      told q notes = heard_by y q d * (bytes (d_q (w_dev (y_net y') d)) - bytes (d_q (w_dev (y_net y) d))).
  Proof.
    induction ops as [|o r IH]; intros y y' d q HI HK HO H; cbn in H.
    - injection H as <-. exists []. rewrite app_nil_r. split; [reflexivity|]. cbn. lia.
    - apply bind_ok in H as (y1 & H1 & H). inversion HK as [|? ? K1 K2]; subst.
      pose proof (keeps_step y o y1 K1 H1) as C.
      destruct (keeps_told y o y1 d q HI K1 HO H1) as (n1 & E1 & T1).
      destruct (IH y1 y' d q) as (n2 & E2 & T2); try assumption; [eapply ystep_indexed; eassumption|intros e He; rewrite C; auto|].
      exists (n1 ++ n2). rewrite E2, E1, app_assoc. split; [reflexivity|]. rewrite told_app, T1, T2. unfold heard_by. rewrite C. lia.
  Qed.

  (** ** Installed devices *)
  Definition at_conn (y : system N) d l : Prop :=
    s_conn (y_side y d) = l.
  Lemma leaves_step : forall y o y' d, leaves_queue d o -> ystep y o = Ok y' ->
    s_conn (y_side y' d) = s_conn (y_side y d) /\ s_object (y_side y' d) = s_object (y_side y d) /\
    (forall q, s_iface (y_side y d) = Some q -> s_iface (y_side y' d) = Some q) /\
    s_initialized (y_side y' d) = s_initialized (y_side y d).
  Proof.
    intros y o y' d K H. destruct o; cbn in K, H.
    - unfold net_step in H. apply bind_ok in H as (w & H & X). injection X as <-. cbn. destruct o; try (repeat split; auto; fail).
      rewrite upd_other by congruence. repeat split; auto.
    - injection H as <-. cbn. unfold upd. destruct (Nat.eqb_spec d d0) as [->|]; repeat split; auto.
    - injection H as <-. cbn. unfold upd. destruct (Nat.eqb_spec d d0) as [->|]; repeat split; auto.
    - injection H as <-. repeat split; auto.
    - unfold AggregateObject in H. destruct o as [q|].
      + destruct (s_object _); [discriminate|]. injection H as <-. cbn. rewrite upd_other by congruence. repeat split; auto.
      + injection H as <-. cbn. unfold upd. destruct (Nat.eqb_spec d d0) as [->|]; [|repeat split; auto].
        unfold NotifyNewAggregate. destruct (s_iface (y_side y d0)) eqn:E1, (s_object (y_side y d0)) eqn:E2; cbn; rewrite ?E1, ?E2; repeat split; auto; intros; discriminate.
    - unfold ConnectQueueTraces in H. destruct (d_queue _); [|discriminate]. injection H as <-. cbn. rewrite upd_other by congruence. repeat split; auto.
    - unfold Initialize in H. destruct (s_initialized (y_side y d0)); [injection H as <-; repeat split; auto|]. apply bind_ok in H as (y1 & H & X). injection X as <-.
      cbn. rewrite upd_other by congruence. unfold DoInitialize, ConnectQueueTraces in H.
      destruct (s_iface _); [destruct (d_queue _); [|discriminate]|]; injection H as <-; cbn; rewrite ?upd_other by congruence; repeat split; auto.
    - injection H as <-. unfold Dispose. destruct (s_disposed _); [repeat split; auto|]. cbn. rewrite upd_other by congruence. repeat split; auto.
  Qed.
  Lemma leaves_run : forall ops y y' d, Forall (leaves_queue d) ops -> yrun y ops = Ok y' ->
    s_conn (y_side y' d) = s_conn (y_side y d) /\
    (forall q, s_iface (y_side y d) = Some q -> s_iface (y_side y' d) = Some q) /\
    s_initialized (y_side y' d) = s_initialized (y_side y d).
  Proof.
    induction ops as [|o r IH]; intros y y' d HK H; cbn in H; [injection H as <-; auto|].
    apply bind_ok in H as (y1 & H1 & H). inversion HK as [|? ? K1 K2]; subst.
    destruct (leaves_step y o y1 d K1 H1) as (A1 & _ & A2 & A3). destruct (IH y1 y' d K2 H) as (B1 & B2 & B3).
    rewrite B1, B3. auto.
  Qed.
  Lemma yrun_app : forall a b y, yrun y (a ++ b) = bind (yrun y a) (fun y1 => yrun y1 b).
  Proof.
    induction a as [|o a IH]; intros b y; [reflexivity|]. cbn. destruct (ystep y o) as [y1|e|e]; cbn; [apply IH|reflexivity|reflexivity].
  Qed.
  Lemma initialize_conn : forall (y : system N) y' d q, s_initialized (y_side y d) = false -> s_iface (y_side y d) = Some q ->
    Initialize y d = Ok y' -> s_conn (y_side y' d) = s_conn (y_side y d) ++ [q].
  Proof.
    intros y y' d q HI HF H. unfold Initialize in H. rewrite HI in H. apply bind_ok in H as (y1 & H & X). injection X as <-.
    unfold DoInitialize in H. rewrite HF in H. unfold ConnectQueueTraces in H. destruct (d_queue _); [|discriminate]. injection H as <-.
    cbn. rewrite !upd_same. reflexivity.
  Qed.
  (** Aggregation (by a helper, connecting first or not), then initialisation. *)
  Lemma aggregated_conn : forall (y : system N) y1 y2 y3 d q mid, s_object (y_side y d) = None -> s_iface (y_side y d) = None ->
    s_initialized (y_side y d) = false -> AggregateObject y d (Some q) = Ok y1 -> Forall (leaves_queue d) mid ->
    yrun y1 mid = Ok y2 -> Initialize y2 d = Ok y3 -> s_conn (y_side y3 d) = s_conn (y_side y d) ++ [q].
  Proof.
    intros y y1 y2 y3 d q mid HO HF HI H1 HM H2 H3. unfold AggregateObject in H1. rewrite HO in H1. injection H1 as <-.
    apply (leaves_run mid _ _ d HM) in H2 as (A1 & A2 & A3). cbn in A1, A2, A3. rewrite upd_same in A1, A2, A3.
    unfold NotifyNewAggregate in A1, A2, A3. cbn in A1, A2, A3. rewrite HF in A1, A2, A3. cbn in A1, A2, A3.
    rewrite (initialize_conn y2 y3 d q); [rewrite A1; reflexivity|rewrite A3; exact HI|apply A2; reflexivity|exact H3].
  Qed.
End Flow.
