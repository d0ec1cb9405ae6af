(** Invariants of the transmitter of a device. *)
Require Import ZArith List Bool Lia Sorted.
Require Import Verif.Base Verif.Num Verif.FrameModel Verif.NetModel Verif.NetSpec Verif.NetSteps.
Import ListNotations.
Local Open Scope Z_scope.

(** Observations concerning the transmitter of d. *)
Definition about (d : nat) (o : obs) : bool :=
  match o with
  | Sent d' _ _ _ _ _ | MacTx d' _ | MacTxDrop d' _ | PhyTxBegin d' _ | PhyTxEnd d' _ | Sniffer d' _
  | ToChannel d' _ _ _ _ _ | LinkChange d' _ | QueueSet d' => Nat.eqb d' d
  | _ => false
  end.

Arguments ends : simpl never.
Arguments serve : simpl never.

Section Inv.
  Context {N : Num}.
  Variable crc : list Z -> Z.
  Variable fcs : bool.
  Variable tx_time : Z -> Z -> Z.
  Variable has_mob : nat -> bool.
  Notation reachable := (@reachable N crc fcs tx_time has_mob).
  Notation micro := (@micro N crc fcs tx_time has_mob true every).
  Implicit Type w : world N.

  (** ** Time *)
  Definition timely w : Prop :=
    StronglySorted (fun x y => fst x <= fst y) (w_events w) /\ Forall (fun x => w_now w <= fst x) (w_events w).

  Lemma insert_in : forall (x : Z * ev N) l y, In y (insert_event x l) <-> y = x \/ In y l.
  Proof.
    clear crc fcs tx_time has_mob.
    induction l as [|z r IH]; intros y; cbn; [intuition|].
    destruct (fst z <=? fst x); cbn; [rewrite IH|]; intuition.
  Qed.

  Lemma insert_sorted : forall (x : Z * ev N) l, StronglySorted (fun x y => fst x <= fst y) l ->
    StronglySorted (fun x y => fst x <= fst y) (insert_event x l).
  Proof.
    induction 1 as [|z r Hr IH Hz]; cbn; [repeat constructor|].
    destruct (Z.leb_spec (fst z) (fst x)) as [L|L].
    - constructor; [assumption|]. apply Forall_forall. intros y Hy. apply insert_in in Hy as [->|Hy]; [assumption|].
      eapply Forall_forall in Hz; eassumption.
    - constructor; [constructor; assumption|]. constructor; [lia|].
      eapply Forall_impl; [|eassumption]. cbn. lia.
  Qed.

  Lemma insert_timely : forall now (x : Z * ev N) l, now <= fst x ->
    StronglySorted (fun x y => fst x <= fst y) l /\ Forall (fun x => now <= fst x) l ->
    StronglySorted (fun x y => fst x <= fst y) (insert_event x l) /\ Forall (fun x => now <= fst x) (insert_event x l).
  Proof.
    intros now x l Hx [H1 H2]. split; [apply insert_sorted; assumption|].
    apply Forall_forall. intros y Hy. apply insert_in in Hy as [->|Hy]; [assumption|].
    eapply Forall_forall in H2; eassumption.
  Qed.

  Lemma pop_timely : forall w t e r, timely w -> w_events w = (t, e) :: r -> timely (pop w t r) /\ w_now w <= t.
  Proof.
    intros w t e r [H1 H2] E. rewrite E in *. inversion H1 as [|? ? H3 H4]; subst. inversion H2; subst.
    split; [split; [assumption|]|assumption]. exact H4.
  Qed.

  Lemma tx_dur_pop : forall w t r d h, @tx_duration N tx_time (pop w t r) d h = tx_duration tx_time w d h.
  Proof. reflexivity. Qed.

  Lemma micro_timely : forall w w', micro w w' -> timely w -> timely w'.
  Proof.
    intros w w' M T. destruct M; try exact T.
    - unfold timely, begin_tx, set_tx, set_dev. cbn. rewrite upd_same. cbn. apply insert_timely; [|exact T].
      unfold tx_duration in H5. cbn. lia.
    - eapply pop_timely in T as [T _]; [|eassumption]. exact T.
    - eapply pop_timely in T as [T _]; [|eassumption]. unfold timely, begin_tx, set_tx, set_dev. cbn. rewrite !upd_same. cbn.
      apply insert_timely; [|exact T]. unfold tx_duration in H5. cbn. lia.
    - apply insert_timely; [cbn; lia|exact T].
    - apply Receive_emit in H0 as (l & ->). eapply pop_timely in T as [T _]; [|eassumption]. exact T.
    - apply Attach_spec in H as (g & s & _ & _ & _ & _ & _ & HN & HE & _). unfold timely. rewrite HN, HE. exact T.
    - destruct T as [T1 T2]. split; [exact T1|]. cbn. apply Forall_forall. intros x Hx.
      destruct (w_events w) as [|[t' e] r]; [destruct Hx|].
      inversion T1 as [|? ? T3 T4]; subst. destruct Hx as [<-|Hx]; [assumption|].
      eapply Forall_forall in T4; [|eassumption]. cbn in T4. lia.
  Qed.

  (** ** Pending ends *)
  Lemma ends_insert_other : forall d (x : Z * ev N) l, (forall t dest, x <> (t, TxComplete d dest)) ->
    ends d (insert_event x l) = ends d l.
  Proof.
    intros d [t e] l H. assert (E : forall r, ends d ((t, e) :: r) = ends d r).
    { intros r. unfold ends. cbn. destruct e as [d' dest|]; [|reflexivity].
      destruct (Nat.eqb_spec d' d) as [->|]; [exfalso; eapply H; reflexivity|reflexivity]. }
    induction l as [|z r IH]; [apply E|]. cbn [insert_event].
    destruct (fst z <=? fst (t, e)); [|apply E].
    unfold ends in *. cbn [flat_map]. rewrite IH. reflexivity.
  Qed.
  Lemma ends_insert_self : forall d t dest (l : list (Z * ev N)), ends d l = [] ->
    ends d (insert_event (t, TxComplete d dest) l) = [t].
  Proof.
    intros d t dest l. assert (E : forall r : list (Z * ev N), ends d ((t, TxComplete d dest) :: r) = t :: ends d r).
    { intros r. unfold ends. cbn. rewrite Nat.eqb_refl. reflexivity. }
    induction l as [|z r IH]; intros H; [apply E|]. cbn [insert_event].
    destruct (fst z <=? fst (t, TxComplete d dest)).
    - unfold ends in *. cbn [flat_map] in *. apply app_eq_nil in H as [H1 H2]. rewrite H1, IH by assumption. reflexivity.
    - rewrite E. rewrite H. reflexivity.
  Qed.
  Lemma ends_cons_other : forall d t e (r : list (Z * ev N)), (forall dest, e <> TxComplete d dest) ->
    ends d ((t, e) :: r) = ends d r.
  Proof.
    intros d t e r H. unfold ends. cbn. destruct e as [d' dest|]; [|reflexivity].
    destruct (Nat.eqb_spec d' d) as [->|]; [exfalso; eapply H; reflexivity|reflexivity].
  Qed.
  Lemma ends_cons_self : forall d t dest (r : list (Z * ev N)), ends d ((t, TxComplete d dest) :: r) = t :: ends d r.
  Proof. intros. unfold ends. cbn. rewrite Nat.eqb_refl. reflexivity. Qed.

  (** Pending ends with their destination. *)
  Definition pend (d : nat) (events : list (Z * ev N)) : list (Z * Z) :=
    flat_map (fun x => match snd x with
                       | TxComplete d' dest => if Nat.eqb d' d then [(fst x, dest)] else []
                       | _ => [] end) events.
  Arguments pend : simpl never.
  Lemma ends_pend : forall d l, ends d l = map fst (pend d l).
  Proof.
    intros d l. unfold ends. induction l as [|[t e] r IH]; [reflexivity|]. unfold pend. cbn.
    rewrite map_app, IH. destruct e as [d' dest|]; [destruct (Nat.eqb d' d)|]; reflexivity.
  Qed.
  Lemma pend_cons_other : forall d t e r, (forall dest, e <> TxComplete d dest) -> pend d ((t, e) :: r) = pend d r.
  Proof.
    intros d t e r H. unfold pend. cbn. destruct e as [d' dest|]; [|reflexivity].
    destruct (Nat.eqb_spec d' d) as [->|]; [exfalso; eapply H; reflexivity|reflexivity].
  Qed.
  Lemma pend_insert_other : forall d t e l, (forall dest, e <> TxComplete d dest) ->
    pend d (insert_event (t, e) l) = pend d l.
  Proof.
    intros d t e l H. induction l as [|z r IH]; [apply pend_cons_other; assumption|]. cbn [insert_event].
    destruct (fst z <=? fst (t, e)); [|apply pend_cons_other; assumption].
    unfold pend in *. cbn [flat_map]. rewrite IH. reflexivity.
  Qed.
  Lemma pend_in : forall d t dest l, In (t, dest) (pend d l) <-> In (t, TxComplete d dest) l.
  Proof.
    intros d t dest l. unfold pend. rewrite in_flat_map. split.
    - intros ([t' e] & HI & H). destruct e as [d' dest'|]; [|destruct H]. cbn in H.
      destruct (Nat.eqb_spec d' d) as [->|]; [|destruct H]. destruct H as [H|[]]. injection H as -> ->. assumption.
    - intros H. eexists. split; [eassumption|]. cbn. rewrite Nat.eqb_refl. left. reflexivity.
  Qed.

  (** ** The view of one device *)
  Definition logs w w' (l : list obs) : Prop := w_log w' = w_log w ++ map (pair (w_now w')) l.

  Definition tx_state w d : bool * option pkt * list pkt * option nat * bool :=
    let x := w_dev w d in (d_busy x, d_cur x, d_q x, d_chan x, d_up x).

  Inductive local (d : nat) w w' : Prop :=
  | l_other : forall l, tx_state w' d = tx_state w d -> pend d (w_events w') = pend d (w_events w) ->
      w_now w <= w_now w' -> logs w w' l -> Forall (fun o => about d o = false) l -> local d w w'
  | l_refuse : forall l, tx_state w' d = tx_state w d -> w_events w' = w_events w -> w_now w' = w_now w ->
      logs w w' l ->
      (exists p a q, d_up (w_dev w d) = false /\ l = [Sent d p a q (addr_of w d) false; MacTxDrop d p]) \/
      (exists p, d_up (w_dev w d) = false /\ l = [MacTxDrop d p]) \/
      (exists p a q, d_up (w_dev w d) = true /\ l = [MacTx d (frame_of crc fcs p a q (addr_of w d));
           Sent d p a q (addr_of w d) false; MacTxDrop d (frame_of crc fcs p a q (addr_of w d))]) ->
      local d w w'
  | l_enqueue : forall p a q, d_up (w_dev w d) = true -> d_busy (w_dev w d) = true ->
      tx_state w' d = (true, d_cur (w_dev w d), d_q (w_dev w d) ++ [frame_of crc fcs p a q (addr_of w d)],
                       d_chan (w_dev w d), d_up (w_dev w d)) ->
      w_events w' = w_events w -> w_now w' = w_now w ->
      logs w w' [MacTx d (frame_of crc fcs p a q (addr_of w d)); Sent d p a q (addr_of w d) true] -> local d w w'
  | l_send : forall p a q c h r, d_up (w_dev w d) = true -> d_busy (w_dev w d) = false ->
      d_q (w_dev w d) ++ [frame_of crc fcs p a q (addr_of w d)] = h :: r ->
      d_chan (w_dev w d) = Some c -> 0 <= tx_duration tx_time w d h ->
      tx_state w' d = (true, Some h, r, d_chan (w_dev w d), d_up (w_dev w d)) ->
      w_events w' = insert_event (w_now w + tx_duration tx_time w d h, TxComplete d a) (w_events w) ->
      w_now w' = w_now w ->
      logs w w' [MacTx d (frame_of crc fcs p a q (addr_of w d)); Sent d p a q (addr_of w d) true; PromiscSniffer d h;
                 Sniffer d h; PhyTxBegin d h;
                 ToChannel d c h a (tx_time (g_bps (d_cfg (w_dev w d))) (len (p_bytes h))) (g_gap (d_cfg (w_dev w d)))] ->
      local d w w'
  | l_complete : forall t r dest cur, w_events w = (t, TxComplete d dest) :: r -> w_now w <= t ->
      d_busy (w_dev w d) = true -> d_cur (w_dev w d) = Some cur -> d_q (w_dev w d) = [] ->
      tx_state w' d = (false, None, [], d_chan (w_dev w d), d_up (w_dev w d)) ->
      w_events w' = r -> w_now w' = t -> logs w w' [PhyTxEnd d cur] -> local d w w'
  | l_next : forall t r dest cur h q c, w_events w = (t, TxComplete d dest) :: r -> w_now w <= t ->
      d_busy (w_dev w d) = true -> d_cur (w_dev w d) = Some cur -> d_q (w_dev w d) = h :: q ->
      d_chan (w_dev w d) = Some c -> 0 <= tx_duration tx_time w d h ->
      tx_state w' d = (true, Some h, q, d_chan (w_dev w d), d_up (w_dev w d)) ->
      w_events w' = insert_event (t + tx_duration tx_time w d h, TxComplete d dest) r -> w_now w' = t ->
      logs w w' [PhyTxEnd d cur; Sniffer d h; PromiscSniffer d h; PhyTxBegin d h;
                 ToChannel d c h dest (tx_time (g_bps (d_cfg (w_dev w d))) (len (p_bytes h))) (g_gap (d_cfg (w_dev w d)))] ->
      local d w w'
  | l_queue : tx_state w' d = (d_busy (w_dev w d), d_cur (w_dev w d), [], d_chan (w_dev w d), d_up (w_dev w d)) ->
      w_events w' = w_events w -> w_now w' = w_now w -> logs w w' [QueueSet d] -> local d w w'
  | l_link : forall c b, tx_state w' d = (d_busy (w_dev w d), d_cur (w_dev w d), d_q (w_dev w d), c, b) ->
      (b = true -> c <> None) -> (b = false -> c = d_chan (w_dev w d)) ->
      w_events w' = w_events w -> w_now w' = w_now w -> logs w w' [LinkChange d b] -> local d w w'.

  Ltac other := eapply l_other; [ | | |reflexivity| ].

  Lemma receive_obs : forall w d p src power w', Receive crc fcs w d p src power = Ok w' ->
    exists l, w' = emit w l /\ forall d', Forall (fun o => about d' o = false) l.
  Proof.
    intros w d p src power w' H. unfold Receive in H. rewrite !log1_emit in H.
    destruct (Nat.eqb src d); [injection H as <-; eexists; split; [reflexivity|repeat constructor]|].
    destruct (nlt N _ _); [injection H as <-; rewrite emit_emit; eexists; split; [reflexivity|repeat constructor]|].
    destruct (match g_err _ with Some _ => _ | None => _ end); [injection H as <-; rewrite emit_emit; eexists; split; [reflexivity|repeat constructor]|].
    apply bind_ok in H as (r & _ & H). destruct r as [|payload protocol from to].
    - injection H as <-. rewrite ?log1_emit, ?emit_emit. eexists; split; [reflexivity|repeat constructor].
    - destruct (g_pcb _); rewrite !log1_emit, !emit_emit in H;
      destruct (classify _ _); try destruct (g_rxcb _); try discriminate;
        injection H as <-; rewrite ?log1_emit, ?emit_emit; (eexists; split; [reflexivity|repeat constructor]).
  Qed.

  Lemma about_other : forall d d', d <> d' -> Nat.eqb d' d = false.
  Proof. intros. apply Nat.eqb_neq. congruence. Qed.

  Ltac nd := repeat first [apply Forall_nil | apply Forall_cons; [cbn; try reflexivity; apply about_other; congruence|]].

  Lemma micro_local : forall w w' d, micro w w' -> timely w -> local d w w'.
  Proof.
    intros w w' d M T. destruct M; try rename d0 into e.
    - destruct (Nat.eq_dec d e) as [->|NE].
      + eapply l_refuse; try reflexivity. left. eauto.
      + eapply l_other; try reflexivity. nd.
    - destruct (Nat.eq_dec d e) as [->|NE].
      + eapply l_refuse; try reflexivity. right. left. eauto.
      + eapply l_other; try reflexivity. nd.
    - destruct (Nat.eq_dec d e) as [->|NE].
      + eapply l_refuse; try reflexivity. right. right. eauto.
      + eapply l_other; try reflexivity. nd.
    - destruct (Nat.eq_dec d e) as [->|NE].
      + eapply l_enqueue; try reflexivity; try eassumption.
        unfold tx_state, emit, set_tx, set_dev. cbn. rewrite upd_same. cbn. reflexivity.
      + eapply l_other; try reflexivity; [|nd].
        unfold tx_state, emit, set_tx, set_dev. cbn. rewrite upd_other by assumption. reflexivity.
    - destruct (Nat.eq_dec d e) as [->|NE].
      + eapply l_send; try eassumption; try reflexivity; unfold tx_state, logs, begin_tx, set_tx, set_dev; cbn;
        rewrite !upd_same; cbn; reflexivity.
      + eapply l_other with (l := [_; _; _; _; _; _]).
        * unfold tx_state, begin_tx, set_tx, set_dev. cbn. rewrite !upd_other by assumption. reflexivity.
        * cbn. apply pend_insert_other. congruence.
        * reflexivity.
        * reflexivity.
        * nd.
    - eapply pop_timely in T as [_ T]; [|eassumption]. destruct (Nat.eq_dec d e) as [->|NE].
      + eapply l_complete; try eassumption; try reflexivity.
        unfold tx_state, emit, set_tx, set_dev. cbn. rewrite upd_same. cbn. rewrite H3. reflexivity.
      + eapply l_other with (l := [_]).
        * unfold tx_state, emit, set_tx, set_dev. cbn. rewrite !upd_other by assumption. reflexivity.
        * cbn. rewrite H. symmetry. apply pend_cons_other. congruence.
        * exact T.
        * reflexivity.
        * nd.
    - eapply pop_timely in T as [_ T]; [|eassumption]. destruct (Nat.eq_dec d e) as [->|NE].
      + eapply l_next; try eassumption; try reflexivity; unfold tx_state, logs, begin_tx, set_tx, set_dev; cbn;
        rewrite !upd_same; cbn; reflexivity.
      + eapply l_other with (l := [_; _; _; _; _]).
        * unfold tx_state, begin_tx, set_tx, set_dev. cbn. rewrite !upd_other by assumption. reflexivity.
        * cbn. rewrite H, pend_insert_other by congruence. symmetry. apply pend_cons_other. congruence.
        * exact T.
        * reflexivity.
        * nd.
    - eapply l_other with (l := [_]); try reflexivity; [|nd]. cbn. apply pend_insert_other. congruence.
    - eapply l_other; try reflexivity. nd.
    - eapply pop_timely in T as [_ T]; [|eassumption].
      apply receive_obs in H0 as (l & -> & Hl). eapply l_other; try reflexivity; [|exact T|apply Hl].
      cbn. rewrite H. symmetry. apply pend_cons_other. congruence.
    - eapply l_other with (l := []); try reflexivity.
      + unfold tx_state, Configure, set_dev. cbn. unfold upd. destruct (Nat.eqb_spec d e) as [->|]; reflexivity.
      + unfold logs. cbn. symmetry. apply app_nil_r.
      + constructor.
    - destruct (Nat.eq_dec d e) as [->|NE].
      + eapply l_queue; try reflexivity. unfold tx_state, SetQueue, set_dev. cbn. rewrite upd_same. reflexivity.
      + eapply l_other with (l := [_]); try reflexivity; [|nd].
        unfold tx_state, SetQueue, set_dev. cbn. rewrite upd_other by assumption. reflexivity.
    - apply Attach_spec in H as (g & s & _ & _ & _ & _ & _ & HN & HE & HL & HD & HD' & HC & HC').
      destruct (Nat.eq_dec d e) as [->|NE].
      + eapply l_link with (c := Some c) (b := true).
        * unfold tx_state. rewrite HD'. reflexivity.
        * congruence.
        * congruence.
        * assumption.
        * assumption.
        * unfold logs. rewrite HL, HN. reflexivity.
      + eapply l_other with (l := [LinkChange e true]).
        * unfold tx_state. rewrite HD by assumption. reflexivity.
        * rewrite HE. reflexivity.
        * lia.
        * unfold logs. rewrite HL, HN. reflexivity.
        * nd.
    - destruct (Nat.eq_dec d e) as [->|NE].
      + eapply l_link; try reflexivity.
        * unfold tx_state, set_link, set_dev. cbn. rewrite upd_same. reflexivity.
        * congruence.
      + eapply l_other with (l := [_]); try reflexivity; [|nd].
        unfold tx_state, set_link, set_dev. cbn. rewrite upd_other by assumption. reflexivity.
    - eapply l_other with (l := []); try reflexivity; [|constructor]. unfold logs. cbn. symmetry. apply app_nil_r.
    - eapply l_other with (l := []); try reflexivity; [assumption| |constructor]. unfold logs. cbn. symmetry. apply app_nil_r.
  Qed.

  (** Induction for properties of one device. *)
  Lemma local_invariant : forall d (P : world N -> Prop), (forall dk ck, P (initial dk ck)) ->
    (forall w w', local d w w' -> P w -> P w') -> forall w, reachable w -> P w /\ timely w.
  Proof.
    intros d P P0 PS. apply invariant.
    - intros dk ck. split; [apply P0|]. split; constructor.
    - intros w w' M _ [HP T]. split; [|eapply micro_timely; eassumption].
      eapply PS; [|eassumption]. apply micro_local; assumption.
  Qed.

  (** Readings of the trace that ignore other devices. *)
  Lemma fold_other : forall (S : Type) (f : S -> Z * obs -> S) d t l s,
    (forall s t o, about d o = false -> f s (t, o) = s) -> Forall (fun o => about d o = false) l ->
    fold_left f (map (pair t) l) s = s.
  Proof.
    intros S f d t l s Hf Hl. induction Hl as [|o r Ho Hr IH]; [reflexivity|]. cbn. rewrite Hf by assumption. exact IH.
  Qed.
  Lemma flat_other : forall (B : Type) (f : Z * obs -> list B) d t l,
    (forall t o, about d o = false -> f (t, o) = []) -> Forall (fun o => about d o = false) l ->
    flat_map f (map (pair t) l) = [].
  Proof.
    intros B f d t l Hf Hl. induction Hl as [|o r Ho Hr IH]; [reflexivity|]. cbn. rewrite Hf by assumption. exact IH.
  Qed.

  (** ** The transmitter *)
  Definition transmitter d w : Prop :=
    (d_up (w_dev w d) = true -> d_chan (w_dev w d) <> None) /\
    (d_up (w_dev w d) = link d (w_log w)) /\
    exists line free, service crc fcs d (w_log w) = Some (line, free) /\
      map snd line = d_q (w_dev w d) /\ Forall (fun x => fst x <= w_now w) line /\
      if d_busy (w_dev w d)
      then exists u p, free = Some u /\ ends d (w_events w) = [u] /\ d_cur (w_dev w d) = Some p
      else ends d (w_events w) = [] /\ d_cur (w_dev w d) = None /\ d_q (w_dev w d) = [] /\
           (forall u, free = Some u -> u <= w_now w).

  Lemma serve_other : forall d s t o, about d o = false -> serve crc fcs d s (t, o) = s.
  Proof.
    intros d [[line free]|] t o H; [|reflexivity]. destruct o; unfold serve; cbn in *; try reflexivity.
    - destruct ok; [rewrite H|]; reflexivity.
    - rewrite H. reflexivity.
    - rewrite H. reflexivity.
  Qed.
  Lemma serve_begin : forall d t arrival f r free c dest tx gap start,
    match free with Some u => Z.max arrival u | None => arrival end = start -> t = start ->
    serve crc fcs d (Some ((arrival, f) :: r, free)) (t, ToChannel d c f dest tx gap) = Some (r, Some (t + tx + gap)).
  Proof.
    intros. unfold serve. rewrite Nat.eqb_refl. cbn [negb]. rewrite H, H0, !Z.eqb_refl. cbn [andb].
    destruct (list_eq_dec Z.eq_dec (p_bytes f) (p_bytes f)); [reflexivity|congruence].
  Qed.
  Lemma serve_sent : forall d t p dest q own line free,
    serve crc fcs d (Some (line, free)) (t, Sent d p dest q own true) =
    Some (line ++ [(t, frame_of crc fcs p dest q own)], free).
  Proof. intros. unfold serve. rewrite Nat.eqb_refl. reflexivity. Qed.
  Lemma link_other : forall d (s : bool) o, about d o = false ->
    match o with LinkChange d' b => if Nat.eqb d' d then b else s | _ => s end = s.
  Proof. intros d s o H. destruct o; try reflexivity. cbn in H. rewrite H. reflexivity. Qed.
  Lemma link_app : forall d l l', link d (l ++ l') =
    fold_left (fun s x => match snd x with LinkChange d' b => if Nat.eqb d' d then b else s | _ => s end) l' (link d l).
  Proof. intros. unfold link. apply fold_left_app. Qed.
  Lemma service_app : forall d l l', service crc fcs d (l ++ l') = fold_left (serve crc fcs d) l' (service crc fcs d l).
  Proof. intros. unfold service. apply fold_left_app. Qed.

  Ltac getst H := unfold tx_state in H; injection H as ?E ?E ?E ?E ?E.

  Lemma local_transmitter : forall d w w', local d w w' -> transmitter d w -> transmitter d w'.
  Proof.
    intros d w w' L (HU & HK & line & free & HS & HQ & HA & HB).
    destruct L as [l E EV NW LG AB|l E EV NW LG AB|p a q U B E EV NW LG|p a q c h r U B Q C D E EV NW LG
                  |t r dest cur EV T B C Q E EV' NW LG|t r dest cur h q c EV T B C Q CH D E EV' NW LG
                  |E EV NW LG|c b E Hc Hb EV NW LG]; unfold logs in LG.
    - (* other *)
      apply (f_equal (map fst)) in EV. rewrite <- !ends_pend in EV.
      unfold tx_state in E. injection E as E1 E2 E3 E4 E5. unfold transmitter. rewrite E1, E2, E3, E4, E5, EV, LG.
      split; [assumption|]. split.
      { rewrite link_app. rewrite (fold_other _ _ d) ; [assumption| |assumption]. intros. cbn. eapply link_other; eauto. }
      exists line, free. rewrite service_app. rewrite (fold_other _ _ d); [|intros; apply serve_other; assumption|assumption].
      split; [assumption|]. split; [assumption|]. split; [eapply Forall_impl; [|eassumption]; cbn; intros; lia|].
      destruct (d_busy (w_dev w d)); [assumption|]. destruct HB as (B1 & B2 & B3 & B4). repeat split; try assumption.
      intros u Hu. specialize (B4 u Hu). lia.
    - (* refused *)
      unfold tx_state in E. injection E as E1 E2 E3 E4 E5. unfold transmitter. rewrite E1, E2, E3, E4, E5, EV, LG, NW.
      split; [assumption|]. split.
      { rewrite link_app. destruct AB as [(p & a & q & _ & ->)|[(p & _ & ->)|(p & a & q & _ & ->)]]; assumption. }
      exists line, free. rewrite service_app. split; [|auto]. rewrite HS.
      destruct AB as [(p & a & q & _ & ->)|[(p & _ & ->)|(p & a & q & _ & ->)]]; reflexivity.
    - (* enqueue *)
      unfold tx_state in E. injection E as E1 E2 E3 E4 E5. unfold transmitter. rewrite E1, E2, E3, E4, E5, EV, LG, NW.
      split; [assumption|]. split.
      { rewrite link_app. assumption. }
      exists (line ++ [(w_now w, frame_of crc fcs p a q (addr_of w d))]), free.
      rewrite service_app, HS. cbn [map fold_left].
      change (serve crc fcs d (Some (line, free)) (w_now w, MacTx d (frame_of crc fcs p a q (addr_of w d)))) with (Some (line, free)).
      rewrite serve_sent. split; [reflexivity|].
      rewrite map_app. cbn. rewrite HQ. split; [reflexivity|].
      split; [apply Forall_app; split; [assumption|repeat constructor; cbn; lia]|].
      rewrite B in HB. assumption.
    - (* send *)
      rewrite B in HB. destruct HB as (B1 & B2 & B3 & B4).
      assert (line = []) as -> by (destruct line; [reflexivity|rewrite B3 in HQ; discriminate]).
      rewrite B3 in Q. cbn in Q. injection Q as <- <-.
      unfold tx_state in E. injection E as E1 E2 E3 E4 E5. unfold transmitter. rewrite E1, E2, E3, E4, E5, EV, LG, NW.
      split; [assumption|]. split.
      { rewrite link_app. assumption. }
      exists [], (Some (w_now w + tx_duration tx_time w d (frame_of crc fcs p a q (addr_of w d)))).
      rewrite service_app, HS. cbn [map fold_left].
      change (serve crc fcs d (Some ([], free)) (w_now w, MacTx d (frame_of crc fcs p a q (addr_of w d)))) with (Some ([] : list (Z * pkt), free)).
      rewrite serve_sent. cbn [app].
      split.
      { unfold tx_duration. rewrite Z.add_assoc. eapply serve_begin; [reflexivity|].
        destruct free as [u|]; [|reflexivity]. specialize (B4 u eq_refl). lia. }
      split; [reflexivity|]. split; [constructor|]. eexists _, _. split; [reflexivity|]. split; [|reflexivity].
      apply ends_insert_self. assumption.
    - (* complete *)
      rewrite B in HB. destruct HB as (u & p & -> & B2 & B3). rewrite EV, ends_cons_self in B2. injection B2 as -> B2.
      unfold tx_state in E. injection E as E1 E2 E3 E4 E5. unfold transmitter. rewrite E1, E2, E3, E4, E5, EV', LG, NW.
      split; [assumption|]. split.
      { rewrite link_app. assumption. }
      exists line, (Some u). rewrite service_app, HS, HQ, Q. split; [reflexivity|]. split; [reflexivity|].
      split; [eapply Forall_impl; [|eassumption]; cbn; intros; lia|]. repeat split; [assumption|].
      intros v Hv. injection Hv as <-. lia.
    - (* next *)
      rewrite B in HB. destruct HB as (u & p & -> & B2 & B3). rewrite EV, ends_cons_self in B2. injection B2 as -> B2.
      rewrite Q in HQ. destruct line as [|[arrival h'] line]; [discriminate|]. cbn in HQ. injection HQ as -> HQ.
      apply Forall_cons_iff in HA as [HA0 HA]. cbn in HA0.
      unfold tx_state in E. injection E as E1 E2 E3 E4 E5. unfold transmitter. rewrite E1, E2, E3, E4, E5, EV', LG, NW.
      split; [assumption|]. split.
      { rewrite link_app. assumption. }
      exists line, (Some (u + tx_duration tx_time w d h)). rewrite service_app, HS. cbn [map fold_left].
      split.
      { unfold tx_duration. rewrite Z.add_assoc. eapply serve_begin; [reflexivity|]. lia. }
      split; [assumption|]. split; [eapply Forall_impl; [|eassumption]; cbn; intros; lia|].
      eexists _, _. split; [reflexivity|]. split; [|reflexivity]. apply ends_insert_self. assumption.
    - (* new queue *)
      unfold tx_state in E. injection E as E1 E2 E3 E4 E5. unfold transmitter. rewrite E1, E2, E3, E4, E5, EV, LG, NW.
      split; [assumption|]. split.
      { rewrite link_app. assumption. }
      exists [], free. rewrite service_app, HS. cbn [map fold_left]. unfold serve. rewrite Nat.eqb_refl.
      split; [reflexivity|]. split; [reflexivity|]. split; [constructor|].
      destruct (d_busy (w_dev w d)); [assumption|]. destruct HB as (B1 & B2 & B3 & B4). auto.
    - (* link *)
      unfold tx_state in E. injection E as E1 E2 E3 E4 E5. unfold transmitter. rewrite E1, E2, E3, E4, E5, EV, LG, NW.
      split; [assumption|]. split.
      { rewrite link_app. cbn. rewrite Nat.eqb_refl. reflexivity. }
      exists line, free. rewrite service_app, HS. auto.
  Qed.

  Lemma reachable_transmitter : forall d w, reachable w -> transmitter d w /\ timely w.
  Proof.
    intros d. apply (local_invariant d).
    - intros dk ck. split; [discriminate|]. split; [reflexivity|]. exists [], None.
      repeat split; try reflexivity; try constructor. discriminate.
    - apply local_transmitter.
  Qed.
End Inv.
