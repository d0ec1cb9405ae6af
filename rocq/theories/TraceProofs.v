(** Captures: what the observations of one step look like, and what the streams
    make of them. *)
Require Import ZArith List Bool String Lia.
Require Import Verif.Base Verif.Num Verif.FrameModel Verif.NetModel Verif.NetSpec Verif.NetSteps Verif.NetInv
  Verif.NetSendProofs Verif.TraceModel Verif.TraceSpec.
Import ListNotations.
Local Open Scope Z_scope.

(** ** Observations of a step *)

(** A list that does not end in the middle of a Send or Receive. *)
Definition seam (o : obs) : bool := match o with MacTx _ _ | PhyRxEnd _ _ _ => true | _ => false end.
Fixpoint sealed (l : trace) : bool :=
  match l with
  | [] => true
  | (_, o) :: r => match r with [] => negb (seam o) | _ => sealed r end
  end.

Lemma fired_app : forall l m, sealed l = true -> fired (l ++ m) = fired l ++ fired m.
Proof.
  induction l as [|[t o] r IH]; intros m H; [reflexivity|]. destruct r as [|y r].
  - cbn in H |- *. destruct o; try reflexivity; discriminate.
  - change (sealed ((t, o) :: y :: r)) with (sealed (y :: r)) in H. specialize (IH m H).
    change (((t, o) :: y :: r) ++ m) with ((t, o) :: (y :: r) ++ m). cbn [fired]. rewrite IH, app_assoc.
    f_equal; destruct o; reflexivity.
Qed.
Lemma captured_app : forall d l m, sealed l = true -> captured d (l ++ m) = captured d l ++ captured d m.
Proof.
  intros d. induction l as [|[t o] r IH]; intros m H; [reflexivity|]. destruct r as [|y r].
  - cbn in H |- *. destruct o; try reflexivity; try discriminate. rewrite app_nil_r. reflexivity.
  - change (sealed ((t, o) :: y :: r)) with (sealed (y :: r)) in H. specialize (IH m H).
    change (((t, o) :: y :: r) ++ m) with ((t, o) :: (y :: r) ++ m).
    destruct o; try exact IH; cbn [captured]; fold (captured d ((y :: r) ++ m)); fold (captured d (y :: r));
      rewrite IH, app_assoc; reflexivity.
Qed.
Lemma sealed_app : forall l m, sealed l = true -> sealed m = true -> sealed (l ++ m) = true.
Proof.
  induction l as [|[t o] r IH]; intros m H1 H2; [exact H2|]. destruct r as [|y r].
  - destruct m as [|y m]; [exact H1|]. exact H2.
  - exact (IH m H1 H2).
Qed.

(** The firings of interest. *)
Definition sniff (d : nat) (l : list (Z * (nat * source * pkt))) : list (Z * pkt) :=
  flat_map (fun x => match x with (t, (d', SPromiscSniffer, p)) => if Nat.eqb d' d then [(t, p)] else [] | _ => [] end) l.
Definition hist (hooked : nat -> bool) (l : list (Z * (nat * source * pkt))) : list (nat * source * Z * pkt) :=
  flat_map (fun x => match x with
                     | (_, (_, SPromiscSniffer, _)) => []
                     | (t, (d, s, p)) => if of_queue s && negb (hooked d) then [] else [(d, s, t, p)] end) l.

(** Links and hooked queues after a list of observations. *)
Definition ups (up : nat -> bool) (l : trace) : nat -> bool :=
  fold_left (fun up x => match snd x with LinkChange d b => upd up d b | _ => up end) l up.
Definition hooks (hooked : nat -> bool) (l : trace) : nat -> bool :=
  fold_left (fun hooked x => match snd x with QueueSet d => upd hooked d false | _ => hooked end) l hooked.

Section Chunks.
  Context {N : Num}.
  Variable crc : list Z -> Z.
  Variable fcs : bool.
  Variable tx_time : Z -> Z -> Z.
  Variable has_mob : nat -> bool.
  Notation history := (history crc fcs).
  Implicit Type w : world N.

  Lemma history_app : forall l m up hooked,
    history up hooked (l ++ m) = history up hooked l ++ history (ups up l) (hooks hooked l) m.
  Proof.
    induction l as [|[t o] r IH]; intros m up hooked; [reflexivity|].
    destruct o; cbn [TraceSpec.history app]; rewrite IH; cbn; rewrite ?app_assoc; try reflexivity.
  Qed.

  Definition quiet (l : trace) : Prop :=
    forall up hooked, ups up l = up /\ hooks hooked l = hooked.
  Definition agrees (up : nat -> bool) w : Prop := forall d, up d = d_up (w_dev w d).

  (** What a run of the network without configuration adds. *)
  Definition quietly w w' : Prop := exists l, w_log w' = w_log w ++ l /\ sealed l = true /\ quiet l /\
    (forall d, d_up (w_dev w' d) = d_up (w_dev w d)) /\
    (forall d, sniff d (fired l) = captured d l) /\
    (forall up hooked, agrees up w -> hist hooked (fired l) = history up hooked l).

  Lemma quietly_refl : forall w, quietly w w.
  Proof.
    intros w. exists []. rewrite app_nil_r. split; [reflexivity|]. split; [reflexivity|]. split; [intros u h; split; reflexivity|].
    repeat split; reflexivity.
  Qed.
  Lemma quietly_trans : forall a b c, quietly a b -> quietly b c -> quietly a c.
  Proof.
    intros a b c (l & L & SL & QL & UL & CL & HL) (m & M & SM & QM & UM & CM & HM). exists (l ++ m).
    split; [rewrite M, L, app_assoc; reflexivity|]. split; [apply sealed_app; assumption|].
    split; [intros u h; unfold ups, hooks; rewrite !fold_left_app; fold (ups u l); fold (hooks h l);
            destruct (QL u h) as [-> ->]; apply QM|].
    split; [intros d; rewrite UM; apply UL|].
    split; [intros d; rewrite fired_app, captured_app by assumption; unfold sniff; rewrite flat_map_app;
            fold (sniff d (fired l)); fold (sniff d (fired m)); rewrite CL, CM; reflexivity|].
    intros u h Ha. rewrite fired_app, history_app by assumption. unfold hist. rewrite flat_map_app.
    fold (hist h (fired l)). fold (hist h (fired m)). destruct (QL u h) as [-> ->].
    rewrite (HL u h Ha), (HM u h); [reflexivity|]. intros d. rewrite UL. apply Ha.
  Qed.

  Lemma quietly_log : forall w w' t l,
    w_log w' = w_log w ++ map (pair t) l -> (forall d, d_up (w_dev w' d) = d_up (w_dev w d)) ->
    sealed (map (pair t) l) = true -> quiet (map (pair t) l) ->
    (forall d, sniff d (fired (map (pair t) l)) = captured d (map (pair t) l)) ->
    (forall up hooked, agrees up w -> hist hooked (fired (map (pair t) l)) = history up hooked (map (pair t) l)) ->
    quietly w w'.
  Proof. intros. exists (map (pair t) l). auto 10. Qed.

  Lemma up_begin : forall w d q h dest c pre d', d_up (w_dev (begin_tx tx_time w d q h dest c pre) d') = d_up (w_dev w d').
  Proof. intros. unfold begin_tx. cbn. unfold upd. destruct (Nat.eqb_spec d' d) as [->|]; reflexivity. Qed.
  Lemma up_set_tx : forall w d q b cur d', d_up (w_dev (set_tx w d q b cur) d') = d_up (w_dev w d').
  Proof. intros. unfold set_tx, set_dev. cbn. unfold upd. destruct (Nat.eqb_spec d' d) as [->|]; reflexivity. Qed.

  Lemma micro_quietly : forall w w', micro crc fcs tx_time has_mob false (fun _ _ _ => True) w w' -> quietly w w'.
  Proof.
    intros w w' H. destruct H; try discriminate.
    - eapply quietly_log; [reflexivity|reflexivity|reflexivity|split; reflexivity|reflexivity|].
      intros up hooked A. cbn. rewrite (A d), H. reflexivity.
    - eapply quietly_log; [reflexivity|reflexivity|reflexivity|split; reflexivity|reflexivity|]. reflexivity.
    - eapply quietly_log; [reflexivity|reflexivity|reflexivity|split; reflexivity|reflexivity|].
      intros up hooked A. cbn. rewrite (A d), H. destruct (hooked d); reflexivity.
    - eapply quietly_log; [reflexivity|intros; apply up_set_tx|reflexivity|split; reflexivity|reflexivity|].
      intros up hooked A. cbn. rewrite (A d), H. destruct (hooked d); reflexivity.
    - eapply quietly_log; [reflexivity|intros; rewrite up_begin, up_set_tx; reflexivity|reflexivity|split; reflexivity| |].
      + intros d'. cbn. destruct (Nat.eqb d d'); reflexivity.
      + intros up hooked A. cbn. rewrite (A d), H. destruct (hooked d); reflexivity.
    - eapply quietly_log; [reflexivity|intros; unfold emit; cbn [w_dev]; rewrite up_set_tx; reflexivity|reflexivity|split; reflexivity|reflexivity|].
      reflexivity.
    - eapply quietly_log; [reflexivity|intros; rewrite up_begin, !up_set_tx; reflexivity|reflexivity|split; reflexivity| |].
      + intros d'. cbn. destruct (Nat.eqb d d'); reflexivity.
      + intros up hooked A. cbn. destruct (hooked d); reflexivity.
    - eapply (quietly_log _ _ _ [_]); [reflexivity|reflexivity|reflexivity|split; reflexivity|reflexivity|]. reflexivity.
    - eapply quietly_log; [reflexivity|reflexivity|reflexivity|split; reflexivity|reflexivity|]. reflexivity.
    - apply Receive_table in H0 as (new & -> & D). cbn [w_dev w_log w_now pop] in *.
      eapply quietly_log; [reflexivity|reflexivity| | | |];
        destruct D as [(_ & ->)|[(_ & _ & p' & _ & ->)|(_ & _ & payload & proto & ty & _ & ->)]];
        try destruct (g_pcb _); try destruct ty; try reflexivity; try (split; reflexivity);
        try (intros d'; cbn; rewrite ?andb_true_r, ?andb_false_r; destruct (Nat.eqb d d'); reflexivity).
    - eapply (quietly_log _ _ 0 []); [cbn; rewrite app_nil_r; reflexivity|reflexivity|reflexivity|split; reflexivity|reflexivity|]. reflexivity.
  Qed.
  Lemma micros_quietly : forall w w', micros crc fcs tx_time has_mob false (fun _ _ _ => True) w w' -> quietly w w'.
  Proof. induction 1; [apply quietly_refl|]. eapply quietly_trans; [apply micro_quietly|]; eassumption. Qed.

  (** What one step adds. *)
  Definition hooked_after (o : op N) (hooked : nat -> bool) : nat -> bool :=
    match o with OSetQueue d _ => upd hooked d false | _ => hooked end.
  Definition chunk (o : op N) w w' (l : trace) : Prop :=
    w_log w' = w_log w ++ l /\ sealed l = true /\ (forall hooked, hooks hooked l = hooked_after o hooked) /\
    (forall d, sniff d (fired l) = captured d l) /\
    (forall up hooked, agrees up w -> agrees (ups up l) w' /\ hist (hooks hooked l) (fired l) = history up hooked l).

  Lemma quietly_chunk : forall o w w', external o = false -> quietly w w' -> exists l, chunk o w w' l.
  Proof.
    intros o w w' E (l & L & S & Q & U & C & H). exists l. split; [exact L|]. split; [exact S|].
    split; [intros h; rewrite (proj2 (Q h h)); destruct o; try discriminate; reflexivity|]. split; [exact C|].
    intros u h A. destruct (Q u h) as [-> ->]. split; [intros d; rewrite U; apply A|]. apply H, A.
  Qed.

  Lemma none_chunk : forall o w w', w_log w' = w_log w -> (forall d, d_up (w_dev w' d) = d_up (w_dev w d)) ->
    (forall h, hooked_after o h = h) -> exists l, chunk o w w' l.
  Proof.
    intros o w w' L U Ho. exists []. rewrite app_nil_r || idtac. unfold chunk. rewrite app_nil_r.
    split; [exact L|]. split; [reflexivity|]. split; [intros; symmetry; apply Ho|]. split; [reflexivity|].
    intros u h A. split; [intros d; cbn; rewrite U; apply A|reflexivity].
  Qed.
  Lemma link_chunk : forall o w w' d b, w_log w' = w_log w ++ [(w_now w, LinkChange d b)] ->
    d_up (w_dev w' d) = b -> (forall d', d' <> d -> d_up (w_dev w' d') = d_up (w_dev w d')) ->
    (forall h, hooked_after o h = h) -> exists l, chunk o w w' l.
  Proof.
    intros o w w' d b L U1 U2 Ho. eexists. split; [exact L|]. split; [reflexivity|].
    split; [intros; symmetry; apply Ho|]. split; [reflexivity|].
    intros u h A. split; [|reflexivity]. intros d'. cbn. unfold upd.
    destruct (Nat.eqb_spec d' d) as [->|n]; [symmetry; exact U1|]. rewrite U2 by assumption. apply A.
  Qed.

  Lemma step_chunk : forall w o w', indexed_ok w -> step crc fcs tx_time has_mob w o = Ok w' -> exists l, chunk o w w' l.
  Proof.
    intros w o w' HI H. destruct (external o) eqn:E.
    2:{ apply quietly_chunk; [exact E|]. apply micros_quietly. eapply step_micros; try eassumption; [rewrite E; discriminate|auto]. }
    destruct o; try discriminate; cbn in H.
    - injection H as <-. apply none_chunk; [reflexivity| |reflexivity]. intros d'. unfold Configure, set_dev. cbn. unfold upd.
      destruct (Nat.eqb_spec d' d) as [->|]; reflexivity.
    - injection H as <-. exists [(w_now w, QueueSet d)]. split; [reflexivity|]. split; [reflexivity|]. split; [reflexivity|].
      split; [reflexivity|]. intros u h A. split; [|reflexivity]. intros d'. cbn. unfold upd.
      rewrite (A d'). destruct (Nat.eqb_spec d' d) as [->|]; reflexivity.
    - unfold Attach in H. apply bind_ok in H as (w1 & H & H1). injection H1 as <-.
      assert (W : w_log w1 = w_log w /\ w_dev w1 = w_dev w /\ w_now w1 = w_now w).
      { unfold ChannelAttach in H. destruct (c_kind _); [|destruct (g_kind _); try discriminate];
          injection H as <-; auto. }
      destruct W as (L & D & T). eapply (link_chunk _ _ _ d true); [|cbn; unfold upd; rewrite Nat.eqb_refl; reflexivity| |reflexivity].
      + cbn. rewrite L, T. reflexivity.
      + intros d' n. cbn. unfold upd. destruct (Nat.eqb_spec d' d); [contradiction|]. rewrite D. reflexivity.
    - apply bind_ok in H as ([b w1] & H & H1). injection H1 as <-. unfold ChannelDetach in H.
      assert (HB : forall x, w_log x = w_log w -> w_dev x = w_dev w -> w_now x = w_now w ->
                     BaseDetach x c i = (b, w1) -> exists l, chunk (ODetach c i) w w1 l).
      { intros x L D T Hx. unfold BaseDetach in Hx. destruct (nth_error (c_link (w_chan x c)) i) as [y|].
        2:{ injection Hx as <- <-. apply none_chunk; [exact L|rewrite D; reflexivity|reflexivity]. }
        destruct (d_up (w_dev x y)); injection Hx as <- <-.
        - eapply (link_chunk _ _ _ y false); [cbn; rewrite L, T; reflexivity|cbn; unfold upd; rewrite Nat.eqb_refl; reflexivity| |reflexivity].
          intros d' n. cbn. unfold upd. destruct (Nat.eqb_spec d' y); [contradiction|]. rewrite D. reflexivity.
        - apply none_chunk; [exact L|rewrite D; reflexivity|reflexivity]. }
      destruct (c_kind (w_chan w c)) eqn:K.
      + injection H as H. eapply HB; [reflexivity|reflexivity|reflexivity|exact H].
      + destruct (nth_error _ _); [|discriminate]. injection H as H. eapply HB; [| | |exact H]; reflexivity.
    - injection H as <-. eapply (link_chunk _ _ _ d false); [reflexivity|cbn; unfold upd; rewrite Nat.eqb_refl; reflexivity| |reflexivity].
      intros d' n. cbn. unfold upd. destruct (Nat.eqb_spec d' d); [contradiction|]. reflexivity.
    - injection H as <-. apply none_chunk; reflexivity.
    - injection H as <-. apply none_chunk; reflexivity.
  Qed.
End Chunks.
