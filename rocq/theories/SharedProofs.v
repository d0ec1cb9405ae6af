(** Packet objects. *)
Require Import ZArith List Bool Lia FunctionalExtensionality.
Require Import Verif.Base Verif.Num Verif.FrameModel Verif.NetModel Verif.NetSpec Verif.SharedModel Verif.SharedSpec Verif.FrameProofs Verif.NetSteps.
Import ListNotations.
Local Open Scope Z_scope.

Section Proofs.
  Context {N : Num}.
  Variable crc : list Z -> Z.
  Variable fcs : bool.
  Variable tx_time : Z -> Z -> Z.
  Variable has_mob : nat -> bool.
  Notation Send := (Send crc fcs tx_time has_mob).
  Notation step := (step crc fcs tx_time has_mob).
  Notation hstep := (hstep crc fcs tx_time has_mob).
  Notation hrun := (hrun crc fcs tx_time has_mob).
  Implicit Types (w : world N) (s : hworld N).

  (** ** What operations do to queues and transmitters *)
  Lemma Deliver_dev : forall w c p src dst tx b w', Deliver has_mob w c p src dst tx = Ok (b, w') -> w_dev w' = w_dev w.
  Proof.
    intros w c p src dst tx b w' H. unfold Deliver in H. destruct (node_of w src) as [x|]; [|discriminate]. destruct (node_of w dst) as [y|]; [|discriminate]. cbv zeta in H.
    assert (GO : forall rx dl, bind (schedule w dl (RxEvent dst p src rx)) (fun w1 => Ok (true, log1 w1 (TxRx c p src dst tx dl))) = Ok (b, w') -> w_dev w' = w_dev w).
    { intros rx dl G. apply bind_ok in G. destruct G as (w1 & G1 & G2). injection G2 as <- <-. unfold schedule in G1. destruct (dl <? 0); [discriminate|]. injection G1 as <-. reflexivity. }
    destruct (_ && _); [|eauto]. destruct (c_loss _) as [f|]; [|eauto]. destruct (nlt N _ _); [injection H as <- <-; reflexivity|eauto].
  Qed.
  Lemma deliver_all_dev : forall dsts w c p src tx b w', deliver_all has_mob w c p src dsts tx = Ok (b, w') -> w_dev w' = w_dev w.
  Proof.
    induction dsts as [|x l IH]; intros w c p src tx b w' H; cbn in H; [injection H as <- <-; reflexivity|].
    apply bind_ok in H. destruct H as ([b1 w1] & H1 & H). apply bind_ok in H. destruct H as ([b2 w2] & H2 & H). injection H as <- <-.
    rewrite (IH _ _ _ _ _ _ _ H2). eapply Deliver_dev; exact H1.
  Qed.
  Lemma Channel_dev : forall w c p i dest tx b w', ChannelTransmitStart has_mob w c p i dest tx = Ok (b, w') -> w_dev w' = w_dev w.
  Proof.
    intros w c p i dest tx b w' H. unfold ChannelTransmitStart in H. destruct (c_kind (w_chan w c)).
    - unfold IslTransmitStart in H. destruct (nth_error _ i) as [src|]; [|injection H as <- <-; reflexivity]. destruct (GetDevice w c dest) as [dst|]; [eapply Deliver_dev; exact H|].
      destruct (dest =? broadcast); [|injection H as <- <-; reflexivity]. apply bind_ok in H. destruct H as ([b1 w1] & H1 & H). injection H as <- <-. eapply deliver_all_dev; exact H1.
    - unfold LeoTransmitStart in H. cbv zeta in H. destruct (nth_error _ i) as [src|]; [|injection H as <- <-; reflexivity].
      destruct (_ && _); [discriminate|]. destruct (indexed _ (c_gnd _)); [eapply deliver_all_dev; exact H|]. destruct (indexed _ _); [eapply deliver_all_dev; exact H|injection H as <- <-; reflexivity].
  Qed.
  (** Queue and current packet of a device. *)
  Definition part (w : world N) (e : nat) : list pkt * option pkt := (d_q (w_dev w e), d_cur (w_dev w e)).
  Lemma part_set_tx : forall w d q b c e, part (set_tx w d q b c) e = if Nat.eqb e d then (q, c) else part w e.
  Proof. intros. unfold part, set_tx, set_dev, upd. cbn. destruct (Nat.eqb e d); reflexivity. Qed.
  Lemma TransmitStart_part : forall w d p dest b w', TransmitStart tx_time has_mob w d p dest = Ok (b, w') ->
    forall e, part w' e = if Nat.eqb e d then (d_q (w_dev w d), Some p) else part w e.
  Proof.
    intros w d p dest b w' H e. unfold TransmitStart in H. cbv zeta in H. destruct (d_busy (w_dev w d)); [discriminate|]. apply bind_ok in H. destruct H as (w2 & H2 & H).
    destruct (d_chan (w_dev w d)) as [c|]; [|discriminate]. apply bind_ok in H. destruct H as ([r w4] & H4 & H). pose proof (Channel_dev _ _ _ _ _ _ _ _ H4) as E.
    unfold schedule in H2. destruct (_ <? 0); [discriminate|]. injection H2 as <-. cbn [log1 w_dev] in E.
    assert (E' : w_dev w' = w_dev w4) by (destruct r; injection H as _ <-; reflexivity). unfold part at 1. rewrite E', E. rewrite <- part_set_tx with (b := true). reflexivity.
  Qed.
  Lemma Send_down : forall w d p dest q b w', Send w d p dest q = Ok (b, w') -> d_up (w_dev w d) = false -> forall e, part w' e = part w e.
  Proof. intros w d p dest q b w' H U e. unfold NetModel.Send in H. cbv zeta in H. rewrite U in H. destruct dest; cbn [negb] in H; injection H as <- <-; reflexivity. Qed.
  Lemma Send_up : forall w d p a q b w' admit, Send w d p (Mac a) q = Ok (b, w') -> d_up (w_dev w d) = true -> d_queue (w_dev w d) = Some admit ->
    let x := w_dev w d in let frame := frame_of crc fcs p a q (addr_of w d) in
    if admit (d_q x) frame then
      if d_busy x then forall e, part w' e = if Nat.eqb e d then (d_q x ++ [frame], d_cur x) else part w e
      else forall h r, d_q x ++ [frame] = h :: r -> forall e, part w' e = if Nat.eqb e d then (r, Some h) else part w e
    else forall e, part w' e = part w e.
  Proof.
    intros w d p a q b w' admit H UP QU x frame. unfold NetModel.Send in H. cbv zeta in H. rewrite UP, QU in H. cbn [negb] in H. fold (frame_of crc fcs p a q (addr_of w d)) in H. fold frame in H. fold x in H.
    destruct (admit (d_q x) frame); [|injection H as <- <-; reflexivity].
    destruct (d_busy x) eqn:BU.
    - injection H as <- <-. intros e. rewrite part_set_tx. reflexivity.
    - destruct (d_q x ++ _) as [|h r] eqn:Q; [discriminate|]. apply bind_ok in H. destruct H as ([r4 w4] & H4 & H). injection H as <- <-.
      intros h' r' E. injection E as <- <-. intros e.
      rewrite (TransmitStart_part _ _ _ _ _ _ H4 e). cbn [log1 w_dev]. destruct (Nat.eqb_spec e d) as [->|NE].
      + unfold set_tx, set_dev, upd. cbn. rewrite Nat.eqb_refl. reflexivity.
      + unfold part, log1, set_tx, set_dev, upd. cbn. destruct (Nat.eqb_spec e d); [contradiction|reflexivity].
  Qed.
  Lemma Complete_part : forall w d dest w', DoTransmitComplete tx_time has_mob w d dest = Ok w' ->
    let x := w_dev w d in d_busy x = true /\ d_cur x <> None /\ d_queue x <> None /\
    forall e, part w' e = if Nat.eqb e d then match d_q x with [] => ([], None) | h :: r => (r, Some h) end else part w e.
  Proof.
    intros w d dest w' H x. unfold DoTransmitComplete in H. cbv zeta in H. fold x in H. destruct (d_busy x) eqn:BU; cbn [negb] in H; [|discriminate].
    destruct (d_cur x) as [cur|] eqn:CU; [|discriminate]. destruct (d_queue x) as [ad|] eqn:QU; [|discriminate]. split; [reflexivity|]. split; [discriminate|]. split; [discriminate|]. intros e.
    destruct (d_q x) as [|p r] eqn:Q.
    - injection H as <-. change (part (log1 (set_tx w d [] false None) (PhyTxEnd d cur)) e) with (part (set_tx w d [] false None) e). rewrite part_set_tx. reflexivity.
    - apply bind_ok in H. destruct H as ([r4 w4] & H4 & H). injection H as <-. rewrite (TransmitStart_part _ _ _ _ _ _ H4 e). cbn [log1 w_dev]. destruct (Nat.eqb_spec e d) as [->|NE].
      + unfold set_tx, set_dev, upd. cbn. rewrite !Nat.eqb_refl. reflexivity.
      + unfold part, log1, set_tx, set_dev, upd. cbn. destruct (Nat.eqb_spec e d); [contradiction|reflexivity].
  Qed.
  (** Events other than the end of a transmission, and configuration, leave them alone. *)
  Lemma Receive_part : forall w d p src pw w', Receive crc fcs w d p src pw = Ok w' -> forall e, part w' e = part w e.
  Proof. intros w d p src pw w' H e. apply Receive_emit in H. destruct H as (l & ->). reflexivity. Qed.
  Lemma set_link_part : forall w d u e, part (set_link w d u) e = part w e.
  Proof. intros. unfold part, set_link, set_dev, upd. cbn. destruct (Nat.eqb_spec e d) as [->|]; reflexivity. Qed.
  Lemma other_part : forall w o w', step w o = Ok w' ->
    match o with OSend _ _ _ _ | ORun => True | OSetQueue d _ => forall e, part w' e = if Nat.eqb e d then ([], d_cur (w_dev w d)) else part w e | _ => forall e, part w' e = part w e end.
  Proof.
    intros w o w' H. destruct o; cbn [NetModel.step] in H; try exact I.
    - injection H as <-. intros e. unfold part, Configure, set_dev, upd. cbn. destruct (Nat.eqb_spec e d) as [->|]; reflexivity.
    - injection H as <-. intros e. unfold part, SetQueue, set_dev, upd. cbn. destruct (Nat.eqb_spec e d) as [->|]; reflexivity.
    - intros e. destruct (Attach_spec _ _ _ _ H) as (g & sa & _ & _ & _ & _ & _ & _ & _ & _ & ND & DD & _). unfold part.
      destruct (Nat.eq_dec e d) as [->|NE]; [rewrite DD; reflexivity|rewrite (ND _ NE); reflexivity].
    - apply bind_ok in H. destruct H as ([b w1] & H1 & H). injection H as <-. intros e. unfold ChannelDetach in H1. cbv zeta in H1.
      assert (B : forall v v' : world N, BaseDetach v c i = (b, v') -> part v' e = part v e).
      { intros v v' E. clear - E. unfold BaseDetach in E. destruct (nth_error _ i) as [d|]; [|injection E as E1 E2; rewrite <- E2; reflexivity]. destruct (d_up _); injection E as E1 E2; rewrite <- E2; [apply set_link_part|reflexivity]. }
      destruct (c_kind (w_chan w c)); [apply (B w w1); congruence|]. destruct (nth_error _ i) as [d|]; [|discriminate]. match type of H1 with Ok (BaseDetach ?v _ _) = _ => rewrite (B v w1); [reflexivity|congruence] end.
    - injection H as <-. intros e. apply set_link_part.
    - injection H as <-. reflexivity.
    - injection H as <-. reflexivity.
    - destruct (_ && _); injection H as <-; reflexivity.
  Qed.

  (** ** Invariant *)
  Definition inv s : Prop := (forall d, part (h_world s) d = (map (h_obj s) (h_wait s d), option_map (h_obj s) (h_cur s d))) /\ (forall d, 0 <= h_bytes s d).
  Lemma part_refresh : forall w obj wait cur e, part (refresh w obj wait cur) e = (map obj (wait e), option_map obj (cur e)).
  Proof. reflexivity. Qed.
  Lemma size_nonneg : forall p, 0 <= size p. Proof. intros. apply len_pos. Qed.

  (** A Send with an open link, step by step. *)
  Definition new_obj s d k a q : nat -> pkt := upd (h_obj s) k (frame_of crc fcs (h_obj s k) a q (addr_of (h_world s) d)).
  Lemma SendObject_up : forall s d k a q b s', SendObject crc fcs tx_time has_mob s d k (Mac a) q = Ok (b, s') -> d_up (w_dev (h_world s) d) = true ->
    let obj := new_obj s d k a q in let x := w_dev (h_world s) d in
    Send (refresh (h_world s) obj (h_wait s) (h_cur s)) d (h_obj s k) (Mac a) q = Ok (b, h_world s') /\ h_obj s' = obj /\
    exists admit, d_queue x = Some admit /\
    if admit (map obj (h_wait s d)) (obj k) then
      if d_busy x then h_wait s' = upd (h_wait s) d (h_wait s d ++ [k]) /\ h_cur s' = h_cur s /\ h_bytes s' = upd (h_bytes s) d (h_bytes s d + size (obj k))
      else exists h r, h_wait s d ++ [k] = h :: r /\ size (obj h) <= h_bytes s d + size (obj k) /\
             h_wait s' = upd (h_wait s) d r /\ h_cur s' = upd (h_cur s) d (Some h) /\ h_bytes s' = upd (h_bytes s) d (h_bytes s d + size (obj k) - size (obj h))
    else h_wait s' = h_wait s /\ h_cur s' = h_cur s /\ h_bytes s' = h_bytes s.
  Proof.
    intros s d k a q b s' H UP obj x. unfold SendObject in H. cbv zeta in H. rewrite UP in H.
    change (mkPkt (p_uid (h_obj s k)) (AddHeader crc fcs (addr_of (h_world s) d) a q (p_bytes (h_obj s k)))) with (frame_of crc fcs (h_obj s k) a q (addr_of (h_world s) d)) in H.
    fold (new_obj s d k a q) in H. fold obj in H. fold x in H.
    assert (OK : frame_of crc fcs (h_obj s k) a q (addr_of (h_world s) d) = obj k) by (unfold obj, new_obj, upd; rewrite Nat.eqb_refl; reflexivity).
    rewrite OK in H. destruct (d_queue x) as [admit|]; [|discriminate]. destruct (admit (map obj (h_wait s d)) (obj k)) eqn:AD.
    - destruct (d_busy x) eqn:BU.
      + apply bind_ok in H. destruct H as ([b1 w1] & H1 & H). injection H as <- <-. cbn [h_world h_obj h_wait h_cur h_bytes]. split; [exact H1|]. split; [reflexivity|]. exists admit. rewrite AD. repeat split.
      + destruct (h_wait s d ++ [k]) as [|h r] eqn:W; [discriminate|]. apply bind_ok in H. destruct H as (rest & C & H). apply bind_ok in H. destruct H as ([b1 w1] & H1 & H). injection H as <- <-.
        cbn [h_world h_obj h_wait h_cur h_bytes]. split; [exact H1|]. split; [reflexivity|]. exists admit. rewrite AD. split; [reflexivity|]. exists h, r. split; [reflexivity|].
        unfold count_out in C. destruct (Z.ltb_spec (h_bytes s d + size (obj k)) (size (obj h))); [discriminate|]. injection C as <-. repeat split. assumption.
    - apply bind_ok in H. destruct H as ([b1 w1] & H1 & H). injection H as <- <-. cbn [h_world h_obj h_wait h_cur h_bytes]. split; [exact H1|]. split; [reflexivity|]. exists admit. rewrite AD. repeat split.
  Qed.
  Lemma SendObject_down : forall s d k dest q b s', SendObject crc fcs tx_time has_mob s d k dest q = Ok (b, s') -> d_up (w_dev (h_world s) d) = false ->
    Send (h_world s) d (h_obj s k) dest q = Ok (b, h_world s') /\ h_obj s' = h_obj s /\ h_wait s' = h_wait s /\ h_cur s' = h_cur s /\ h_bytes s' = h_bytes s.
  Proof.
    intros s d k dest q b s' H UP. unfold SendObject in H. cbv zeta in H. rewrite UP in H. assert (G : bind (Send (h_world s) d (h_obj s k) dest q) (fun '(b, w1) => Ok (b, mkH w1 (h_obj s) (h_wait s) (h_cur s) (h_bytes s))) = Ok (b, s')) by (destruct dest; exact H).
    apply bind_ok in G. destruct G as ([b1 w1] & H1 & G). injection G as <- <-. repeat split. exact H1.
  Qed.
  Lemma SendObject_bad : forall s d k q r, SendObject crc fcs tx_time has_mob s d k OtherAddress q = Ok r -> d_up (w_dev (h_world s) d) = false.
  Proof. intros s d k q r H. unfold SendObject in H. cbv zeta in H. unfold NetModel.Send in H. cbv zeta in H. destruct (d_up (w_dev (h_world s) d)); [discriminate|reflexivity]. Qed.

  Lemma inv_start : forall dk ck obj, inv (hstart dk ck obj).
  Proof. intros. split; [reflexivity|]. intros. cbn. lia. Qed.

  (** The other operations, step by step. *)
  Lemma other_ok : forall s o s', match o with OSend _ _ _ _ => False | _ => True end -> other crc fcs tx_time has_mob s o = Ok s' -> inv s ->
    step (h_world s) o = Ok (h_world s') /\ h_obj s' = h_obj s /\ inv s' /\
    forall d, match o with OSetQueue e _ => e <> d | _ => True end ->
      (h_wait s' d = h_wait s d /\ h_bytes s' d = h_bytes s d) \/ (exists h, h_wait s d = h :: h_wait s' d /\ h_bytes s' d = h_bytes s d - size (h_obj s h)).
  Proof.
    intros s o s' NS H (I & B). unfold other in H.
    assert (GO : forall wait cur bytes, bind (step (h_world s) o) (fun w1 => Ok (mkH w1 (h_obj s) wait cur bytes)) = Ok s' ->
              exists w1, step (h_world s) o = Ok w1 /\ s' = mkH w1 (h_obj s) wait cur bytes).
    { intros wait cur bytes G. apply bind_ok in G. destruct G as (w1 & G1 & G). injection G as <-. eauto. }
    assert (SAME : match o with OSend _ _ _ _ | OSetQueue _ _ | ORun => False | _ => True end -> bind (step (h_world s) o) (fun w1 => Ok (mkH w1 (h_obj s) (h_wait s) (h_cur s) (h_bytes s))) = Ok s' ->
      step (h_world s) o = Ok (h_world s') /\ h_obj s' = h_obj s /\ inv s' /\
      forall d, match o with OSetQueue e _ => e <> d | _ => True end -> (h_wait s' d = h_wait s d /\ h_bytes s' d = h_bytes s d) \/ (exists h, h_wait s d = h :: h_wait s' d /\ h_bytes s' d = h_bytes s d - size (h_obj s h))).
    { intros K G. destruct (GO _ _ _ G) as (w1 & S1 & ->). cbn [h_world h_obj h_wait h_cur h_bytes]. split; [exact S1|]. split; [reflexivity|]. split; [|intros; left; split; reflexivity].
      split; [|exact B]. intros d. cbn [h_world h_obj h_wait h_cur]. pose proof (other_part _ _ _ S1) as P. destruct o; try contradiction; rewrite P; apply I. }
    destruct o; try contradiction; try (apply SAME; [exact Logic.I|exact H]); clear SAME.
    - (* queue *) destruct (GO _ _ _ H) as (w1 & S1 & ->). cbn [h_world h_obj h_wait h_cur h_bytes]. split; [exact S1|]. split; [reflexivity|]. split.
      + split; cbn [h_world h_obj h_wait h_cur h_bytes]; intros e.
        * rewrite (other_part _ _ _ S1 e). unfold upd. destruct (Nat.eqb_spec e d) as [->|]; [|apply I]. pose proof (I d) as J. unfold part in J. injection J as _ J. rewrite J. reflexivity.
        * unfold upd. destruct (Nat.eqb e d); [lia|apply B].
      + intros e NE. left. unfold upd. destruct (Nat.eqb_spec e d) as [->|]; [contradiction|]. split; reflexivity.
    - (* run *)
      assert (PLAIN : (forall e, match step (h_world s) ORun with Ok w1 => part w1 e = part (h_world s) e | _ => True end) -> bind (step (h_world s) ORun) (fun w1 => Ok (mkH w1 (h_obj s) (h_wait s) (h_cur s) (h_bytes s))) = Ok s' ->
        step (h_world s) ORun = Ok (h_world s') /\ h_obj s' = h_obj s /\ inv s' /\
        forall d, True -> (h_wait s' d = h_wait s d /\ h_bytes s' d = h_bytes s d) \/ (exists h, h_wait s d = h :: h_wait s' d /\ h_bytes s' d = h_bytes s d - size (h_obj s h))).
      { intros K G. destruct (GO _ _ _ G) as (w1 & S1 & ->). cbn [h_world h_obj h_wait h_cur h_bytes]. split; [exact S1|]. split; [reflexivity|]. split; [|intros; left; split; reflexivity].
        split; [|exact B]. intros d. specialize (K d). rewrite S1 in K. cbn [h_world h_obj h_wait h_cur]. rewrite K. apply I. }
      destruct (w_events (h_world s)) as [|[t ev] evs] eqn:EV.
      { apply PLAIN; [|exact H]. intros e. cbn [NetModel.step]. unfold run_next. rewrite EV. reflexivity. }
      destruct ev as [d dest|dst p src pw].
      2:{ apply PLAIN; [|exact H]. intros e. cbn [NetModel.step]. unfold run_next. rewrite EV. destruct (Receive _ _ _ _ _ _ _) eqn:R; try exact Logic.I. exact (Receive_part _ _ _ _ _ _ R e). }
      clear PLAIN. cbv zeta in H.
      assert (CP : forall w1, step (h_world s) ORun = Ok w1 -> let x := w_dev (h_world s) d in d_busy x = true /\ d_cur x <> None /\ d_queue x <> None /\
                forall e, part w1 e = if Nat.eqb e d then match d_q x with [] => ([], None) | h :: r => (r, Some h) end else part (h_world s) e).
      { intros w1 S1. cbn [NetModel.step] in S1. unfold run_next in S1. rewrite EV in S1. cbv zeta in S1. destruct (Complete_part _ _ _ _ S1) as (A1 & A2 & A3 & A4). repeat split; assumption. }
      assert (PQ : d_q (w_dev (h_world s) d) = map (h_obj s) (h_wait s d) /\ d_cur (w_dev (h_world s) d) = option_map (h_obj s) (h_cur s d)) by (pose proof (I d) as J; unfold part in J; injection J as J1 J2; auto).
      destruct PQ as (PQ & PC).
      assert (END : forall rest h r, h_wait s d = h :: r -> count_out (h_bytes s d) (h_obj s h) = Ok rest -> bind (step (h_world s) ORun) (fun w1 => Ok (mkH w1 (h_obj s) (upd (h_wait s) d r) (upd (h_cur s) d (Some h)) (upd (h_bytes s) d rest))) = Ok s' ->
        step (h_world s) ORun = Ok (h_world s') /\ h_obj s' = h_obj s /\ inv s' /\
        forall d, True -> (h_wait s' d = h_wait s d /\ h_bytes s' d = h_bytes s d) \/ (exists h, h_wait s d = h :: h_wait s' d /\ h_bytes s' d = h_bytes s d - size (h_obj s h))).
      { intros rest h r W C G. destruct (GO _ _ _ G) as (w1 & S1 & ->). destruct (CP _ S1) as (_ & _ & _ & P). unfold count_out in C. destruct (Z.ltb_spec (h_bytes s d) (size (h_obj s h))); [discriminate|]. injection C as <-.
        cbn [h_world h_obj h_wait h_cur h_bytes]. split; [exact S1|]. split; [reflexivity|]. split.
        - split; cbn [h_world h_obj h_wait h_cur h_bytes]; intros e.
          + rewrite P. unfold upd. destruct (Nat.eqb_spec e d) as [->|]; [|apply I]. rewrite PQ, W. reflexivity.
          + unfold upd. destruct (Nat.eqb e d); [lia|apply B].
        - intros e _. unfold upd. destruct (Nat.eqb_spec e d) as [->|]; [right; exists h; split; [exact W|reflexivity]|left; split; reflexivity]. }
      assert (EMPTY : h_wait s d = [] -> bind (step (h_world s) ORun) (fun w1 => Ok (mkH w1 (h_obj s) (h_wait s) (upd (h_cur s) d None) (h_bytes s))) = Ok s' ->
        step (h_world s) ORun = Ok (h_world s') /\ h_obj s' = h_obj s /\ inv s' /\
        forall d, True -> (h_wait s' d = h_wait s d /\ h_bytes s' d = h_bytes s d) \/ (exists h, h_wait s d = h :: h_wait s' d /\ h_bytes s' d = h_bytes s d - size (h_obj s h))).
      { intros W G. destruct (GO _ _ _ G) as (w1 & S1 & ->). destruct (CP _ S1) as (_ & _ & _ & P). cbn [h_world h_obj h_wait h_cur h_bytes]. split; [exact S1|]. split; [reflexivity|]. split; [|intros; left; split; reflexivity].
        split; cbn [h_world h_obj h_wait h_cur h_bytes]; intros e; [|apply B]. rewrite P. unfold upd. destruct (Nat.eqb_spec e d) as [->|]; [|apply I]. rewrite PQ, W. reflexivity. }
      assert (STOP : ~ (d_busy (w_dev (h_world s) d) = true /\ d_cur (w_dev (h_world s) d) <> None /\ d_queue (w_dev (h_world s) d) <> None) -> forall X : Prop, bind (step (h_world s) ORun) (fun w1 => Ok (mkH w1 (h_obj s) (h_wait s) (upd (h_cur s) d None) (h_bytes s))) = Ok s' -> X).
      { intros K X G. destruct (GO _ _ _ G) as (w1 & S1 & _). destruct (CP _ S1) as (A1 & A2 & A3 & _). contradiction K. auto. }
      destruct (d_busy (w_dev (h_world s) d)); [|apply (STOP ltac:(intros (? & _); discriminate) _ H)].
      destruct (h_cur s d) as [c|] eqn:HC; [|apply (STOP ltac:(intros (_ & A & _); apply A; rewrite PC; reflexivity) _ H)].
      destruct (d_queue (w_dev (h_world s) d)) as [ad|]; [|apply (STOP ltac:(intros (_ & _ & A); apply A; reflexivity) _ H)].
      destruct (h_wait s d) as [|h r] eqn:W.
      + exact (EMPTY eq_refl H).
      + apply bind_ok in H. destruct H as (rest & C & H). exact (END rest h r eq_refl C H).
  Qed.

  Lemma inv_send : forall s d k dest q b s', SendObject crc fcs tx_time has_mob s d k dest q = Ok (b, s') -> inv s -> inv s'.
  Proof.
    intros s d k dest q b s' H (I & B). destruct (d_up (w_dev (h_world s) d)) eqn:UP.
    2:{ destruct (SendObject_down _ _ _ _ _ _ _ H UP) as (HS & E1 & E2 & E3 & E4). split; [|rewrite E4; exact B]. intros e. rewrite (Send_down _ _ _ _ _ _ _ HS UP e), E1, E2, E3. apply I. }
    destruct dest as [a|]; [|apply SendObject_bad in H; congruence].
    destruct (SendObject_up _ _ _ _ _ _ _ H UP) as (HS & E1 & admit & QU & C). set (obj := new_obj s d k a q) in *.
    pose proof (Send_up _ _ _ _ _ _ _ admit HS UP QU) as P. cbv zeta in P.
    assert (OK : frame_of crc fcs (h_obj s k) a q (addr_of (refresh (h_world s) obj (h_wait s) (h_cur s)) d) = obj k) by (unfold obj, new_obj, upd; rewrite Nat.eqb_refl; reflexivity).
    rewrite OK in P. cbn [refresh w_dev d_q d_busy d_cur] in P.
    destruct (admit (map obj (h_wait s d)) (obj k)).
    - destruct (d_busy (w_dev (h_world s) d)) eqn:BU.
      + destruct C as (C1 & C2 & C3). split; intros e; rewrite ?E1, ?C1, ?C2, ?C3.
        * rewrite P, part_refresh. unfold upd. destruct (Nat.eqb_spec e d) as [->|]; [rewrite map_app; reflexivity|reflexivity].
        * unfold upd. destruct (Nat.eqb e d); [|apply B]. pose proof (B d). pose proof (size_nonneg (obj k)). lia.
      + destruct C as (h & r & W & SZ & C1 & C2 & C3). split; intros e; rewrite ?E1, ?C1, ?C2, ?C3.
        * rewrite (P (obj h) (map obj r)), part_refresh; [|change [obj k] with (map obj [k]); rewrite <- map_app, W; reflexivity].
          unfold upd. destruct (Nat.eqb_spec e d) as [->|]; reflexivity.
        * unfold upd. destruct (Nat.eqb e d); [lia|apply B].
    - destruct C as (C1 & C2 & C3). split; intros e; rewrite ?E1, ?C1, ?C2, ?C3; [rewrite P; reflexivity|apply B].
  Qed.
  Lemma inv_step : forall s o s', hstep s o = Ok s' -> inv s -> inv s'.
  Proof.
    intros s o s' H I. destruct o as [d k dest q|o]; cbn [SharedModel.hstep] in H.
    - apply bind_ok in H. destruct H as ([b s1] & H1 & H). injection H as <-. eapply inv_send; eauto.
    - assert (G : forall o, match o with OSend _ _ _ _ => False | _ => True end -> other crc fcs tx_time has_mob s o = Ok s' -> inv s') by (intros o' NS G; exact (proj1 (proj2 (proj2 (other_ok _ _ _ NS G I))))).
      destruct o; try (injection H as <-; exact I); match type of H with other _ _ _ _ _ ?o = _ => exact (G o Logic.I H) end.
  Qed.
  Lemma inv_run : forall ops s s', hrun s ops = Ok s' -> inv s -> inv s'.
  Proof. induction ops as [|o r IH]; intros s s' H I; cbn in H; [injection H as <-; exact I|]. apply bind_ok in H. destruct H as (s1 & H1 & H). eauto using inv_step. Qed.
  Lemma inv_reachable : forall s, hreachable crc fcs tx_time has_mob s -> inv s.
  Proof. intros s (dk & ck & obj & ops & H). exact (inv_run _ _ _ H (inv_start dk ck obj)). Qed.

  (** ** The byte counter *)
  Definition total (obj : nat -> pkt) (l : list nat) : Z := fold_right Z.add 0 (map (fun k => Z.of_nat (length (p_bytes (obj k)))) l).
  Lemma total_app : forall obj l l', total obj (l ++ l') = total obj l + total obj l'.
  Proof. intros obj l l'. unfold total. rewrite map_app. induction l as [|x l IH]; cbn [map app fold_right]; lia. Qed.
  Lemma total_nonneg : forall obj l, 0 <= total obj l.
  Proof. intros obj l. unfold total. induction l; cbn [map fold_right]; lia. Qed.
  Lemma total_upd : forall obj k F l, total (upd obj k F) l = total obj l + Z.of_nat (count_occ Nat.eq_dec l k) * (size F - size (obj k)).
  Proof.
    intros obj k F l. unfold total, size, len. induction l as [|x l IH]; cbn [map fold_right count_occ]; [lia|]. rewrite IH. unfold upd at 1. destruct (Nat.eq_dec x k) as [->|NE].
    - rewrite Nat.eqb_refl. nia.
    - destruct (Nat.eqb_spec x k); [contradiction|]. lia.
  Qed.
  Lemma size_frame : forall p a q own, size (frame_of crc fcs p a q own) = Z.max 46 (size p + 8) + 18.
  Proof. intros. unfold size, frame_of. cbn [p_bytes]. apply AddHeader_len. Qed.
  Definition deficit s d : Z := waiting_bytes s d - h_bytes s d.
  Lemma waiting_total : forall s d, waiting_bytes s d = total (h_obj s) (h_wait s d). Proof. reflexivity. Qed.

  Lemma deficit_send : forall s d k a q b s', SendObject crc fcs tx_time has_mob s d k (Mac a) q = Ok (b, s') -> d_up (w_dev (h_world s) d) = true -> forall e,
    deficit s' e = deficit s e + Z.of_nat (count_occ Nat.eq_dec (h_wait s e) k) * (Z.max 46 (size (h_obj s k) + 8) + 18 - size (h_obj s k)).
  Proof.
    intros s d k a q b s' H UP e. destruct (SendObject_up _ _ _ _ _ _ _ H UP) as (HS & E1 & admit & QU & C). rewrite <- (size_frame (h_obj s k) a q (addr_of (h_world s) d)).
    unfold deficit. rewrite !waiting_total, E1. pose proof (total_upd (h_obj s) k (frame_of crc fcs (h_obj s k) a q (addr_of (h_world s) d))) as T. fold (new_obj s d k a q) in T. set (obj := new_obj s d k a q) in *.
    specialize (T (h_wait s e)).
    assert (ONE : forall x, total obj [x] = size (obj x)) by (intros; unfold total, size, len; cbn; lia).
    assert (CONS : forall x l, total obj (x :: l) = size (obj x) + total obj l) by reflexivity.
    destruct (admit (map obj (h_wait s d)) (obj k)).
    - destruct (d_busy (w_dev (h_world s) d)) eqn:BU.
      + destruct C as (C1 & C2 & C3). rewrite C1, C3. unfold upd. destruct (Nat.eqb_spec e d) as [->|]; [rewrite total_app, ONE|]; lia.
      + destruct C as (h & r & W & SZ & C1 & C2 & C3). rewrite C1, C3. unfold upd. destruct (Nat.eqb_spec e d) as [->|]; [|lia].
        pose proof (CONS h r) as K. rewrite <- W, total_app, ONE in K. lia.
    - destruct C as (C1 & C2 & C3). rewrite C1, C3. lia.
  Qed.
  Lemma deficit_step : forall s o s' d, hstep s o = Ok s' -> inv s -> keeps_queue d o -> deficit s d <= deficit s' d.
  Proof.
    intros s o s' d H I K. destruct o as [e k dest q|o]; cbn [SharedModel.hstep] in H.
    - apply bind_ok in H. destruct H as ([b s1] & H1 & H). injection H as <-. destruct (d_up (w_dev (h_world s) e)) eqn:UP.
      + destruct dest as [a|]; [|apply SendObject_bad in H1; congruence]. rewrite (deficit_send _ _ _ _ _ _ _ H1 UP d). pose proof (size_nonneg (h_obj s k)). nia.
      + destruct (SendObject_down _ _ _ _ _ _ _ H1 UP) as (_ & E1 & E2 & E3 & E4). unfold deficit, waiting_bytes. rewrite E1, E2, E4. lia.
    - assert (G : forall o, match o with OSend _ _ _ _ => False | _ => True end -> keeps_queue d (HOther o) -> other crc fcs tx_time has_mob s o = Ok s' -> deficit s d <= deficit s' d).
      { clear o H K. intros o NS K H. destruct (other_ok _ _ _ NS H I) as (_ & E & _ & P). unfold deficit. rewrite !waiting_total, E. specialize (P d ltac:(destruct o; try exact Logic.I; exact K)).
        destruct P as [(-> & ->)|(h & -> & ->)]; [lia|]. unfold total, size, len. cbn [map fold_right]. lia. }
      destruct o; try (injection H as <-; lia); match type of H with other _ _ _ _ _ ?o = _ => exact (G o Logic.I K H) end.
  Qed.
  Lemma deficit_run : forall ops s s' d, hrun s ops = Ok s' -> inv s -> Forall (keeps_queue d) ops -> deficit s d <= deficit s' d.
  Proof.
    induction ops as [|o r IH]; intros s s' d H I K; cbn in H; [injection H as <-; lia|]. apply bind_ok in H. destruct H as (s1 & H1 & H). inversion K as [|? ? K1 K2]; subst.
    pose proof (deficit_step _ _ _ d H1 I K1). pose proof (IH _ _ d H (inv_step _ _ _ H1 I) K2). lia.
  Qed.
  Lemma deficit_nonempty : forall s d, inv s -> 0 < deficit s d -> h_wait s d <> [].
  Proof. intros s d (_ & B) H E. unfold deficit in H. rewrite waiting_total, E in H. cbn in H. pose proof (B d). lia. Qed.
  Lemma deficit_last : forall s d h t dest evs, inv s -> 0 < deficit s d -> h_wait s d = [h] -> w_events (h_world s) = (t, TxComplete d dest) :: evs ->
    d_busy (w_dev (h_world s) d) = true -> h_cur s d <> None -> d_queue (w_dev (h_world s) d) <> None -> hstep s (HOther ORun) = Abort AssertFailed.
  Proof.
    intros s d h t dest evs I H W EV BU CU QU. cbn [SharedModel.hstep]. unfold other. rewrite EV. cbv zeta. rewrite BU, W. destruct (h_cur s d); [|contradiction]. destruct (d_queue _); [|contradiction].
    unfold deficit in H. rewrite waiting_total, W in H. cbn in H. unfold count_out, size, len. destruct (Z.ltb_spec (h_bytes s d) (Z.of_nat (length (p_bytes (h_obj s h))))); [reflexivity|lia].
  Qed.
  Lemma deficit_start : forall dk ck obj d, deficit (hstart dk ck obj) d = 0. Proof. reflexivity. Qed.

  (** ** Objects sent once *)
  Definition absent s k : Prop := forall d, ~ In k (h_wait s d) /\ h_cur s d <> Some k.
  Lemma refresh_same : forall s k F, inv s -> absent s k -> refresh (h_world s) (upd (h_obj s) k F) (h_wait s) (h_cur s) = h_world s.
  Proof.
    intros s k F (I & _) A. destruct s as [w obj wait cur bytes]. cbn [h_world h_obj h_wait h_cur] in *. destruct w as [now dv ch ev lg]. unfold refresh. cbn. f_equal. apply functional_extensionality. intros d.
    specialize (I d). specialize (A d). cbn in A, I. unfold part in I. cbn in I. destruct (dv d) as [c1 c2 c3 c4 c5 c6 c7 c8]. cbn in *. injection I as -> ->. destruct A as (A1 & A2). f_equal.
    - apply map_ext_in. intros x IN. unfold upd. destruct (Nat.eqb_spec x k) as [->|]; [contradiction|reflexivity].
    - destruct (cur d) as [x|]; [|reflexivity]. cbn. unfold upd. destruct (Nat.eqb_spec x k) as [->|]; [contradiction|reflexivity].
  Qed.
  Lemma total_absent : forall obj k F l, ~ In k l -> total (upd obj k F) l = total obj l.
  Proof. intros. rewrite total_upd. rewrite (proj1 (count_occ_not_In Nat.eq_dec l k) H). lia. Qed.

  Lemma send_same : forall s d k dest q, inv s -> (forall e, deficit s e = 0) -> absent s k ->
    match SendObject crc fcs tx_time has_mob s d k dest q, Send (h_world s) d (h_obj s k) dest q with
    | Ok (b, s'), Ok (b', w') => b = b' /\ h_world s' = w' | Abort x, Abort y => x = y | UB x, UB y => x = y | _, _ => False end.
  Proof.
    intros s d k dest q I D A. unfold SendObject. cbv zeta.
    assert (PLAIN : forall obj wait cur bytes, match bind (Send (h_world s) d (h_obj s k) dest q) (fun '(b, w1) => Ok (b, mkH w1 obj wait cur bytes)), Send (h_world s) d (h_obj s k) dest q with
      | Ok (b, s'), Ok (b', w') => b = b' /\ h_world s' = w' | Abort x, Abort y => x = y | UB x, UB y => x = y | _, _ => False end).
    { intros. destruct (Send (h_world s) d (h_obj s k) dest q) as [[b w1]| |]; cbn; auto. }
    destruct dest as [a|]; [|apply PLAIN]. destruct (d_up (w_dev (h_world s) d)) eqn:UP; [|apply PLAIN].
    rewrite (refresh_same s k _ I A). destruct (d_queue (w_dev (h_world s) d)) as [admit|] eqn:QU.
    2:{ unfold NetModel.Send. cbv zeta. rewrite UP, QU. reflexivity. }
    destruct (admit _ _); [|apply PLAIN]. destruct (d_busy _); [apply PLAIN|].
    destruct (h_wait s d ++ [k]) as [|h r] eqn:W; [destruct (h_wait s d); discriminate|].
    match goal with |- context [count_out ?b ?p] => assert (C : count_out b p = Ok (b - size p)) end.
    { unfold count_out. match goal with |- (if ?b <? ?c then _ else _) = _ => destruct (Z.ltb_spec b c) as [L|]; [exfalso|reflexivity] end.
      pose proof (D d) as Dd. unfold deficit in Dd. rewrite waiting_total in Dd. pose proof (total_nonneg (h_obj s) r) as T0.
      destruct (h_wait s d) as [|x l] eqn:WW.
      - cbn in W. injection W as <- <-. cbn in Dd. unfold upd in L. rewrite Nat.eqb_refl in L. lia.
      - cbn in W. injection W as <- <-. destruct (A d) as (A1 & _). rewrite WW in A1. unfold upd in L. destruct (Nat.eqb_spec x k) as [->|]; [apply A1; left; reflexivity|].
        unfold total in Dd. cbn [map fold_right] in Dd. pose proof (total_nonneg (h_obj s) l) as T1. unfold total in T1. match type of L with _ + size ?F < _ => pose proof (size_nonneg F) end. unfold size at 2, len in L. lia. }
    rewrite C. cbn [bind]. apply PLAIN.
  Qed.
  Lemma other_same : forall s o, inv s -> (forall e, deficit s e = 0) -> same_outcome (other crc fcs tx_time has_mob s o) (step (h_world s) o).
  Proof.
    intros s o I D. assert (PLAIN : forall obj wait cur bytes, same_outcome (bind (step (h_world s) o) (fun w1 => Ok (mkH w1 obj wait cur bytes))) (step (h_world s) o)) by (intros; destruct (step (h_world s) o); cbn; auto).
    unfold other. destruct o; try apply PLAIN. destruct (w_events (h_world s)) as [|[t ev] evs]; [apply PLAIN|]. destruct ev as [d dest|]; [|apply PLAIN]. cbv zeta.
    destruct (d_busy _); [|apply PLAIN]. destruct (h_cur s d); [|apply PLAIN]. destruct (d_queue _); [|apply PLAIN]. destruct (h_wait s d) as [|h r] eqn:W; [apply PLAIN|].
    assert (C : count_out (h_bytes s d) (h_obj s h) = Ok (h_bytes s d - size (h_obj s h))).
    { unfold count_out. destruct (Z.ltb_spec (h_bytes s d) (size (h_obj s h))) as [L|]; [exfalso|reflexivity]. pose proof (D d) as Dd. unfold deficit in Dd. rewrite waiting_total, W in Dd. unfold total in Dd. cbn [map fold_right] in Dd.
      pose proof (total_nonneg (h_obj s) r) as T1. unfold total in T1. unfold size, len in L. lia. }
    rewrite C. cbn [bind]. apply PLAIN.
  Qed.
  (** Which objects are held, and their contents, after a step. *)
  Lemma held_send : forall s d k dest q b s', SendObject crc fcs tx_time has_mob s d k dest q = Ok (b, s') -> forall j, j <> k -> h_obj s' j = h_obj s j /\ (absent s j -> absent s' j).
  Proof.
    intros s d k dest q b s' H j NE. destruct (d_up (w_dev (h_world s) d)) eqn:UP.
    2:{ destruct (SendObject_down _ _ _ _ _ _ _ H UP) as (_ & E1 & E2 & E3 & E4). unfold absent. rewrite E1, E2, E3. auto. }
    destruct dest as [a|]; [|apply SendObject_bad in H; congruence]. destruct (SendObject_up _ _ _ _ _ _ _ H UP) as (HS & E1 & admit & QU & C). rewrite E1. split; [unfold new_obj, upd; destruct (Nat.eqb_spec j k); [contradiction|reflexivity]|].
    intros A e. destruct (A e) as (A1 & A2). destruct (admit _ _).
    - destruct (d_busy _).
      + destruct C as (C1 & C2 & C3). rewrite C1, C2. split; [|exact A2]. unfold upd. destruct (Nat.eqb_spec e d) as [->|]; [|exact A1]. rewrite in_app_iff. cbn. intuition.
      + destruct C as (h & r & W & SZ & C1 & C2 & C3). rewrite C1, C2. unfold upd. destruct (Nat.eqb_spec e d) as [->|]; [|split; assumption].
        assert (NI : ~ In j (h :: r)) by (rewrite <- W, in_app_iff; cbn; intuition). split; [intros K; apply NI; right; exact K|]. intros K. injection K as ->. apply NI. left. reflexivity.
    - destruct C as (C1 & C2 & C3). rewrite C1, C2. split; assumption.
  Qed.
  Lemma held_other : forall s o s', other crc fcs tx_time has_mob s o = Ok s' -> h_obj s' = h_obj s /\ forall j, absent s j -> absent s' j.
  Proof.
    intros s o s' H. assert (GO : forall wait cur bytes, (forall j, absent s j -> forall e, ~ In j (wait e) /\ cur e <> Some j) -> bind (step (h_world s) o) (fun w1 => Ok (mkH w1 (h_obj s) wait cur bytes)) = Ok s' -> h_obj s' = h_obj s /\ forall j, absent s j -> absent s' j).
    { intros wait cur bytes K G. apply bind_ok in G. destruct G as (w1 & G1 & G). injection G as <-. split; [reflexivity|]. intros j A e. exact (K j A e). }
    unfold other in H. assert (S : forall j, absent s j -> forall e, ~ In j (h_wait s e) /\ h_cur s e <> Some j) by (intros j A e; exact (A e)).
    destruct o; try exact (GO _ _ _ S H).
    - refine (GO _ _ _ _ H). intros j A e. unfold upd. destruct (Nat.eqb e d); [|apply S; exact A]. split; [intros []|apply S; exact A].
    - destruct (w_events (h_world s)) as [|[t ev] evs]; [exact (GO _ _ _ S H)|]. destruct ev as [d dest|]; [|exact (GO _ _ _ S H)]. cbv zeta in H.
      assert (NONE : forall j, absent s j -> forall e, ~ In j (h_wait s e) /\ upd (h_cur s) d None e <> Some j). { intros j A e. split; [apply (S _ A)|]. unfold upd. destruct (Nat.eqb e d); [discriminate|apply (S _ A)]. }
      destruct (d_busy _); [|exact (GO _ _ _ NONE H)]. destruct (h_cur s d); [|exact (GO _ _ _ NONE H)]. destruct (d_queue _); [|exact (GO _ _ _ NONE H)]. destruct (h_wait s d) as [|h r] eqn:W; [exact (GO _ _ _ NONE H)|].
      apply bind_ok in H. destruct H as (rest & C & H). refine (GO _ _ _ _ H). intros j A e. destruct (S _ A e) as (S1 & S2). unfold upd. destruct (Nat.eqb_spec e d) as [->|]; [|split; assumption].
      rewrite W in S1. split; [intros K; apply S1; right; exact K|]. intros K. injection K as ->. apply S1. left. reflexivity.
  Qed.
  Lemma deficit_zero_send : forall s d k dest q b s', SendObject crc fcs tx_time has_mob s d k dest q = Ok (b, s') -> absent s k -> (forall e, deficit s e = 0) -> forall e, deficit s' e = 0.
  Proof.
    intros s d k dest q b s' H A D e. destruct (d_up (w_dev (h_world s) d)) eqn:UP.
    - destruct dest as [a|]; [|apply SendObject_bad in H; congruence]. rewrite (deficit_send _ _ _ _ _ _ _ H UP e), D. rewrite (proj1 (count_occ_not_In Nat.eq_dec _ _) (proj1 (A e))). lia.
    - destruct (SendObject_down _ _ _ _ _ _ _ H UP) as (_ & E1 & E2 & E3 & E4). rewrite <- (D e). unfold deficit, waiting_bytes. rewrite E1, E2, E4. reflexivity.
  Qed.
  Lemma deficit_zero_other : forall s o s', match o with OSend _ _ _ _ => False | _ => True end -> other crc fcs tx_time has_mob s o = Ok s' -> inv s -> (forall e, deficit s e = 0) -> forall e, deficit s' e = 0.
  Proof.
    intros s o s' NS H I D e. destruct (other_ok _ _ _ NS H I) as (_ & E & _ & P). specialize (P e).
    assert (K : match o with OSetQueue d _ => d = e | _ => False end \/ match o with OSetQueue d _ => d <> e | _ => True end) by (destruct o; try (right; exact Logic.I); destruct (Nat.eq_dec d e); auto).
    destruct K as [K|K].
    - destruct o; try contradiction. subst. unfold other in H. apply bind_ok in H. destruct H as (w1 & _ & H). injection H as <-. unfold deficit. rewrite waiting_total. cbn [h_obj h_wait h_bytes]. unfold upd. rewrite Nat.eqb_refl. reflexivity.
    - rewrite <- (D e). unfold deficit. rewrite !waiting_total, E. destruct (P K) as [(-> & ->)|(h & -> & ->)]; [lia|]. unfold total, size, len. cbn [map fold_right]. lia.
  Qed.

  Lemma separate : forall ops s obj, inv s -> (forall e, deficit s e = 0) -> NoDup (sent_objects ops) -> Forall no_plain_send ops ->
    (forall k, In k (sent_objects ops) -> absent s k /\ h_obj s k = obj k) ->
    same_outcome (hrun s ops) (NetModel.run crc fcs tx_time has_mob (h_world s) (map (own_packet obj) ops)).
  Proof.
    induction ops as [|o ops IH]; intros s obj I D ND NP A; [reflexivity|]. inversion NP as [|? ? P1 P2]; subst. cbn [SharedModel.hrun NetModel.run map].
    destruct o as [d k dest q|o]; cbn [own_packet SharedModel.hstep].
    - cbn [sent_objects flat_map app] in ND, A. fold (sent_objects ops) in ND, A. inversion ND as [|? ? N1 N2]; subst. destruct (A k (or_introl eq_refl)) as (A1 & A2).
      pose proof (send_same s d k dest q I D A1) as S. rewrite A2 in S. cbn [NetModel.step].
      destruct (SendObject crc fcs tx_time has_mob s d k dest q) as [[b s1]|x|x] eqn:H; destruct (Send (h_world s) d (obj k) dest q) as [[b' w1]|y|y]; try contradiction; cbn [bind]; [|exact S|exact S].
      destruct S as (_ & <-). apply IH; [eapply inv_send; eauto|eapply deficit_zero_send; eauto|exact N2|exact P2|]. intros j IN. destruct (A j (or_intror IN)) as (B1 & B2).
      assert (NE : j <> k) by (intros ->; contradiction). destruct (held_send _ _ _ _ _ _ _ H j NE) as (K1 & K2). split; [auto|congruence].
    - assert (NS : match o with OSend _ _ _ _ => False | _ => True end) by (destruct o; exact P1). pose proof (other_same s o I D) as S.
      assert (G : same_outcome (bind (other crc fcs tx_time has_mob s o) (fun s1 => hrun s1 ops)) (bind (step (h_world s) o) (fun w1 => NetModel.run crc fcs tx_time has_mob w1 (map (own_packet obj) ops)))).
      { destruct (other crc fcs tx_time has_mob s o) as [s1|x|x] eqn:H; destruct (step (h_world s) o) as [w1|y|y]; try contradiction; cbn [bind]; [|exact S|exact S]. cbn in S. subst w1.
        destruct (other_ok _ _ _ NS H I) as (_ & E & I' & _). apply IH; [exact I'|eapply deficit_zero_other; eauto|exact ND|exact P2|]. intros j IN. destruct (A j IN) as (B1 & B2). split; [apply (held_other _ _ _ H); exact B1|congruence]. }
      destruct o; try exact G. contradiction.
  Qed.
End Proofs.
