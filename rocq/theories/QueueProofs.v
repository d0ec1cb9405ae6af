(** Waiting times are bounded by the room in the queue. *)
Require Import ZArith List Bool Lia.
Require Import Verif.Base Verif.Num Verif.FrameModel Verif.NetModel Verif.NetSpec Verif.QueueSpec Verif.NetSteps Verif.NetInv
  Verif.NetTxProofs.
Import ListNotations.
Local Open Scope Z_scope.

Section Queue.
  Context {N : Num}.
  Variable crc : list Z -> Z.
  Variable fcs : bool.
  Variable tx_time : Z -> Z -> Z.
  Variable has_mob : nat -> bool.
  Notation run := (@run N crc fcs tx_time has_mob).
  Notation reachable := (@reachable N crc fcs tx_time has_mob).
  Notation micro := (@micro N crc fcs tx_time has_mob true every).
  Notation micros := (@micros N crc fcs tx_time has_mob true every).
  Implicit Type w : world N.

  (** The queue of d stays unless it is replaced, and takes what it admits. *)
  Lemma micro_queue : forall w w' d, micro w w' ->
    (d_queue (w_dev w' d) = d_queue (w_dev w d) /\
     ((length (d_q (w_dev w' d)) <= length (d_q (w_dev w d)))%nat \/
      (length (d_q (w_dev w' d)) = S (length (d_q (w_dev w d))) /\
       exists admit f, d_queue (w_dev w d) = Some admit /\ admit (d_q (w_dev w d)) f = true))) \/
    exists t l, w_log w' = w_log w ++ (t, QueueSet d) :: l.
  Proof.
    intros w w' d M. destruct M; try rename d0 into e.
    all: try (left; split; [reflexivity|left; apply Nat.le_refl]).
    - left. unfold emit, set_tx, set_dev. cbn. unfold upd. destruct (Nat.eqb_spec d e) as [->|NE]; cbn.
      + split; [reflexivity|]. right. rewrite app_length. cbn. split; [lia|eauto].
      + split; [reflexivity|left; lia].
    - left. unfold begin_tx, set_tx, set_dev. cbn. unfold upd. destruct (Nat.eqb_spec d e) as [->|NE]; cbn.
      + rewrite Nat.eqb_refl. cbn. split; [reflexivity|]. left.
        match goal with X : _ ++ [_] = h :: r |- _ => apply (f_equal (@length pkt)) in X; rewrite app_length in X; cbn in X end. lia.
      + split; [reflexivity|left; lia].
    - left. unfold emit, set_tx, set_dev. cbn. unfold upd. destruct (Nat.eqb_spec d e) as [->|NE]; cbn; (split; [reflexivity|left; lia]).
    - left. unfold begin_tx, set_tx, set_dev. cbn. unfold upd. destruct (Nat.eqb_spec d e) as [->|NE]; cbn.
      + rewrite !Nat.eqb_refl. cbn. split; [reflexivity|]. left.
        match goal with X : d_q _ = h :: q |- _ => rewrite X end. cbn. lia.
      + split; [reflexivity|left; lia].
    - match goal with X : Receive _ _ _ _ _ _ _ = _ |- _ => apply Receive_emit in X as (l & ->) end.
      left. split; [reflexivity|left; apply Nat.le_refl].
    - left. unfold Configure, set_dev. cbn. unfold upd. destruct (Nat.eqb_spec d e) as [->|NE]; cbn; (split; [reflexivity|left; lia]).
    - destruct (Nat.eq_dec d e) as [->|NE].
      + right. exists (w_now w), []. reflexivity.
      + left. unfold SetQueue, set_dev. cbn. rewrite upd_other by assumption. split; [reflexivity|left; lia].
    - match goal with X : Attach _ _ _ = _ |- _ => apply Attach_spec in X as (g & s & _ & _ & _ & _ & _ & _ & _ & _ & HD & HD' & _) end.
      left. destruct (Nat.eq_dec d e) as [->|NE]; [rewrite HD'|rewrite HD by assumption]; (split; [reflexivity|left; apply Nat.le_refl]).
    - left. unfold set_link, set_dev. cbn. unfold upd. destruct (Nat.eqb_spec d e) as [->|NE]; cbn; (split; [reflexivity|left; lia]).
  Qed.

  Notation accepted := (accepted crc fcs).

  (** Everything accepted so far: [past] was transmitted in time, [line] waits and
      will be. *)
  Definition in_time (d : nat) (L : nat) (H : Z) w : Prop :=
    exists past line, accepted d (w_log w) = past ++ line /\
      Forall2 (fun x y => sent_frame y = snd x /\ fst x <= begins y <= fst x + Z.of_nat L * H) past (transmissions d (w_log w)) /\
      map snd line = d_q (w_dev w d) /\ Forall (fun x => fst x <= w_now w) line /\
      (length line <= L)%nat /\
      if d_busy (w_dev w d)
      then exists u, ends d (w_events w) = [u] /\ u <= w_now w + H /\
           forall j a f, nth_error line j = Some (a, f) -> u + Z.of_nat j * H <= a + Z.of_nat L * H
      else ends d (w_events w) = [] /\ line = [].

  Lemma accepted_app : forall d l l', accepted d (l ++ l') = accepted d l ++ accepted d l'.
  Proof. intros. unfold NetSpec.accepted. apply flat_map_app. Qed.
  Lemma transmissions_app : forall d l l', transmissions d (l ++ l') = transmissions d l ++ transmissions d l'.
  Proof. intros. unfold transmissions. apply flat_map_app. Qed.
  Lemma accepted_other : forall d t l, Forall (fun o => about d o = false) l -> accepted d (map (pair t) l) = [].
  Proof.
    intros d t l. unfold NetSpec.accepted. apply flat_other. intros t' o Ho.
    destruct o; try reflexivity. cbn in *. destruct ok; [rewrite Ho|]; reflexivity.
  Qed.
  Lemma transmissions_other : forall d t l, Forall (fun o => about d o = false) l -> transmissions d (map (pair t) l) = [].
  Proof.
    intros d t l. unfold transmissions. apply flat_other. intros t' o Ho.
    destruct o; try reflexivity. cbn in *. rewrite Ho. reflexivity.
  Qed.

  Ltac getst H := unfold tx_state in H; injection H as EBU ECU EQU ECH EUP.

  Lemma local_in_time : forall d L H w w', local crc fcs tx_time d w w' -> timely w' -> in_time d L H w -> 0 <= H ->
    (length (d_q (w_dev w' d)) <= L)%nat ->
    (forall l, w_log w' = w_log w ++ l -> (forall t, ~ In (t, QueueSet d) l) /\ (forall x, In x (transmissions d l) -> slot x <= H)) ->
    in_time d L H w'.
  Proof.
    intros d L H w w' LO TI (past & line & HA & HF & HQ & HT & HL & HB) H0 HR HX.
    destruct LO as [l E EV NW LG AB|l E EV NW LG AB|p a q U B E EV NW LG|p a q c h r U B Q C D E EV NW LG
      |t r dest cur EV0 T0 B CU Q E EV NW LG|t r dest cur h q c EV0 T0 B CU Q C D E EV NW LG|E EV NW LG|c b E CN CB EV NW LG];
      unfold logs in LG; destruct (HX _ LG) as [NQ NS]; getst E.
    - (* other *)
      exists past, line. rewrite LG, accepted_app, transmissions_app, accepted_other, transmissions_other, !app_nil_r by assumption.
      rewrite EQU, EBU. split; [exact HA|]. split; [exact HF|]. split; [exact HQ|].
      split; [eapply Forall_impl; [|exact HT]; cbn; intros; lia|]. split; [exact HL|].
      rewrite ends_pend, EV, <- ends_pend. destruct (d_busy (w_dev w d)); [|exact HB].
      destruct HB as (u & B1 & B2 & B3). exists u. split; [exact B1|]. split; [lia|exact B3].
    - (* refused *)
      exists past, line. rewrite LG, accepted_app, transmissions_app, EQU, EBU, EV, NW.
      assert (X : accepted d (map (pair (w_now w')) l) = [] /\ transmissions d (map (pair (w_now w')) l) = []).
      { destruct AB as [(p & a & q & _ & ->)|[(p & _ & ->)|(p & a & q & _ & ->)]]; split; reflexivity. }
      rewrite <- NW. destruct X as [-> ->]. rewrite !app_nil_r. rewrite NW. auto 10.
    - (* enqueue *)
      exists past, (line ++ [(w_now w, frame_of crc fcs p a q (addr_of w d))]).
      rewrite LG, accepted_app, transmissions_app, EQU, EBU, EV, NW. cbn. rewrite Nat.eqb_refl, !app_nil_r. cbn.
      rewrite EQU in HR. rewrite app_length in HR. cbn in HR.
      assert (LL : length line = length (d_q (w_dev w d))) by (rewrite <- HQ; symmetry; apply map_length).
      split; [rewrite HA, app_assoc; reflexivity|]. split; [exact HF|].
      split; [rewrite map_app, HQ; reflexivity|].
      split; [apply Forall_app; split; [exact HT|]; constructor; [cbn; lia|constructor]|].
      split; [rewrite app_length; cbn; lia|]. rewrite B in HB. destruct HB as (u & B1 & B2 & B3). exists u.
      split; [exact B1|]. split; [exact B2|]. intros j a' f HJ.
      destruct (Nat.lt_ge_cases j (length line)) as [LT|GE].
      + rewrite nth_error_app1 in HJ by exact LT. eapply B3; exact HJ.
      + rewrite nth_error_app2 in HJ by exact GE. destruct (j - length line)%nat as [|k] eqn:EJ; cbn in HJ; [|destruct k; discriminate].
        injection HJ as <- <-. assert (Z.of_nat j + 1 <= Z.of_nat L) by lia.
        enough ((Z.of_nat j + 1) * H <= Z.of_nat L * H) by lia. apply Z.mul_le_mono_nonneg_r; assumption.
    - (* send, idle *)
      rewrite B in HB. destruct HB as [B1 ->]. cbn in HQ. rewrite <- HQ in Q. cbn in Q. injection Q as <- <-.
      set (f := frame_of crc fcs p a q (addr_of w d)) in *.
      exists (past ++ [(w_now w, f)]), []. rewrite app_nil_r in HA.
      rewrite LG, accepted_app, transmissions_app, EQU, EBU, EV, NW. cbn. rewrite Nat.eqb_refl, !app_nil_r. cbn.
      set (y := (w_now w, f, tx_time (g_bps (d_cfg (w_dev w d))) (len (p_bytes f)) + g_gap (d_cfg (w_dev w d)))).
      assert (YH : slot y <= H). { apply NS. unfold transmissions. cbn. rewrite Nat.eqb_refl. rewrite NW. left. reflexivity. }
      split; [rewrite HA; reflexivity|].
      split. { apply Forall2_app; [exact HF|]. constructor; [|constructor]. unfold y, sent_frame, begins. cbn. split; [reflexivity|]. nia. }
      split; [reflexivity|]. split; [constructor|]. split; [lia|].
      exists (w_now w + tx_duration tx_time w d f). split; [apply ends_insert_self; exact B1|].
      change (slot y) with (tx_duration tx_time w d f) in YH.
      split; [lia|]. intros [|j] ? ? X; discriminate.
    - (* complete *)
      rewrite B, Q in *. apply map_eq_nil in HQ. subst line.
      exists past, []. rewrite LG, accepted_app, transmissions_app, EQU, EBU, EV. cbn. rewrite !app_nil_r. rewrite app_nil_r in HA.
      split; [exact HA|]. split; [exact HF|]. split; [reflexivity|]. split; [constructor|]. split; [lia|]. split; [|reflexivity].
      destruct HB as (u & B1 & _). rewrite EV0, ends_cons_self in B1. injection B1 as _ B1. exact B1.
    - (* next *)
      rewrite B, Q in *. destruct line as [|[a0 f0] line]; [discriminate|]. cbn in HQ. injection HQ as -> HQ.
      destruct HB as (u & B1 & B2 & B3). rewrite EV0, ends_cons_self in B1. injection B1 as <- B1.
      exists (past ++ [(a0, h)]), line.
      rewrite LG, accepted_app, transmissions_app, EQU, EBU, EV, NW. cbn. rewrite Nat.eqb_refl, !app_nil_r. cbn.
      set (y := (t, h, tx_time (g_bps (d_cfg (w_dev w d))) (len (p_bytes h)) + g_gap (d_cfg (w_dev w d)))).
      assert (YH : slot y <= H). { apply NS. unfold transmissions. cbn. rewrite Nat.eqb_refl. rewrite NW. left. reflexivity. }
      pose proof (Forall_inv HT) as HT1. pose proof (Forall_inv_tail HT) as HT2. cbn in HT1. pose proof (B3 0%nat a0 h eq_refl) as B30. cbn in B30.
      split; [rewrite HA, <- app_assoc; reflexivity|].
      split. { apply Forall2_app; [exact HF|]. constructor; [|constructor]. unfold y, sent_frame, begins. cbn. split; [reflexivity|]. lia. }
      split; [exact HQ|]. split; [eapply Forall_impl; [|exact HT2]; cbn; intros; lia|]. split; [cbn in HL; lia|].
      exists (t + tx_duration tx_time w d h). split; [apply ends_insert_self; exact B1|].
      change (slot y) with (tx_duration tx_time w d h) in YH.
      split; [lia|]. intros j a f HJ. specialize (B3 (S j) a f HJ). rewrite Nat2Z.inj_succ in B3. lia.
    - exfalso. apply (NQ (w_now w')). left. reflexivity.
    - exists past, line. rewrite LG, accepted_app, transmissions_app, EQU, EBU, EV, NW. cbn. rewrite !app_nil_r. auto 10.
  Qed.

  Lemma micro_log : forall w w', micro w w' -> timely w -> exists l, w_log w' = w_log w ++ l.
  Proof.
    intros w w' M T. destruct (micro_local crc fcs tx_time has_mob w w' 0 M T) as
      [l E EV NW LG AB|l E EV NW LG AB|p a q U B E EV NW LG|p a q c h r U B Q C D E EV NW LG
      |t r dest cur EV0 T0 B CU Q E EV NW LG|t r dest cur h q c EV0 T0 B CU Q C D E EV NW LG|E EV NW LG|c b E CN CB EV NW LG];
      eexists; exact LG.
  Qed.
  Lemma micros_log : forall w w', micros w w' -> timely w -> exists l, w_log w' = w_log w ++ l.
  Proof.
    induction 1 as [|w w1 w2 M1 M2 IH]; intros T; [exists []; symmetry; apply app_nil_r|].
    destruct (micro_log _ _ M1 T) as (l1 & L1).
    destruct (IH (micro_timely crc fcs tx_time has_mob _ _ M1 T)) as (l2 & L2). exists (l1 ++ l2). rewrite L2, L1, app_assoc. reflexivity.
  Qed.

  Lemma micros_in_time : forall d admit L H w w', micros w w' -> timely w -> 0 <= H -> holds_at_most L admit ->
    d_queue (w_dev w d) = Some admit -> (length (d_q (w_dev w d)) <= L)%nat -> in_time d L H w ->
    (forall l, w_log w' = w_log w ++ l -> (forall t, ~ In (t, QueueSet d) l) /\ (forall x, In x (transmissions d l) -> slot x <= H)) ->
    in_time d L H w' /\ timely w'.
  Proof.
    intros d admit L H w w' M. induction M as [|w w1 w2 M1 M2 IH]; intros T H0 HA DQ LQ HI HX; [auto|].
    pose proof (micro_timely crc fcs tx_time has_mob _ _ M1 T) as T1.
    destruct (micros_log _ _ M2 T1) as (l2 & L2).
    assert (HX1 : forall l, w_log w1 = w_log w ++ l -> (forall t, ~ In (t, QueueSet d) l) /\ (forall x, In x (transmissions d l) -> slot x <= H)).
    { intros l Ll. destruct (HX (l ++ l2)) as [X1 X2]; [rewrite L2, Ll, app_assoc; reflexivity|]. split.
      - intros t Ht. apply (X1 t), in_or_app. left. exact Ht.
      - intros x Hx. apply X2. rewrite transmissions_app. apply in_or_app. left. exact Hx. }
    assert (HX2 : forall l, w_log w2 = w_log w1 ++ l -> (forall t, ~ In (t, QueueSet d) l) /\ (forall x, In x (transmissions d l) -> slot x <= H)).
    { destruct (micro_log _ _ M1 T) as (l1 & L1). intros l Ll. destruct (HX (l1 ++ l)) as [X1 X2]; [rewrite Ll, L1, app_assoc; reflexivity|]. split.
      - intros t Ht. apply (X1 t), in_or_app. right. exact Ht.
      - intros x Hx. apply X2. rewrite transmissions_app. apply in_or_app. right. exact Hx. }
    destruct (micro_queue w w1 d M1) as [[Q1 Q2]|(t & l & LQ')].
    2:{ exfalso. apply (proj1 (HX1 _ LQ') t). left. reflexivity. }
    assert (LQ1 : (length (d_q (w_dev w1 d)) <= L)%nat).
    { destruct Q2 as [Q2|(Q2 & admit' & f & Q3 & Q4)]; [lia|]. rewrite DQ in Q3. injection Q3 as <-. apply HA in Q4. lia. }
    apply IH; try assumption; [congruence|].
    eapply local_in_time; try eassumption. apply micro_local with (has_mob := has_mob); assumption.
  Qed.

  Lemma in_time_start : forall d L H w, reachable w -> accepted d (w_log w) = [] -> in_time d L H w /\ d_q (w_dev w d) = [].
  Proof.
    intros d L H w R A. destruct (reachable_transmitter crc fcs tx_time has_mob d w R) as [(_ & _ & line & free & HS & HM & _ & HB) _].
    apply service_empty in HS as [E ET]; [|exact A]. injection E as -> ->. cbn in HM. split; [|symmetry; exact HM].
    exists [], []. rewrite A, ET, <- HM. split; [reflexivity|]. split; [constructor|]. split; [reflexivity|]. split; [constructor|].
    split; [cbn; lia|]. destruct (d_busy (w_dev w d)); [destruct HB as (u & p & X & _); discriminate|].
    destruct HB as (HB & _). auto.
  Qed.

  Lemma waiting_bound : forall w0 d admit L H ops w new, reachable w0 -> accepted d (w_log w0) = [] ->
    d_queue (w_dev w0 d) = Some admit -> holds_at_most L admit -> 0 <= H ->
    run w0 ops = Ok w -> w_log w = w_log w0 ++ new -> (forall t, ~ In (t, QueueSet d) new) ->
    (forall x, In x (transmissions d new) -> slot x <= H) ->
    forall i a f, nth_error (accepted d (w_log w)) i = Some (a, f) ->
    match nth_error (transmissions d (w_log w)) i with
    | Some y => sent_frame y = f /\ a <= begins y <= a + Z.of_nat L * H
    | None => a <= w_now w <= a + Z.of_nat L * H
    end.
  Proof.
    intros w0 d admit L H ops w new R A DQ HA H0 RN LG NQ NS i a f HN.
    destruct (in_time_start d L H w0 R A) as [I0 Q0].
    destruct (reachable_transmitter crc fcs tx_time has_mob d w0 R) as [_ T0].
    apply run_micros in RN; [|eapply reachable_indexed; exact R].
    destruct (micros_in_time d admit L H w0 w RN T0 H0 HA DQ) as [(past & line & IA & IF & IQ & IT & IL & IB) T].
    { rewrite Q0. cbn. lia. }
    { exact I0. }
    { intros l Ll. rewrite LG in Ll. apply app_inv_head in Ll. subst l. auto. }
    assert (LE : length past = length (transmissions d (w_log w))) by (clear - IF; induction IF; cbn; congruence). rewrite IA in HN. destruct (Nat.lt_ge_cases i (length past)) as [LT|GE].
    - rewrite nth_error_app1 in HN by exact LT. clear - IF HN. revert i HN.
      induction IF as [|x y xs ys XY IF IH]; intros i HN; [destruct i; discriminate|].
      destruct i as [|i]; cbn in *; [injection HN as ->; exact XY|]. apply IH. exact HN.
    - rewrite nth_error_app2 in HN by exact GE.
      assert (nth_error (transmissions d (w_log w)) i = None) as -> by (apply nth_error_None; lia).
      destruct (d_busy (w_dev w d)).
      + destruct IB as (u & B1 & B2 & B3). specialize (B3 _ _ _ HN). split.
        { rewrite Forall_forall in IT. apply nth_error_In in HN. apply (IT _ HN). }
        destruct T as [_ T]. assert (w_now w <= u); [|nia].
        rewrite Forall_forall in T. assert (IU : In u (ends d (w_events w))) by (rewrite B1; left; reflexivity).
        unfold ends in IU. apply in_flat_map in IU as ([t e] & IE & IU). specialize (T _ IE). cbn in T, IU.
        destruct e as [d' dest|]; [|destruct IU]. destruct (Nat.eqb d' d); [|destruct IU]. destruct IU as [<-|[]]. exact T.
      + destruct IB as [_ ->]. destruct (i - length past)%nat; discriminate.
  Qed.

  (** ** Throughput *)
  Lemma transmissions_split : forall d log l1 x l2, transmissions d log = l1 ++ x :: l2 ->
    exists m1 m2 c dest tx gap, log = m1 ++ (begins x, ToChannel d c (sent_frame x) dest tx gap) :: m2 /\
      slot x = tx + gap /\ transmissions d m1 = l1 /\ transmissions d m2 = l2.
  Proof.
    intros d log. induction log as [|[t o] r IH]; intros l1 x l2 HT; [destruct l1; discriminate|].
    assert (CO : forall m, transmissions d ((t, o) :: m) = transmissions d [(t, o)] ++ transmissions d m).
    { intros m. apply (transmissions_app d [(t, o)] m). }
    assert (SK : transmissions d [(t, o)] = [] \/
      exists c p dest tx gap, o = ToChannel d c p dest tx gap /\ transmissions d [(t, o)] = [(t, p, tx + gap)]).
    { destruct o; try (left; reflexivity). unfold transmissions. cbn. destruct (Nat.eqb_spec d0 d) as [->|]; [|left; reflexivity].
      right. eexists _, _, _, _, _. split; reflexivity. }
    rewrite CO in HT. destruct SK as [SK|(c & p & dest & tx & gap & -> & SK)]; rewrite SK in HT; cbn [app] in HT.
    - apply IH in HT as (m1 & m2 & c & dest & tx & gap & -> & S1 & S2 & S3).
      exists ((t, o) :: m1), m2, c, dest, tx, gap. split; [reflexivity|]. split; [exact S1|]. split; [|exact S3].
      rewrite CO, SK. exact S2.
    - destruct l1 as [|y l1]; cbn [app] in HT.
      + injection HT as <- HT. exists [], r, c, dest, tx, gap. auto.
      + injection HT as <- HT. apply IH in HT as (m1 & m2 & c' & dest' & tx' & gap' & -> & S1 & S2 & S3).
        exists ((t, ToChannel d c p dest tx gap) :: m1), m2, c', dest', tx', gap'. split; [reflexivity|]. split; [exact S1|]. split; [|exact S3].
        rewrite CO, SK, S2. reflexivity.
  Qed.

  Lemma transmissions_apart : forall d w, reachable w -> forall l1 x y l2,
    transmissions d (w_log w) = l1 ++ x :: y :: l2 -> begins x + slot x <= begins y.
  Proof.
    intros d w R l1 x y l2 HT. apply transmissions_split in HT as (m1 & m2 & c & dest & tx & gap & E1 & S1 & _ & HT).
    apply (transmissions_split d m2 [] y l2) in HT as (n1 & n2 & c' & dest' & tx' & gap' & -> & S2 & HN & _).
    rewrite S1, Z.add_assoc. eapply no_overlap; [exact R|exact E1|].
    intros t c0 p a tx0 g0 HI. apply in_split in HI as (k1 & k2 & ->). rewrite transmissions_app in HN.
    apply app_eq_nil in HN as [_ HN]. unfold transmissions in HN. cbn in HN. rewrite Nat.eqb_refl in HN. discriminate.
  Qed.

  Lemma slots_sum : forall d w, reachable w -> forall l2 l1 x y l3,
    transmissions d (w_log w) = l1 ++ x :: l2 ++ y :: l3 -> total_slots (x :: l2) <= begins y - begins x.
  Proof.
    intros d w R. induction l2 as [|z l2 IH]; intros l1 x y l3 HT.
    - apply transmissions_apart in HT; [|exact R]. cbn. lia.
    - pose proof HT as HT'. cbn [app] in HT'. apply transmissions_apart in HT'; [|exact R].
      change (l1 ++ x :: (z :: l2) ++ y :: l3) with (l1 ++ [x] ++ z :: l2 ++ y :: l3) in HT. rewrite app_assoc in HT.
      apply IH in HT. cbn in *. lia.
  Qed.

  (** ** No waiting *)
  Lemma first_come_spaced : forall acc slots free, spaced acc slots ->
    match free, acc with Some u, (a, _) :: _ => u <= a | _, _ => True end ->
    first_come free (map fst acc) slots = map fst (firstn (length slots) acc).
  Proof.
    induction acc as [|[a f] r IH]; intros slots free SP FR; [destruct slots; reflexivity|].
    destruct slots as [|h hs]; [reflexivity|]. cbn [map first_come length firstn fst].
    assert (match free with Some u => Z.max a u | None => a end = a) as -> by (destruct free; lia).
    f_equal. cbn in SP. destruct SP as [S1 S2]. apply IH; [exact S2|]. destruct r as [|[b g] r]; [exact I|exact S1].
  Qed.
End Queue.
