Require Import ZArith String List Bool Lia Permutation.
Require Import Verif.Base Verif.Num Verif.FrameModel Verif.NetModel Verif.NetSpec Verif.NetRunSpec Verif.NetSteps Verif.NetInv
  Verif.NetTxProofs Verif.NetSendProofs Verif.NetChanProofs Verif.NetOrderProofs Verif.NetDrainProofs
  Verif.AccountModel Verif.AccountSpec.
Import ListNotations.
Local Open Scope Z_scope.

(** ** Lines *)
Section Lines.
  Variable serialized : pkt -> Z.

  Definition plain (x : line) : Z * nat * string * Z := (l_time x, l_dev x, l_source x, l_uid x).
  Definition plain' (x : Z * nat * string * pkt) : Z * nat * string * Z := (fst x, p_uid (snd x)).
  (** The counts are the sums of the sizes. *)
  Definition counted (s : Z * list line) (ps : list pkt) : Prop :=
    fst s = total serialized ps mod 2 ^ 64 /\ length (snd s) = length ps /\
    forall i x, nth_error (snd s) i = Some x -> l_count x = total serialized (firstn (S i) ps) mod 2 ^ 64.

  Lemma total_app : forall f a b, total f (a ++ b) = total f a + total f b.
  Proof. intros f a b. unfold total. induction a as [|x r IH]; cbn; [lia|]. rewrite IH. lia. Qed.

  Lemma counted_next : forall s ps now d name p, counted s ps -> counted (TracePacket serialized now d name p s) (ps ++ [p]).
  Proof.
    intros [c ls] ps now d name p (C & L & H). unfold TracePacket. cbn [fst snd] in *.
    assert (E : (c + serialized p) mod 2 ^ 64 = total serialized (ps ++ [p]) mod 2 ^ 64).
    { rewrite total_app, C. cbn [total fold_right]. rewrite Z.add_0_r, Z.add_mod_idemp_l by discriminate. reflexivity. }
    split; [exact E|]. split; [cbn [snd]; rewrite !app_length, L; reflexivity|]. cbn [snd].
    intros i x X. destruct (Nat.lt_ge_cases i (length ls)) as [B|B].
    - rewrite nth_error_app1 in X by exact B. rewrite (H i x X), firstn_app.
      replace (S i - length ps)%nat with O by lia. rewrite firstn_O, app_nil_r. reflexivity.
    - rewrite nth_error_app2 in X by exact B. destruct (i - length ls)%nat as [|k] eqn:K; [|destruct k; discriminate].
      injection X as <-. match goal with |- l_count ?x = _ => change (l_count x) with ((c + serialized p) mod 2 ^ 64) end.
      rewrite E, firstn_all2; [reflexivity|]. rewrite app_length. cbn. lia.
  Qed.

  Lemma watch_noted : forall a b sinks x s ps, set_up_traces false a b = Ok sinks -> counted s ps ->
    let s' := watch serialized sinks s x in
    counted s' (ps ++ map snd (noted a b x)) /\ map plain (snd s') = map plain (snd s) ++ map plain' (noted a b x).
  Proof.
    intros a b sinks [t o] s ps H C. unfold watch. cbn [fst snd].
    assert (ONE : forall d name p, let s' := TracePacket serialized t d name p s in
      counted s' (ps ++ map snd [(t, d, name, p)]) /\ map plain (snd s') = map plain (snd s) ++ map plain' [(t, d, name, p)]).
    { intros d name p. split; [apply counted_next, C|]. unfold TracePacket. cbn [snd]. rewrite map_app. reflexivity. }
    assert (NO : counted s (ps ++ map snd (@nil (Z * nat * string * pkt))) /\ map plain (snd s) = map plain (snd s) ++ map plain' []).
    { cbn. rewrite !app_nil_r. auto. }
    destruct a, b; injection H as <-; destruct o; cbn [firing noted fst snd fold_left String.eqb Ascii.eqb Bool.eqb app]; first [exact NO|apply ONE].
  Qed.

  Lemma lines_noted : forall a b sinks l, set_up_traces false a b = Ok sinks ->
    let file := trace_lines serialized sinks l in
    map plain file = map plain' (flat_map (noted a b) l) /\
    forall i x, nth_error file i = Some x ->
      l_count x = total serialized (firstn (S i) (map snd (flat_map (noted a b) l))) mod 2 ^ 64.
  Proof.
    intros a b sinks l H. unfold trace_lines.
    assert (G : forall l s ps, counted s ps -> let s' := fold_left (watch serialized sinks) l s in
      counted s' (ps ++ map snd (flat_map (noted a b) l)) /\ map plain (snd s') = map plain (snd s) ++ map plain' (flat_map (noted a b) l)).
    { clear l. induction l as [|x r IH]; intros s ps C; cbn [fold_left flat_map map]; [cbn; rewrite !app_nil_r; auto|].
      destruct (watch_noted a b sinks x s ps H C) as [C1 M1]. destruct (IH _ _ C1) as [C2 M2].
      split; [rewrite map_app, app_assoc; exact C2|]. rewrite M2, M1, map_app, app_assoc. reflexivity. }
    destruct (G l (0, []) []) as [(_ & _ & K) M]; [|split; [exact M|exact K]].
    split; [reflexivity|]. split; [reflexivity|]. intros [|i] x X; discriminate.
  Qed.
End Lines.

(** ** Frames *)
Section Frames.
  Context {N : Num}.
  Variable crc : list Z -> Z.
  Variable fcs : bool.
  Variable tx_time : Z -> Z -> Z.
  Variable has_mob : nat -> bool.
  Notation step := (@step N crc fcs tx_time has_mob).
  Notation run := (@NetModel.run N crc fcs tx_time has_mob).
  Notation reachable := (@reachable N crc fcs tx_time has_mob).
  Implicit Type w : world N.

  Definition tx_only (x : Z * obs) : Prop :=
    match snd x with PhyTxBegin _ _ | ToChannel _ _ _ _ _ _ | TxRx _ _ _ _ _ _ | PhyTxDrop _ _ => True | _ => False end.
  Definition quiet (x : Z * obs) : Prop :=
    match snd x with PhyRxEnd _ _ _ | PhyRxDrop _ _ | MacRx _ _ | MacRxDrop _ _ => False | _ => True end.
  Definition extends (P : Z * obs -> Prop) w w' : Prop := exists l, w_log w' = w_log w ++ l /\ Forall P l.
  Lemma extends_refl : forall P w w', w_log w' = w_log w -> extends P w w'.
  Proof. intros P w w' E. exists []. rewrite app_nil_r. auto. Qed.
  Lemma extends_trans : forall P a b c, extends P a b -> extends P b c -> extends P a c.
  Proof.
    intros P a b c (l1 & E1 & F1) (l2 & E2 & F2). exists (l1 ++ l2). split; [rewrite E2, E1, app_assoc; reflexivity|].
    apply Forall_app. auto.
  Qed.

  Lemma Deliver_tx : forall w c p src dst tx b w', Deliver has_mob w c p src dst tx = Ok (b, w') -> extends tx_only w w'.
  Proof.
    intros w c p src dst tx b w' H. apply Deliver_spec in H as (m & n & _ & _ & [(_ & -> & _)|(_ & _ & _ & ->)]).
    - apply extends_refl. reflexivity.
    - eexists. split; [reflexivity|]. repeat constructor.
  Qed.
  Lemma deliver_all_tx : forall dsts w c p src tx b w', deliver_all has_mob w c p src dsts tx = Ok (b, w') -> extends tx_only w w'.
  Proof.
    induction dsts as [|d r IH]; intros w c p src tx b w' H; cbn in H.
    - injection H as _ <-. apply extends_refl. reflexivity.
    - apply bind_ok in H as ([b1 w1] & H1 & H). apply bind_ok in H as ([b2 w2] & H2 & H). injection H as _ <-.
      eapply extends_trans; [eapply Deliver_tx, H1|eapply IH, H2].
  Qed.
  Lemma Channel_tx : forall w c p i dest tx b w', ChannelTransmitStart has_mob w c p i dest tx = Ok (b, w') -> extends tx_only w w'.
  Proof.
    intros w c p i dest tx b w' H. unfold ChannelTransmitStart, IslTransmitStart, LeoTransmitStart in H.
    destruct (c_kind (w_chan w c)); (destruct (nth_error _ i) as [src|]; [|injection H as _ <-; apply extends_refl; reflexivity]).
    - destruct (GetDevice w c dest); [eapply Deliver_tx, H|]. destruct (dest =? broadcast).
      + apply bind_ok in H as ([b1 w1] & H1 & H). injection H as _ <-. eapply deliver_all_tx, H1.
      + injection H as _ <-. apply extends_refl. reflexivity.
    - destruct (indexed _ _ && indexed _ _); [discriminate|].
      destruct (indexed _ _); [eapply deliver_all_tx, H|]. destruct (indexed _ _); [eapply deliver_all_tx, H|].
      injection H as _ <-. apply extends_refl. reflexivity.
  Qed.
  Lemma TransmitStart_tx : forall w d p dest b w', TransmitStart tx_time has_mob w d p dest = Ok (b, w') -> extends tx_only w w'.
  Proof.
    intros w d p dest b w' H. unfold TransmitStart in H. destruct (d_busy (w_dev w d)); [discriminate|].
    apply bind_ok in H as (w2 & H1 & H). apply schedule_ok in H1 as [_ ->].
    destruct (d_chan (w_dev w d)) as [c|]; [|discriminate].
    apply bind_ok in H as ([result w4] & H1 & H). apply Channel_tx in H1 as (l & E & F).
    assert (X : extends tx_only w w4).
    { eexists. split; [rewrite E; cbn; rewrite <- !app_assoc; reflexivity|]. repeat constructor. exact F. }
    destruct result; injection H as _ <-; [exact X|]. eapply extends_trans; [exact X|].
    eexists. split; [reflexivity|]. repeat constructor.
  Qed.

  Lemma tx_quiet : forall l, Forall tx_only l -> Forall quiet l.
  Proof. intros l. apply Forall_impl. intros [t o]. unfold tx_only, quiet. destruct o; cbn; auto. Qed.

  (** Drops before transmission and acceptances. *)
  Definition settled (d : nat) (l : trace) : nat := (length (mac_tx_drop d l) + length (accepted crc fcs d l))%nat.
  Lemma settled_app : forall d a b, settled d (a ++ b) = (settled d a + settled d b)%nat.
  Proof. intros. unfold settled, mac_tx_drop, accepted. rewrite !flat_map_app, !app_length. lia. Qed.
  Lemma settled_tx : forall d l, Forall tx_only l -> settled d l = O.
  Proof.
    intros d l F. induction F as [|[t o] r H F IH]; [reflexivity|]. change ((t, o) :: r) with ([(t, o)] ++ r).
    rewrite settled_app, IH. unfold tx_only in H. cbn in H. destruct o; cbn; try reflexivity; contradiction.
  Qed.

  (** What an operation adds to the trace. *)
  Definition receives w (o : op N) w' : Prop := o = ORun /\ exists t d p src power r,
    w_events w = (t, RxEvent d p src power) :: r /\ Receive crc fcs (pop w t r) d p src power = Ok w'.
  Lemma step_adds : forall w o w', step w o = Ok w' -> exists new, w_log w' = w_log w ++ new /\
    (forall d, settled d new = sends_on d [o]) /\ (Forall quiet new \/ receives w o w').
  Proof.
    intros w o w' H.
    assert (Q : forall l, w_log w' = w_log w ++ l -> Forall quiet l -> (forall d, settled d l = sends_on d [o]) -> exists new, w_log w' = w_log w ++ new /\
      (forall d, settled d new = sends_on d [o]) /\ (Forall quiet new \/ receives w o w')) by eauto.
    assert (TS : forall w0 d0 h a b pre, TransmitStart tx_time has_mob w0 d0 h a = Ok (b, w') -> w_log w0 = w_log w ++ pre ->
      Forall quiet pre -> (forall d, settled d pre = sends_on d [o]) -> exists new, w_log w' = w_log w ++ new /\
      (forall d, settled d new = sends_on d [o]) /\ (Forall quiet new \/ receives w o w')).
    { intros w0 d0 h a b pre HT E0 F S. apply TransmitStart_tx in HT as (l & EL & FL). apply (Q (pre ++ l)).
      - rewrite EL, E0, app_assoc. reflexivity.
      - apply Forall_app. split; [exact F|apply tx_quiet, FL].
      - intros d. rewrite settled_app, S, (settled_tx d l FL). lia. }
    destruct o; cbn in H.
    - apply bind_ok in H as ([b w1] & H & H1). injection H1 as ->. unfold Send in H. destruct dest as [a|].
      + destruct (negb _).
        { injection H as _ <-. eapply Q; [cbn; rewrite <- app_assoc; reflexivity|repeat constructor|].
          intros d0. unfold settled, sends_on. cbn. destruct (Nat.eqb d d0); reflexivity. }
        destruct (d_queue _) as [admit|]; [|discriminate]. destruct (admit _ _).
        2:{ injection H as _ <-. eapply Q; [cbn; rewrite <- !app_assoc; reflexivity|repeat constructor|].
          intros d0. unfold settled, sends_on. cbn. destruct (Nat.eqb d d0); reflexivity. }
        destruct (d_busy _).
        { injection H as _ <-. eapply Q; [cbn; rewrite <- !app_assoc; reflexivity|repeat constructor|].
          intros d0. unfold settled, sends_on. cbn. destruct (Nat.eqb d d0); reflexivity. }
        destruct (_ ++ _) as [|h r]; [discriminate|].
        apply bind_ok in H as ([b3 w3] & H & H3). injection H3 as _ <-.
        eapply TS; [exact H|cbn; rewrite <- !app_assoc; reflexivity|repeat constructor|].
        intros d0. unfold settled, sends_on. cbn. destruct (Nat.eqb d d0); reflexivity.
      + destruct (d_up _); [discriminate|]. injection H as _ <-. eapply Q; [reflexivity|repeat constructor|].
        intros d0. unfold settled, sends_on. cbn. destruct (Nat.eqb d d0); reflexivity.
    - injection H as <-. apply (Q []); [rewrite app_nil_r; reflexivity|constructor|reflexivity].
    - injection H as <-. eapply Q; [reflexivity|repeat constructor|reflexivity].
    - apply Attach_spec in H as (g & s & _ & _ & _ & _ & _ & _ & HE & HL & _). eapply Q; [exact HL|repeat constructor|reflexivity].
    - apply bind_ok in H as ([b w1] & H & H1). injection H1 as ->. unfold ChannelDetach in H.
      assert (HB : forall x, w_log x = w_log w -> BaseDetach x c i = (b, w') -> exists new, w_log w' = w_log w ++ new /\
        (forall d, settled d new = sends_on d [@ODetach N c i]) /\ (Forall quiet new \/ receives w (ODetach c i) w')).
      { intros x E Hx. unfold BaseDetach in Hx.
        destruct (nth_error (c_link (w_chan x c)) i) as [y|]; [|injection Hx as _ ->; apply (Q []); [rewrite app_nil_r; exact E|constructor|reflexivity]].
        destruct (d_up (w_dev x y)); injection Hx as _ Hx; [|apply (Q []); [rewrite app_nil_r, <- Hx; exact E|constructor|reflexivity]].
        eapply Q; [rewrite <- Hx; cbn; rewrite E; reflexivity|repeat constructor|reflexivity]. }
      destruct (c_kind (w_chan w c)); [injection H as H; apply (HB w); auto|].
      destruct (nth_error (c_link (w_chan w c)) i); [|discriminate]. injection H as H. eapply HB; [|exact H]; reflexivity.
    - injection H as <-. eapply Q; [reflexivity|repeat constructor|reflexivity].
    - injection H as <-. apply (Q []); [rewrite app_nil_r; reflexivity|constructor|reflexivity].
    - injection H as <-. apply (Q []); [rewrite app_nil_r; reflexivity|constructor|reflexivity].
    - destruct (_ && _); injection H as <-; apply (Q []); try constructor; rewrite app_nil_r; reflexivity.
    - unfold run_next in H. destruct (w_events w) as [|[t' e] r] eqn:E; [injection H as <-; apply (Q []); [rewrite app_nil_r; reflexivity|constructor|reflexivity]|].
      destruct e as [d' dest'|dst p' src power].
      + unfold DoTransmitComplete in H. cbn [w_dev] in H.
        destruct (negb _); [discriminate|]. destruct (d_cur _) as [cur|]; [|discriminate].
        destruct (d_queue _) as [admit|]; [|discriminate]. destruct (d_q _) as [|h q].
        { injection H as <-. apply (Q [(t', PhyTxEnd d' cur)]); [reflexivity|repeat constructor|reflexivity]. }
        apply bind_ok in H as ([b3 w3] & H & H3). injection H3 as ->.
        eapply TS; [exact H|cbn; rewrite <- !app_assoc; reflexivity|repeat constructor|reflexivity].
      + assert (RC : receives w ORun w') by (split; [reflexivity|]; rewrite E; eauto 10).
        apply Receive_table in H as (new & -> & T). cbn [w_log w_now] in *.
        eexists. split; [reflexivity|]. split; [|right; exact RC]. intros d.
        destruct T as [(_ & ->)|[(_ & _ & p1 & _ & ->)|(_ & _ & payload & proto & t & _ & ->)]]; try reflexivity.
        destruct (g_pcb _), t; reflexivity.
  Qed.

  Lemma sends_settled : forall ops w w' d, run w ops = Ok w' ->
    settled d (w_log w') = (settled d (w_log w) + sends_on d ops)%nat.
  Proof.
    induction ops as [|o r IH]; intros w w' d H; cbn [NetModel.run] in H.
    - injection H as <-. unfold sends_on. cbn. lia.
    - apply bind_ok in H as (w1 & H1 & H). rewrite (IH _ _ _ H). apply step_adds in H1 as (new & -> & S & _).
      rewrite settled_app, S. change (o :: r) with ([o] ++ r). unfold sends_on. rewrite filter_app, app_length. lia.
  Qed.

  (** ** Receptions *)
  Lemma at_dev_app : forall d f a b, at_dev d f (a ++ b) = (at_dev d f a + at_dev d f b)%nat.
  Proof. intros. unfold at_dev. rewrite filter_app, app_length. reflexivity. Qed.
  Lemma quiet_dev : forall d l, Forall quiet l -> at_dev d phy_rx_end l = O /\ at_dev d phy_rx_drop l = O /\ at_dev d mac_rx l = O /\
    at_dev d mac_rx_drop l = O /\ forall s, fold_left (hear d) l s = s.
  Proof.
    intros d l F. induction F as [|[t o] r H F (A & B & C & D & E)]; [auto|].
    unfold at_dev in *. unfold quiet in H. cbn in H. destruct o; try contradiction; cbn in *; auto 10.
  Qed.

  (** A reception at d0 as seen at d. *)
  Lemma receive_dev : forall w t r d0 p src power w' d, Receive crc fcs (pop w t r) d0 p src power = Ok w' ->
    exists new, w_log w' = w_log w ++ new /\
    ((d0 <> d /\ at_dev d phy_rx_end new = O /\ at_dev d phy_rx_drop new = O /\ at_dev d mac_rx new = O /\ forall s, fold_left (hear d) new s = s) \/
     (d0 = d /\ src = d /\ at_dev d phy_rx_end new = O /\ at_dev d phy_rx_drop new = O /\ at_dev d mac_rx new = O /\ forall s, fold_left (hear d) new s = s) \/
     (d0 = d /\ src <> d /\ (phy_drop crc fcs (d_cfg (w_dev w d)) t p power \/ exists k, k <> POtherHost /\ kind_of (g_addr (d_cfg (w_dev w d))) (frame_dst (p_bytes p)) k) /\
      at_dev d phy_rx_end new = 1%nat /\ (at_dev d phy_rx_drop new + at_dev d mac_rx new = 1)%nat /\
      forall s, fold_left (hear d) new s = (false, ((if fst s then 1 else 0) + snd s)%nat)) \/
     (d0 = d /\ src <> d /\ ~ phy_drop crc fcs (d_cfg (w_dev w d)) t p power /\ kind_of (g_addr (d_cfg (w_dev w d))) (frame_dst (p_bytes p)) POtherHost /\
      at_dev d phy_rx_end new = 1%nat /\ at_dev d phy_rx_drop new = O /\ at_dev d mac_rx new = O /\
      forall s, fold_left (hear d) new s = (true, ((if fst s then 1 else 0) + snd s)%nat))).
  Proof.
    intros w t r d0 p src power w' d H. apply Receive_table in H as (new & -> & T). cbn [w_log w_now w_dev pop] in *.
    eexists. split; [reflexivity|]. destruct (Nat.eq_dec d0 d) as [->|NE].
    - destruct T as [(-> & ->)|[(NS & PD & p1 & _ & ->)|(NS & PD & payload & proto & k & K & ->)]].
      + right. left. cbn. auto 10.
      + right. right. left. unfold at_dev. cbn. rewrite !Nat.eqb_refl. cbn. unfold hear. cbn. rewrite ?Nat.eqb_refl. auto 10.
      + assert (D : k = POtherHost \/ k <> POtherHost) by (destruct k; auto; right; discriminate). destruct D as [->|D].
        * right. right. right. unfold at_dev, hear. destruct (g_pcb _); cbn; rewrite !Nat.eqb_refl; cbn; repeat split; auto; try apply K.
        * right. right. left. split; [reflexivity|]. split; [exact NS|]. split; [right; exists k; auto|].
          unfold at_dev, hear. destruct (g_pcb _), k; try contradiction; cbn; rewrite !Nat.eqb_refl; cbn; auto.
    - left. apply Nat.eqb_neq in NE as NB. split; [exact NE|].
      destruct T as [(-> & ->)|[(NS & PD & p1 & _ & ->)|(NS & PD & payload & proto & k & K & ->)]];
        unfold at_dev, hear; [| |destruct (g_pcb _), k]; cbn; rewrite ?NB; cbn; auto 10.
  Qed.

  Definition balanced (d : nat) (l : trace) : Prop :=
    at_dev d phy_rx_end l = (at_dev d phy_rx_drop l + at_dev d mac_rx l + unreported d l)%nat.
  Lemma step_balanced : forall w o w' d, step w o = Ok w' -> balanced d (w_log w) -> balanced d (w_log w').
  Proof.
    intros w o w' d H B. unfold balanced, unreported in *. pose proof H as H0. apply step_adds in H as (new & E & _ & [Q|R]).
    - rewrite E, !at_dev_app, fold_left_app. destruct (quiet_dev d new Q) as (-> & -> & -> & _ & ->). cbv zeta. lia.
    - destruct R as (_ & t & d0 & p & src & power & r & _ & R). clear new E.
      destruct (receive_dev w t r d0 p src power w' d R) as (new & E & T). rewrite E, !at_dev_app, fold_left_app.
      set (s := fold_left (hear d) (w_log w) (false, O)) in *. clearbody s.
      destruct T as [(_ & -> & -> & -> & ->)|[(_ & _ & -> & -> & -> & ->)|[(_ & _ & _ & -> & A & ->)|(_ & _ & _ & _ & -> & -> & -> & ->)]]];
        cbv zeta; cbn [fst snd]; destruct (fst s); lia.
  Qed.
  Lemma reachable_balanced : forall w d, reachable w -> balanced d (w_log w).
  Proof.
    intros w d (dk & ck & ops & H). assert (B : balanced d (w_log (@initial N dk ck))) by reflexivity.
    revert H B. generalize (@initial N dk ck). induction ops as [|o r IH]; intros w0 H B; cbn [NetModel.run] in H.
    - injection H as <-. exact B.
    - apply bind_ok in H as (w1 & H1 & H). eapply IH; [exact H|]. eapply step_balanced; eassumption.
  Qed.

  Lemma perm_filter : forall A (f : A -> bool) (l m : list A), Permutation l m -> length (filter f l) = length (filter f m).
  Proof.
    intros A f l m H. induction H as [|x l m H IH|x y l|l m n H1 IH1 H2 IH2]; cbn; try reflexivity; try congruence.
    - destruct (f x); cbn; congruence.
    - destruct (f x), (f y); reflexivity.
  Qed.
  Lemma performed_dev : forall d l, coming d (performed l) = (at_dev d phy_rx_end l + at_dev d mac_rx_drop l)%nat.
  Proof.
    intros d l. unfold coming, at_dev, performed. induction l as [|[t o] r IH]; [reflexivity|]. cbn [flat_map].
    rewrite filter_app, app_length, IH. destruct o; cbn; try reflexivity; destruct (Nat.eqb _ d); cbn; lia.
  Qed.

  (** An operation changes the number of unreported receptions only by receiving a good
      frame that is for another host. *)
  Lemma step_unreported : forall w o w' d, step w o = Ok w' ->
    (o = ORun /\ for_another crc fcs d w /\ unreported d (w_log w') = S (unreported d (w_log w))) \/
    (~ (o = ORun /\ for_another crc fcs d w) /\ unreported d (w_log w') = unreported d (w_log w)).
  Proof.
    intros w o w' d H. pose proof H as H0. apply step_adds in H as (new & E & _ & [Q|R]).
    - right. split.
      + intros [-> (t & p & src & power & r & EV & NS & _)]. cbn in H0. unfold run_next in H0. rewrite EV in H0.
        apply Receive_table in H0 as (l & -> & T). cbn [w_log w_now] in E.
        change (w_log (mkWorld t (w_dev w) (w_chan w) r (w_log w))) with (w_log w) in E. apply app_inv_head in E. subst new.
        assert (X : exists m, l = PhyRxEnd d p src :: m).
        { destruct T as [(C & _)|[(_ & _ & p1 & _ & ->)|(_ & _ & payload & proto & k & _ & ->)]]; [contradiction|eauto|eexists; reflexivity]. }
        destruct X as (m & ->). inversion Q as [|? ? X]. exact X.
      + unfold unreported. rewrite E, fold_left_app. destruct (quiet_dev d new Q) as (_ & _ & _ & _ & ->). reflexivity.
    - destruct R as (-> & t & d0 & p & src & power & r & EV & R). clear new E.
      destruct (receive_dev w t r d0 p src power w' d R) as (new & E & T). unfold unreported. rewrite E, fold_left_app.
      set (s := fold_left (hear d) (w_log w) (false, O)) in *. clearbody s.
      destruct T as [(NE & _ & _ & _ & ->)|[(-> & -> & _ & _ & _ & ->)|[(-> & NS & D & _ & _ & ->)|(-> & NS & A & B & _ & _ & _ & ->)]]].
      + right. split; [|reflexivity]. intros [_ (t1 & p1 & src1 & pw1 & r1 & EV1 & _)]. rewrite EV in EV1. injection EV1 as _ EV1 _ _ _ _. contradiction.
      + right. split; [|reflexivity]. intros [_ (t1 & p1 & src1 & pw1 & r1 & EV1 & NS & _)]. rewrite EV in EV1. injection EV1 as _ _ EV1 _ _. congruence.
      + right. split; [|destruct s as [[|] n]; reflexivity]. intros [_ (t1 & p1 & src1 & pw1 & r1 & EV1 & _ & NP & K)].
        rewrite EV in EV1. injection EV1 as <- <- <- <- <-. destruct D as [D|(k & NK & D)]; [exact (NP D)|].
        clear - K D NK. unfold kind_of in *. destruct K as (K1 & K2 & K3). destruct k; [tauto|tauto| |congruence].
        destruct D as (_ & _ & D). congruence.
      + left. split; [reflexivity|]. split; [|destruct s as [[|] n]; reflexivity]. exists t, p, src, power, r. auto.
  Qed.
End Frames.
