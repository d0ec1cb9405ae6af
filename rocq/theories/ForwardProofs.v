(** A packet that the network layer passes on arrives hop by hop. (As RelayProofs.v, with
    packets that change.) *)
Require Import ZArith List Bool Lia Permutation.
Require Import Verif.Base Verif.Num Verif.FrameModel Verif.FrameProofs Verif.NetModel Verif.NetSpec Verif.NetRunSpec Verif.NetSteps
  Verif.NetInv Verif.NetTxProofs Verif.NetSendProofs Verif.NetDrainProofs Verif.ReactModel Verif.ReactSpec Verif.ReactProofs Verif.RelaySpec Verif.ForwardSpec.
Import ListNotations.
Local Open Scope Z_scope.

Section Forward.
  Context {N : Num}.
  Variable crc : list Z -> Z.
  Variable fcs : bool.
  Variable tx_time : Z -> Z -> Z.
  Variable has_mob : nat -> bool.
  Variable next : nat -> option (nat * Z).
  Variable touch : nat -> list Z -> option (list Z).
  Variables (q uid : Z).
  Hypothesis proto : 0 <= q < 2 ^ 16.
  Variable w0 : world N.
  Notation rt := (forward next touch uid).
  Notation fire := (@fire N crc fcs tx_time has_mob rt).
  Notation run_nextR := (@run_nextR N crc fcs tx_time has_mob rt).
  Notation runR := (@runR N crc fcs tx_time has_mob rt).
  Implicit Type w : world N.

  (** ** What stays *)
  Definition fixed w : Prop := w_chan w = w_chan w0 /\ forall d,
    d_cfg (w_dev w d) = d_cfg (w_dev w0 d) /\ d_queue (w_dev w d) = d_queue (w_dev w0 d) /\ d_chan (w_dev w d) = d_chan (w_dev w0 d) /\
    d_id (w_dev w d) = d_id (w_dev w0 d) /\ d_up (w_dev w d) = d_up (w_dev w0 d).
  Lemma fixed_cfg : forall w d, fixed w -> d_cfg (w_dev w d) = d_cfg (w_dev w0 d).
  Proof. intros w d [_ F]. apply F. Qed.
  Lemma fixed_addr : forall w d, fixed w -> addr_of w d = addr_of w0 d.
  Proof. intros w d F. unfold addr_of. rewrite (fixed_cfg w d F). reflexivity. Qed.
  Lemma fixed_node : forall w d, fixed w -> node_of w d = node_of w0 d.
  Proof. intros w d F. unfold node_of. rewrite (fixed_cfg w d F). reflexivity. Qed.
  Lemma fixed_hears : forall w c a b, fixed w -> hears has_mob w c a b = hears has_mob (set_now w0 (w_now w)) c a b.
  Proof.
    intros w c a b F. unfold hears, cut_off. rewrite !(fixed_node _ _ F), (fixed_cfg _ _ F), (proj1 F). reflexivity.
  Qed.
  Lemma fixed_power : forall w c a b, fixed w -> power_at has_mob w c a b = power_at has_mob (set_now w0 (w_now w)) c a b.
  Proof.
    intros w c a b F. unfold power_at, link_power. rewrite !(fixed_node _ _ F), (fixed_cfg _ _ F), (proj1 F). reflexivity.
  Qed.
  Lemma fixed_delay : forall w c a b t, fixed w -> delay_to has_mob w c a b t = delay_to has_mob (set_now w0 (w_now w)) c a b t.
  Proof.
    intros w c a b t F. unfold delay_to, link_delay. rewrite !(fixed_node _ _ F), (proj1 F). reflexivity.
  Qed.
  Lemma same_fixed : forall w w', fixed w -> w_dev w' = w_dev w -> w_chan w' = w_chan w -> fixed w'.
  Proof. intros w w' [F1 F2] E1 E2. split; [congruence|]. intros d. rewrite E1. apply F2. Qed.
  Lemma set_tx_fixed : forall w d k b c, fixed w -> fixed (set_tx w d k b c).
  Proof.
    intros w d k b c [F1 F2]. split; [exact F1|]. intros e. cbn. unfold upd. destruct (Nat.eqb_spec e d) as [->|]; [|apply F2].
    cbn. destruct (F2 d) as (A & B & C & D & E). auto.
  Qed.

  Definition quiet (l : trace) : Prop := handed l = [].
  Lemma handed_app : forall a b, handed (a ++ b) = handed a ++ handed b. Proof. intros. apply filter_app. Qed.
  Lemma outward_quiet : forall l, outward l -> quiet l.
  Proof. induction 1 as [|[t o] l H _ IH]; [reflexivity|]. unfold quiet, handed in *. cbn in *. destruct o; try discriminate; exact IH. Qed.

  (** ** Deliveries *)
  Definition rx_of w c p a tx x : Z * ev N := (w_now w + delay_to has_mob w c a x tx, RxEvent x p a (power_at has_mob w c a x)).
  Lemma insert_perm : forall (e : Z * ev N) l, Permutation (insert_event e l) (e :: l).
  Proof.
    intros e l. induction l as [|y l IH]; [apply Permutation_refl|]. cbn. destruct (fst y <=? fst e); [|apply Permutation_refl].
    rewrite IH. apply perm_swap.
  Qed.
  Lemma Deliver_total : forall w c p a x tx, node_of w a <> None -> node_of w x <> None -> 0 <= delay_to has_mob w c a x tx ->
    exists b w', Deliver has_mob w c p a x tx = Ok (b, w') /\ w_now w' = w_now w /\ w_dev w' = w_dev w /\ w_chan w' = w_chan w /\
    (exists l, w_log w' = w_log w ++ l /\ quiet l) /\
    Permutation (w_events w') ((if hears has_mob w c a x then [rx_of w c p a tx x] else []) ++ w_events w).
  Proof.
    intros w c p a x tx HA HX HD. unfold rx_of. unfold delay_to, hears, power_at in *. unfold Deliver.
    destruct (node_of w a) as [m|]; [|congruence]. destruct (node_of w x) as [n|]; [|congruence].
    unfold link_delay, cut_off, link_power, GetPropagationDelay in *. cbv zeta.
    assert (G : forall pw dl o, 0 <= dl -> quiet [(w_now w, o)] -> exists b w', bind (schedule w dl (RxEvent x p a pw)) (fun w1 => Ok (true, log1 w1 o)) = Ok (b, w') /\
      w_now w' = w_now w /\ w_dev w' = w_dev w /\ w_chan w' = w_chan w /\ (exists l, w_log w' = w_log w ++ l /\ quiet l) /\
      Permutation (w_events w') ((w_now w + dl, RxEvent x p a pw) :: w_events w)).
    { intros pw dl o Hd Q. unfold schedule. destruct (Z.ltb_spec dl 0); [lia|]. cbn [bind]. eexists _, _. split; [reflexivity|].
      repeat (split; [reflexivity|]). split; [eexists; split; [reflexivity|exact Q]|]. cbn. apply insert_perm. }
    destruct (has_mob m && has_mob n).
    - destruct (c_loss (w_chan w c)) as [f|]; [|apply G; [exact HD|reflexivity]].
      cbn [andb]. destruct (nlt N _ _); cbn [negb app]; [|apply G; [exact HD|reflexivity]].
      eexists _, _. split; [reflexivity|]. repeat (split; [reflexivity|]). split; [exists []; rewrite app_nil_r; split; reflexivity|apply Permutation_refl].
    - destruct (c_loss (w_chan w c)); cbn [andb negb app]; (apply G; [exact HD|reflexivity]).
  Qed.
  Lemma same_parts : forall w v c a x, w_now v = w_now w -> w_dev v = w_dev w -> w_chan v = w_chan w ->
    hears has_mob v c a x = hears has_mob w c a x /\ power_at has_mob v c a x = power_at has_mob w c a x /\
    (forall tx, delay_to has_mob v c a x tx = delay_to has_mob w c a x tx) /\ node_of v x = node_of w x /\ addr_of v x = addr_of w x.
  Proof.
    intros w v c a x E1 E2 E3. unfold hears, power_at, delay_to, node_of, addr_of, cut_off, link_power, link_delay. rewrite E1, E2, E3. auto.
  Qed.
  Lemma deliver_all_total : forall dsts w c p a tx, node_of w a <> None ->
    (forall x, In x dsts -> node_of w x <> None /\ 0 <= delay_to has_mob w c a x tx) ->
    exists b w', deliver_all has_mob w c p a dsts tx = Ok (b, w') /\ w_now w' = w_now w /\ w_dev w' = w_dev w /\ w_chan w' = w_chan w /\
    (exists l, w_log w' = w_log w ++ l /\ quiet l) /\
    Permutation (w_events w') (map (rx_of w c p a tx) (filter (hears has_mob w c a) dsts) ++ w_events w).
  Proof.
    induction dsts as [|d r IH]; intros w c p a tx HA HX.
    - eexists _, _. split; [reflexivity|]. repeat (split; [reflexivity|]). split; [exists []; rewrite app_nil_r; split; reflexivity|apply Permutation_refl].
    - destruct (HX d (or_introl eq_refl)) as [ND DD].
      destruct (Deliver_total w c p a d tx HA ND DD) as (b1 & w1 & E1 & A1 & A2 & A3 & (l1 & L1 & Q1) & P1).
      destruct (IH w1 c p a tx) as (b2 & w2 & E2 & B1 & B2 & B3 & (l2 & L2 & Q2) & P2).
      { destruct (same_parts w w1 c a a A1 A2 A3) as (_ & _ & _ & -> & _). exact HA. }
      { intros x Hx. destruct (same_parts w w1 c a x A1 A2 A3) as (_ & _ & -> & -> & _). apply HX. right. exact Hx. }
      exists (b1 || b2), w2. cbn [deliver_all]. rewrite E1. cbn [bind]. rewrite E2. cbn [bind]. split; [reflexivity|].
      do 3 (split; [congruence|]). split.
      { exists (l1 ++ l2). rewrite L2, L1, app_assoc. split; [reflexivity|]. unfold quiet in *. rewrite handed_app, Q1, Q2. reflexivity. }
      rewrite P2. assert (EF : filter (hears has_mob w1 c a) r = filter (hears has_mob w c a) r).
      { apply filter_ext. intros x. apply (same_parts w w1 c a x A1 A2 A3). }
      assert (EM : forall l, map (rx_of w1 c p a tx) l = map (rx_of w c p a tx) l).
      { intros l. apply map_ext. intros x. unfold rx_of. destruct (same_parts w w1 c a x A1 A2 A3) as (_ & -> & -> & _). rewrite A1. reflexivity. }
      rewrite EF, EM, P1. cbn [filter]. destruct (hears has_mob w c a d); cbn [app map]; [|reflexivity].
      symmetry. apply Permutation_middle.
  Qed.

  (** ** Events that change nothing but the end of a transmission *)
  Definition enders (l : list (Z * ev N)) : list nat := flat_map (fun x => match snd x with TxComplete e _ => [e] | _ => [] end) l.
  Definition harmless w (x : Z * ev N) : Prop :=
    match snd x with
    | TxComplete e _ => d_busy (w_dev w e) = true /\ d_cur (w_dev w e) <> None /\ d_q (w_dev w e) = [] /\ d_queue (w_dev w0 e) <> None
    | RxEvent d p src pw => exists pl pr from to, Decapsulate crc fcs (p_bytes p) = Ok (Frame pl pr from to) /\ classify (addr_of w0 d) to = POtherHost
    end.
  Definition others_ok w l : Prop := Forall (harmless w) l /\ NoDup (enders l).
  Lemma enders_app : forall a b, enders (a ++ b) = enders a ++ enders b. Proof. intros. unfold enders. apply flat_map_app. Qed.

  Lemma fire_plain : forall w o, match o with RxCallback _ _ _ _ _ _ _ => False | _ => True end -> fire w o = Ok (log1 w o).
  Proof.
    intros w o H. unfold ReactModel.fire. cbn [log1 w_log]. unfold forward. rewrite rev_app_distr. cbn [rev app].
    destruct o; try contradiction; reflexivity.
  Qed.
  Lemma others_part : forall w l1 x l2, others_ok w (l1 ++ x :: l2) -> others_ok w (l1 ++ l2) /\ harmless w x /\
    (forall e a, snd x = TxComplete e a -> ~ In e (enders (l1 ++ l2))).
  Proof.
    intros w l1 x l2 [F ND]. apply Forall_app in F as [F1 F2]. pose proof (Forall_inv F2) as HX. apply Forall_inv_tail in F2.
    rewrite enders_app in ND. cbn [enders flat_map] in ND. fold (enders l2) in ND. split; [|split; [exact HX|]].
    - split; [apply Forall_app; auto|]. rewrite enders_app. destruct x as [t [e a|d p src pw]]; cbn in ND; [|exact ND]. eapply NoDup_remove_1. exact ND.
    - intros e a E. destruct x as [t y]. cbn in E. subst y. cbn in ND. apply NoDup_remove_2 in ND. rewrite enders_app. exact ND.
  Qed.
  Lemma others_keep : forall w w' l, others_ok w l -> (forall e, In e (enders l) -> w_dev w' e = w_dev w e) -> others_ok w' l.
  Proof.
    intros w w' l [F ND] E. split; [|exact ND]. rewrite Forall_forall in *. intros x Hx. specialize (F x Hx). unfold harmless in *.
    destruct x as [t [e a|d p src pw]]; cbn in *; [|exact F]. rewrite (E e); [exact F|]. unfold enders. apply in_flat_map. exists (t, TxComplete e a). split; [exact Hx|left; reflexivity].
  Qed.

  Lemma harmless_step : forall w t e r, fixed w -> w_events w = (t, e) :: r -> harmless w (t, e) ->
    exists w', run_nextR w = Ok w' /\ w_now w' = t /\ w_events w' = r /\ fixed w' /\ (exists l, w_log w' = w_log w ++ l /\ quiet l) /\
      forall d, w_dev w' d = w_dev w d \/ (d_busy (w_dev w' d) = false /\ d_q (w_dev w' d) = [] /\ exists a, e = TxComplete d a).
  Proof.
    intros w t e r F EV H. unfold ReactModel.run_nextR. rewrite EV.
    assert (FP : fixed (mkWorld t (w_dev w) (w_chan w) r (w_log w))) by (eapply same_fixed; [exact F|reflexivity..]).
    destruct e as [e a|d p src pw]; cbn in H.
    - destruct H as (B & C & Q & QU). unfold DoTransmitCompleteR. cbn [w_dev]. rewrite B. cbn [negb].
      destruct (d_cur (w_dev w e)) as [cur|]; [|congruence]. rewrite fire_plain by exact I. cbn [bind log1 w_dev set_tx set_dev]. rewrite upd_same. cbn [d_queue d_q d_busy].
      destruct (proj2 F e) as (_ & QE & _). rewrite QE. destruct (d_queue (w_dev w0 e)) as [admit|]; [|congruence]. rewrite Q.
      eexists. split; [reflexivity|]. split; [reflexivity|]. split; [reflexivity|]. split.
      + apply set_tx_fixed. eapply same_fixed; [apply (set_tx_fixed (mkWorld t (w_dev w) (w_chan w) r (w_log w)) e [] false (Some cur)), FP|reflexivity..].
      + split; [eexists; split; [reflexivity|reflexivity]|]. intros x. cbn. rewrite upd_same. unfold upd. destruct (Nat.eqb_spec x e) as [->|]; [|left; reflexivity].
        right. cbn. split; [reflexivity|]. split; [reflexivity|]. eexists. reflexivity.
    - destruct H as (pl & pr & from & to & DE & CL). set (w1 := mkWorld t (w_dev w) (w_chan w) r (w_log w)).
      assert (R : exists os, ReactModel.ReceiveR crc fcs tx_time has_mob rt w1 d p src pw = Ok (emit w1 os) /\ quiet (map (pair t) os)).
      { unfold ReactModel.ReceiveR. destruct (Nat.eqb src d).
        { rewrite fire_plain by exact I. exists [MacRxDrop d p]. split; reflexivity. }
        rewrite fire_plain by exact I. cbn [bind]. destruct (nlt N _ _).
        { rewrite fire_plain by exact I. exists [PhyRxEnd d p src; PhyRxDrop d p]. split; [rewrite log1_emit, (log1_emit w1), emit_emit; reflexivity|reflexivity]. }
        destruct (match g_err _ with Some f => f _ _ | None => _ end).
        { rewrite fire_plain by exact I. exists [PhyRxEnd d p src; PhyRxDrop d p]. split; [rewrite log1_emit, (log1_emit w1), emit_emit; reflexivity|reflexivity]. }
        rewrite DE. cbn [bind]. rewrite fire_plain by exact I. cbn [bind].
        change (g_addr (d_cfg (w_dev (log1 w1 (PhyRxEnd d p src)) d))) with (addr_of w1 d). rewrite (fixed_addr w1 d FP), CL.
        destruct (g_pcb _).
        - rewrite fire_plain by exact I. cbn [bind]. rewrite fire_plain by exact I. cbn [bind].
          exists [PhyRxEnd d p src; PromiscSniffer d p; MacPromiscRx d p; PromiscCallback d src pl pr from to POtherHost].
          split; [rewrite !log1_emit, !emit_emit; reflexivity|reflexivity].
        - cbn [bind]. exists [PhyRxEnd d p src; PromiscSniffer d p]. split; [rewrite !log1_emit, !emit_emit; reflexivity|reflexivity]. }
      destruct R as (os & -> & Q). eexists. split; [reflexivity|]. split; [reflexivity|]. split; [reflexivity|]. split; [exact FP|].
      split; [eexists; split; [reflexivity|exact Q]|]. intros x. left. reflexivity.
  Qed.

  (** ** Launching a packet *)
  Lemma group_other : forall own to, to <> 2 ^ 48 - 1 -> Z.testbit to 40 = false -> own <> to -> classify own to = POtherHost.
  Proof.
    intros own to H1 H2 H3. unfold classify. change broadcast with (2 ^ 48 - 1). destruct (Z.eqb_spec to (2 ^ 48 - 1)); [contradiction|].
    destruct (Z.eqb_spec to own); [congruence|]. rewrite group_bit, H2. reflexivity.
  Qed.
  Section Payload.
  Variable payload : list Z.
  Hypothesis size : (length payload <= 1492)%nat.
  Notation usable := (usable crc fcs tx_time has_mob w0 payload q uid).
  Notation hop_frame := (hop_frame crc fcs w0 payload q uid).
  Notation hop_tx := (hop_tx crc fcs tx_time w0 payload q uid).
  Notation hop_delay := (hop_delay crc fcs tx_time has_mob w0 payload q uid).

  Lemma frame_opens : forall t h, usable t h -> Decapsulate crc fcs (p_bytes (hop_frame h)) = Ok (Frame payload q (addr_of w0 (h_from h)) (addr_of w0 (h_to h))).
  Proof.
    intros t h U. destruct U as (_ & _ & _ & _ & (A1 & A2 & _ & _) & _). cbn [RelaySpec.hop_frame frame_of p_bytes].
    rewrite Decapsulate_AddHeader; [|exact A1|exact A2|exact proto|destruct fcs; auto]. cbv zeta. unfold len. 
    rewrite Z.mod_small by lia. destruct (Z.leb_spec (Z.of_nat (length payload) + 8) 1500); [|lia].
    destruct (Z.ltb_spec (Z.of_nat (length payload) + 8) 65536); [reflexivity|lia].
  Qed.
  Lemma on_indexed : forall a m, indexed a m = true <-> exists x, In (a, x) m.
  Proof.
    intros a m. unfold indexed. rewrite existsb_exists. split.
    - intros ([k x] & HI & HE). cbn in HE. apply Z.eqb_eq in HE. subst k. eauto.
    - intros (x & HI). exists (a, x). split; [exact HI|]. cbn. apply Z.eqb_refl.
  Qed.
  Lemma off_indexed : forall a m, ~ (exists x, In (a, x) m) -> indexed a m = false.
  Proof. intros a m H. destruct (indexed a m) eqn:E; [|reflexivity]. apply on_indexed in E. contradiction. Qed.
  Lemma first_with : forall (f : nat -> Z) l k b, nth_error l k = Some b ->
    (forall j x, (j < k)%nat -> nth_error l j = Some x -> f x <> f b) -> find (fun d => f d =? f b) l = Some b.
  Proof.
    intros f. induction l as [|y l IH]; intros k b H HF; [destruct k; discriminate|]. destruct k as [|k]; cbn in H |- *.
    - injection H as ->. rewrite Z.eqb_refl. reflexivity.
    - destruct (Z.eqb_spec (f y) (f b)) as [E|]; [exfalso; apply (HF O y); [lia|reflexivity|assumption]|].
      eapply IH; [exact H|]. intros j x Hj Hx. apply (HF (S j) x); [lia|exact Hx].
  Qed.

  Definition main w h : Z * ev N := (w_now w + hop_delay (w_now w) h, RxEvent (h_to h) (hop_frame h) (h_from h) (power_at has_mob (set_now w0 (w_now w)) (h_over h) (h_from h) (h_to h))).

  Lemma rx_main : forall w h, fixed w -> rx_of w (h_over h) (hop_frame h) (h_from h) (hop_tx h) (h_to h) = main w h.
  Proof. intros w h F. unfold rx_of, main, RelaySpec.hop_delay. rewrite (fixed_delay _ _ _ _ _ F), (fixed_power _ _ _ _ F). reflexivity. Qed.

  Lemma Channel_total : forall w h, fixed w -> usable (w_now w) h ->
    exists b w' others, ChannelTransmitStart has_mob w (h_over h) (hop_frame h) (d_id (w_dev w (h_from h))) (addr_of w0 (h_to h)) (hop_tx h) = Ok (b, w') /\
    w_now w' = w_now w /\ w_dev w' = w_dev w /\ w_chan w' = w_chan w0 /\ (exists l, w_log w' = w_log w ++ l /\ quiet l) /\
    Permutation (w_events w') (main w h :: others ++ w_events w) /\ (forall v, Forall (harmless v) others) /\ enders others = [].
  Proof.
    intros w h F U. pose proof (frame_opens _ h U) as FO. pose proof (rx_main w h F) as RM.
    destruct U as (NE & (CH & LK & UP) & (admit & QU & AD) & GP & (A1 & A2 & A3 & A4) & RC & RX & NN & HE & PW & ER & CB).
    set (a := h_from h) in *. set (b := h_to h) in *. set (c := h_over h) in *.
    assert (NA : node_of w a <> None).
    { unfold hears in HE. rewrite (fixed_node w a F). change (node_of (set_now w0 (w_now w)) a) with (node_of w0 a) in HE. destruct (node_of w0 a); discriminate. }
    assert (HB : hears has_mob w c a b = true) by (rewrite (fixed_hears _ _ _ _ F); exact HE).
    unfold ChannelTransmitStart, IslTransmitStart, LeoTransmitStart. cbv zeta. destruct (proj2 F a) as (_ & _ & _ & ID & _). rewrite (proj1 F), ID, LK.
    unfold recipient in RC, RX. cbv zeta in RC, RX.
    assert (SIDE : forall l, (forall x, In x l -> node_of w0 x <> None /\ (x = b \/ addr_of w0 x <> addr_of w0 b) /\ 0 <= delay_to has_mob (set_now w0 (w_now w)) c a x (hop_tx h)) ->
      NoDup l -> In b l -> exists r w' others, deliver_all has_mob w c (hop_frame h) a l (hop_tx h) = Ok (r, w') /\
      w_now w' = w_now w /\ w_dev w' = w_dev w /\ w_chan w' = w_chan w0 /\ (exists l, w_log w' = w_log w ++ l /\ quiet l) /\
      Permutation (w_events w') (main w h :: others ++ w_events w) /\ (forall v, Forall (harmless v) others) /\ enders others = []).
    { intros l HL ND IB. destruct (deliver_all_total l w c (hop_frame h) a (hop_tx h) NA) as (r & w' & E & B1 & B2 & B3 & B4 & P).
      { intros x Hx. destruct (HL x Hx) as (X1 & _ & X3). rewrite (fixed_node w x F), (fixed_delay _ _ _ _ _ F). auto. }
      assert (IF : In b (filter (hears has_mob w c a) l)) by (apply filter_In; auto).
      pose proof (NoDup_filter (hears has_mob w c a) ND) as NF. apply in_split in IF as (l1 & l2 & EF). rewrite EF in P, NF.
      exists r, w', (map (rx_of w c (hop_frame h) a (hop_tx h)) (l1 ++ l2)). split; [exact E|]. do 2 (split; [assumption|]). split; [rewrite B3; exact (proj1 F)|]. split; [assumption|]. split; [|split].
      - rewrite P, !map_app. cbn [map]. rewrite RM. rewrite <- !app_assoc. cbn [app].
        symmetry. apply Permutation_middle.
      - intros v. apply Forall_map, Forall_forall. intros x Hx. cbn. exists payload, q, (addr_of w0 a), (addr_of w0 b). split; [exact FO|].
        apply group_other; [assumption..|]. assert (XB : x <> b). { intros ->. apply NoDup_remove_2 in NF. contradiction. }
        assert (XL : In x l). { assert (In x (filter (hears has_mob w c a) l)) as XF by (rewrite EF; apply in_app_or in Hx as [Hx|Hx]; apply in_or_app; [left|right; right]; exact Hx). apply filter_In in XF. apply XF. }
        destruct (HL x XL) as (_ & [X|X] & _); [contradiction|exact X].
      - clear. induction (l1 ++ l2); cbn; auto. }
    destruct (c_kind (w_chan w0 c)) eqn:KIND.
    - destruct RC as [(k & K1 & K2 & K3)|(_ & K & _)]; [|contradiction].
      assert (G : GetDevice w c (addr_of w0 b) = Some b).
      { unfold GetDevice. rewrite (proj1 F). rewrite <- (fixed_addr w b F). apply (first_with (addr_of w) _ k); [exact K1|].
        intros j x Hj Hx. rewrite !(fixed_addr w _ F). eapply K3; eassumption. }
      rewrite G. destruct (RX b) as (R1 & _ & R3); [left; exists k; auto|].
      destruct (Deliver_total w c (hop_frame h) a b (hop_tx h) NA) as (r & w' & E & B1 & B2 & B3 & B4 & P).
      { rewrite (fixed_node w b F). exact R1. } { rewrite (fixed_delay _ _ _ _ _ F). exact R3. }
      exists r, w', []. split; [exact E|]. do 2 (split; [assumption|]). split; [rewrite B3; exact (proj1 F)|]. split; [assumption|]. split; [|split; [constructor|reflexivity]].
      rewrite HB in P. rewrite RM in P. exact P.
    - destruct (NN eq_refl) as [N1 N2]. rewrite (fixed_addr w a F). destruct RC as [(O1 & O2 & IB)|(O1 & O2 & IB)].
      + rewrite (proj2 (on_indexed _ _) O1), (off_indexed _ _ O2). cbn [andb]. apply SIDE; [|exact N2|exact IB].
        intros x Hx. apply RX. left. auto.
      + rewrite (proj2 (on_indexed _ _) O1), (off_indexed _ _ O2). cbn [andb]. apply SIDE; [|exact N1|exact IB].
        intros x Hx. apply RX. right. auto.
  Qed.

  Lemma launch : forall w h, fixed w -> usable (w_now w) h -> d_busy (w_dev w (h_from h)) = false -> d_q (w_dev w (h_from h)) = [] ->
    exists w' others, Send crc fcs tx_time has_mob w (h_from h) (mkPkt uid payload) (Mac (addr_of w0 (h_to h))) q = Ok (true, w') /\
    w_now w' = w_now w /\ fixed w' /\ (exists l, w_log w' = w_log w ++ l /\ quiet l) /\
    Permutation (w_events w') (main w h :: others ++ w_events w) /\ Forall (harmless w') others /\ enders others = [h_from h] /\
    (forall d, d <> h_from h -> w_dev w' d = w_dev w d).
  Proof.
    intros w h F U B Q. pose proof (Channel_total) as CT. pose proof U as U'.
    destruct U as (NE & (CH & LK & UP) & (admit & QU & AD) & GP & REST).
    set (a := h_from h) in *. destruct (proj2 F a) as (FC & FQ & FH & FI & FU).
    unfold Send. rewrite FU, UP, FQ, QU, B, Q. cbn [negb]. cbv zeta. 
    assert (EFR : mkPkt (p_uid (mkPkt uid payload)) (AddHeader crc fcs (addr_of w a) (addr_of w0 (h_to h)) q (p_bytes (mkPkt uid payload))) = hop_frame h).
    { rewrite (fixed_addr w a F). reflexivity. }
    rewrite EFR, AD. cbn [app]. set (f := hop_frame h) in *. 
    match goal with |- context [TransmitStart _ _ ?v _ _ _] => set (w3 := v) end.
    assert (F3 : fixed w3). { eapply same_fixed; [apply (set_tx_fixed w a [] false (d_cur (w_dev w a))), F|reflexivity..]. }
    assert (D3 : w_dev w3 a = mkDev (d_cfg (w_dev w a)) (d_queue (w_dev w a)) [] false (d_cur (w_dev w a)) (d_chan (w_dev w a)) (d_id (w_dev w a)) (d_up (w_dev w a))) by apply upd_same.
    assert (L3 : exists l, w_log w3 = w_log w ++ l /\ quiet l). { eexists. split; [cbn; rewrite <- !app_assoc; reflexivity|reflexivity]. }
    assert (E3 : w_events w3 = w_events w) by reflexivity. assert (T3 : w_now w3 = w_now w) by reflexivity.
    assert (O3 : forall d, d <> a -> w_dev w3 d = w_dev w d) by (intros d Hd; cbn; apply upd_other; exact Hd).
    clearbody w3. unfold TransmitStart. rewrite D3. cbn [d_busy d_q d_cfg d_chan d_id]. rewrite FC, FH, CH.
    change (len (p_bytes f)) with (Z.of_nat (length (p_bytes (hop_frame h)))). change (tx_time (g_bps (d_cfg (w_dev w0 a))) (Z.of_nat (length (p_bytes (hop_frame h))))) with (hop_tx h).
    unfold schedule. destruct (Z.ltb_spec (hop_tx h + g_gap (d_cfg (w_dev w0 a))) 0); [lia|]. cbn [bind].
    match goal with |- context [ChannelTransmitStart _ ?v _ _ _ _ _] => set (w4 := v) end.
    assert (F4 : fixed w4). { eapply same_fixed; [apply (set_tx_fixed w3 a [] true (Some f)), F3|reflexivity..]. }
    assert (D4 : w_dev w4 = upd (w_dev w3) a (mkDev (d_cfg (w_dev w a)) (d_queue (w_dev w a)) [] true (Some f) (d_chan (w_dev w a)) (d_id (w_dev w a)) (d_up (w_dev w a)))) by (cbn; rewrite D3; reflexivity).
    assert (L4 : exists l, w_log w4 = w_log w ++ l /\ quiet l).
    { destruct L3 as (l & L & QL). eexists. split; [cbn; rewrite L, <- !app_assoc; reflexivity|]. unfold quiet in *. rewrite handed_app, QL. reflexivity. }
    assert (E4 : Permutation (w_events w4) ((w_now w + (hop_tx h + g_gap (d_cfg (w_dev w0 a))), TxComplete a (addr_of w0 (h_to h))) :: w_events w)).
    { cbn. rewrite T3, E3. apply insert_perm. }
    assert (T4 : w_now w4 = w_now w) by exact T3.
    clearbody w4. destruct (CT w4 h F4 ltac:(rewrite T4; exact U')) as (r & w5 & others & EC & B1 & B2 & B3 & (l5 & L5 & Q5) & P5 & H5 & N5).
    assert (ID4 : d_id (w_dev w4 (h_from h)) = d_id (w_dev w a)) by (fold a; rewrite D4, upd_same; reflexivity).
    rewrite ID4 in EC. fold f in EC. rewrite EC. cbn [bind].
    set (te := (w_now w + (hop_tx h + g_gap (d_cfg (w_dev w0 a))), TxComplete a (addr_of w0 (h_to h))) : Z * ev N) in *.
    assert (PM : Permutation (w_events w5) (main w h :: (te :: others) ++ w_events w)).
    { rewrite P5, E4. unfold main. rewrite T4. apply perm_skip. cbn [app]. symmetry. apply Permutation_middle. }
    assert (L6 : exists l, w_log w5 = w_log w ++ l /\ quiet l).
    { destruct L4 as (l & L & QL). exists (l ++ l5). rewrite L5, L, app_assoc. split; [reflexivity|]. unfold quiet in *. rewrite handed_app, QL, Q5. reflexivity. }
    assert (G : forall w6, w_now w6 = w_now w5 -> w_dev w6 = w_dev w5 -> w_chan w6 = w_chan w5 -> w_events w6 = w_events w5 -> (exists l, w_log w6 = w_log w5 ++ l /\ quiet l) ->
      w_now w6 = w_now w /\ fixed w6 /\ (exists l, w_log w6 = w_log w ++ l /\ quiet l) /\
      Permutation (w_events w6) (main w h :: (te :: others) ++ w_events w) /\ Forall (harmless w6) (te :: others) /\ enders (te :: others) = [a] /\
      (forall d, d <> a -> w_dev w6 d = w_dev w d)).
    { intros w6 X1 X2 X3 X4 (l & XL & XQ). split; [congruence|]. split; [eapply same_fixed; [exact F4|congruence|rewrite X3, B3, (proj1 F4); reflexivity]|]. split.
      { destruct L6 as (k & L & QL). exists (k ++ l). rewrite XL, L, app_assoc. split; [reflexivity|]. unfold quiet in *. rewrite handed_app, QL, XQ. reflexivity. }
      split; [rewrite X4; exact PM|]. split.
      { constructor; [|apply H5]. cbn. rewrite X2, B2, D4, upd_same. cbn. rewrite QU. repeat split; discriminate. }
      split; [change (enders (te :: others)) with (a :: enders others); rewrite N5; reflexivity|]. intros d Hd. rewrite X2, B2, D4, upd_other by exact Hd. apply O3. exact Hd. }
    destruct r; cbn [bind]; (eexists _, (te :: others); split; [reflexivity|]); apply G; try reflexivity.
    - exists []. rewrite app_nil_r. split; reflexivity.
    - eexists. split; reflexivity.
  Qed.

  (** ** Hop after hop *)
  Definition ready w (rest : list hop) : Prop := Forall (fun h => d_busy (w_dev w (h_from h)) = false /\ d_q (w_dev w (h_from h)) = []) rest.

  Lemma run_next_step : forall w ops, runR w (ORun :: ops) = bind (run_nextR w) (fun v => runR v ops).
  Proof. reflexivity. Qed.

  Lemma others_step : forall w t e r l1 l2, fixed w -> w_events w = (t, e) :: r -> others_ok w (l1 ++ (t, e) :: l2) ->
    exists w', run_nextR w = Ok w' /\ w_events w' = r /\ fixed w' /\ handed (w_log w') = handed (w_log w) /\ others_ok w' (l1 ++ l2) /\
    forall rest, ready w rest -> ready w' rest.
  Proof.
    intros w t e r l1 l2 F EV O. destruct (others_part _ _ _ _ O) as (O2 & HX & NI).
    destruct (harmless_step w t e r F EV HX) as (w' & E & _ & ER & F' & (l & L & Q) & D). exists w'. split; [exact E|]. split; [exact ER|]. split; [exact F'|].
    split; [rewrite L, handed_app, Q, app_nil_r; reflexivity|]. split.
    - eapply others_keep; [exact O2|]. intros d Hd. destruct (D d) as [X|(_ & _ & a & X)]; [exact X|]. exfalso. eapply NI; [|exact Hd]. exact X.
    - intros rest R. unfold ready in *. rewrite Forall_forall in *. intros h Hh. destruct (D (h_from h)) as [->|(X & Y & _)]; [apply R; exact Hh|auto].
  Qed.

  Lemma drain : forall n w others, length others = n -> fixed w -> Permutation (w_events w) others -> others_ok w others ->
    exists w', runR w (repeat ORun n) = Ok w' /\ w_events w' = [] /\ handed (w_log w') = handed (w_log w).
  Proof.
    induction n as [|n IH]; intros w others LN F P O.
    - destruct others; [|discriminate]. apply Permutation_sym, Permutation_nil in P. exists w. auto.
    - destruct (w_events w) as [|[t e] r] eqn:EV; [apply Permutation_nil in P; subst others; discriminate|].
      assert (HI : In (t, e) others) by (eapply Permutation_in; [exact P|left; reflexivity]). apply in_split in HI as (l1 & l2 & ->).
      destruct (others_step w t e r l1 l2 F EV O) as (w1 & E1 & ER & F1 & H1 & O1 & _). apply Permutation_cons_app_inv in P.
      destruct (IH w1 (l1 ++ l2)) as (w' & E' & EV' & H').
      { rewrite app_length in *. cbn in LN. lia. } { exact F1. } { rewrite ER. exact P. } { exact O1. }
      exists w'. cbn [repeat]. rewrite run_next_step, E1. cbn [bind]. split; [exact E'|]. split; [exact EV'|]. congruence.
  Qed.

  (** The packet is handed over at the far end of a hop, and sent on. *)
  Lemma reception : forall w h T t r, fixed w -> usable t h -> T = t + hop_delay t h ->
    w_events w = (T, RxEvent (h_to h) (hop_frame h) (h_from h) (power_at has_mob (set_now w0 t) (h_over h) (h_from h) (h_to h))) :: r ->
    exists w1, w_now w1 = T /\ w_dev w1 = w_dev w /\ w_chan w1 = w_chan w /\ w_events w1 = r /\
      handed (w_log w1) = handed (w_log w) ++ [(T, RxCallback (h_to h) (h_from h) payload q (addr_of w0 (h_from h)) (addr_of w0 (h_to h)) (addr_of w0 (h_to h)))] /\
      run_nextR w = sends crc fcs tx_time has_mob w1
        (match next (h_to h) with Some (e, a) => match touch (h_to h) payload with Some p => [(e, mkPkt uid p, Mac a, q)] | None => [] end | None => [] end).
  Proof.
    intros w h T t r F U ET EV. pose proof (frame_opens t h U) as FO.
    destruct U as (NE & _ & _ & _ & (A1 & A2 & A3 & A4) & _ & _ & _ & _ & PW & ER & CB). set (a := h_from h) in *. set (b := h_to h) in *.
    set (pw := power_at has_mob (set_now w0 t) (h_over h) a b) in *.
    unfold ReactModel.run_nextR. rewrite EV. set (v := mkWorld T (w_dev w) (w_chan w) r (w_log w)).
    assert (FV : fixed v) by (eapply same_fixed; [exact F|reflexivity..]).
    unfold ReactModel.ReceiveR. destruct (Nat.eqb_spec a b); [contradiction|].
    rewrite fire_plain by exact I. cbn [bind].
    assert (CF : forall o, d_cfg (w_dev (log1 v o) b) = d_cfg (w_dev w0 b)) by (intros o; apply (fixed_cfg v b FV)).
    rewrite CF. change (DoCalcRxPower (d_cfg (w_dev w0 b)) pw) with (effective_power (d_cfg (w_dev w0 b)) pw).
    rewrite PW. 
    replace (match g_err (d_cfg (w_dev w0 b)) with Some f => f (w_now (log1 v (PhyRxEnd b (hop_frame h) a))) (hop_frame h) | None => false end) with false
      by (destruct (g_err (d_cfg (w_dev w0 b))) as [f|] eqn:EE; [cbn [log1 w_now v]; rewrite ET, (ER f eq_refl)|]; reflexivity).
    rewrite FO. cbn [bind]. rewrite fire_plain by exact I. cbn [bind].
    assert (CF2 : forall u o, d_cfg (w_dev u b) = d_cfg (w_dev w0 b) -> d_cfg (w_dev (@log1 N u o) b) = d_cfg (w_dev w0 b)) by (intros u o E; exact E).
    rewrite (CF2 _ _ (CF _)).
    change (g_addr (d_cfg (w_dev w0 b))) with (addr_of w0 b).
    assert (CL : classify (addr_of w0 b) (addr_of w0 b) = PHost).
    { unfold classify. change broadcast with (2 ^ 48 - 1). destruct (Z.eqb_spec (addr_of w0 b) (2 ^ 48 - 1)); [contradiction|]. rewrite Z.eqb_refl. reflexivity. }
    rewrite CL.
    set (ob := RxCallback b a payload q (addr_of w0 a) (addr_of w0 b) (addr_of w0 b)).
    assert (FI : forall u, fire u ob = sends crc fcs tx_time has_mob (log1 u ob) (match next b with Some (e, x) => match touch b payload with Some p => [(e, mkPkt uid p, Mac x, q)] | None => [] end | None => [] end)).
    { intros u. unfold ReactModel.fire. cbn [log1 w_log]. unfold forward at 1. rewrite rev_app_distr. reflexivity. }
    assert (G : forall os, quiet (map (pair T) os) -> exists w1, w_now w1 = T /\ w_dev w1 = w_dev w /\ w_chan w1 = w_chan w /\ w_events w1 = r /\
      handed (w_log w1) = handed (w_log w) ++ [(T, ob)] /\ log1 (log1 (emit v os) (MacRx b (hop_frame h))) ob = w1).
    { intros os Q. exists (log1 (log1 (emit v os) (MacRx b (hop_frame h))) ob). do 4 (split; [reflexivity|]). split; [|reflexivity].
      cbn [log1 emit w_log w_now v]. rewrite !handed_app, Q, !app_nil_r. reflexivity. }
    destruct (g_pcb (d_cfg (w_dev w0 b))).
    - rewrite fire_plain by exact I. cbn [bind]. rewrite fire_plain by exact I. cbn [bind]. rewrite fire_plain by exact I. cbn [bind].
      match goal with |- context [d_cfg (w_dev ?u b)] => change (d_cfg (w_dev u b)) with (d_cfg (w_dev v b)) end.
      rewrite (fixed_cfg v b FV), CB. change (g_addr (d_cfg (w_dev w0 b))) with (addr_of w0 b). fold ob.
      destruct (G [PhyRxEnd b (hop_frame h) a; PromiscSniffer b (hop_frame h); MacPromiscRx b (hop_frame h); PromiscCallback b a payload q (addr_of w0 a) (addr_of w0 b) PHost] eq_refl) as (w1 & X1 & X2 & X3 & X4 & X5 & X6).
      exists w1. do 5 (split; [assumption|]). rewrite FI, <- X6. rewrite !log1_emit, !emit_emit. reflexivity.
    - cbn [bind]. rewrite fire_plain by exact I. cbn [bind].
      match goal with |- context [d_cfg (w_dev ?u b)] => change (d_cfg (w_dev u b)) with (d_cfg (w_dev v b)) end.
      rewrite (fixed_cfg v b FV), CB. change (g_addr (d_cfg (w_dev w0 b))) with (addr_of w0 b). fold ob.
      destruct (G [PhyRxEnd b (hop_frame h) a; PromiscSniffer b (hop_frame h)] eq_refl) as (w1 & X1 & X2 & X3 & X4 & X5 & X6).
      exists w1. do 5 (split; [assumption|]). rewrite FI, <- X6. rewrite !log1_emit, !emit_emit. reflexivity.
  Qed.

  End Payload.
  Notation usable := (usable crc fcs tx_time has_mob w0).
  Notation hop_frame := (hop_frame crc fcs w0).
  Notation hop_delay := (hop_delay crc fcs tx_time has_mob w0).
  Notation passes := (passes crc fcs tx_time has_mob w0 touch q uid).
  Notation stops := (stops crc fcs tx_time has_mob w0 touch q uid).

  (** Where nothing is sent on, the packet has got to its end. *)
  Lemma ending : forall payload h T t, (length payload <= 1492)%nat -> usable payload q uid t h -> T = t + hop_delay payload q uid t h ->
    (forall u : world N, sends crc fcs tx_time has_mob u (match next (h_to h) with Some (e, a) => match touch (h_to h) payload with Some p => [(e, mkPkt uid p, Mac a, q)] | None => [] end | None => [] end) = Ok u) ->
    forall n others w, length others = n -> fixed w ->
    Permutation (w_events w) ((T, RxEvent (h_to h) (hop_frame payload q uid h) (h_from h) (power_at has_mob (set_now w0 t) (h_over h) (h_from h) (h_to h))) :: others) ->
    others_ok w others ->
    exists k w', runR w (repeat ORun k) = Ok w' /\ w_events w' = [] /\
      handed (w_log w') = handed (w_log w) ++
        [(T, RxCallback (h_to h) (h_from h) payload q (addr_of w0 (h_from h)) (addr_of w0 (h_to h)) (addr_of w0 (h_to h)))].
  Proof.
    intros payload h T t SZ US ET NX.
    induction n as [|n IHN]; intros others w LN F P O.
    + destruct others; [|discriminate]. destruct (w_events w) as [|e r] eqn:EV; [apply Permutation_nil in P; discriminate|].
      pose proof (Permutation_length_1_inv (Permutation_sym P)) as PE. injection PE as -> ->.
      destruct (reception payload SZ w h T t [] F US ET EV) as (w1 & X1 & X2 & X3 & X4 & X5 & X6). rewrite NX in X6.
      exists 1%nat, w1. cbn [repeat]. rewrite run_next_step, X6. cbn [bind]. split; [reflexivity|]. split; [exact X4|exact X5].
    + destruct (w_events w) as [|[t' e] r] eqn:EV; [apply Permutation_nil in P; discriminate|].
      destruct (Permutation_in (t', e) P (or_introl eq_refl)) as [HM|HI].
      * injection HM as <- <-. apply Permutation_cons_inv in P.
        destruct (reception payload SZ w h T t r F US ET EV) as (w1 & X1 & X2 & X3 & X4 & X5 & X6). rewrite NX in X6.
        destruct (drain payload SZ (S n) w1 others) as (w' & E' & EV' & H'); [exact LN|eapply same_fixed; eassumption|rewrite X4; exact P|eapply others_keep; [exact O|]; intros; rewrite X2; reflexivity|].
        exists (S (S n)), w'. cbn [repeat] in *. rewrite run_next_step, X6. cbn [bind]. split; [exact E'|]. split; [exact EV'|]. rewrite H'. exact X5.
      * apply in_split in HI as (l1 & l2 & ->). destruct (others_step w t' e r l1 l2 F EV O) as (w1 & E1 & ER & F1 & H1 & O1 & RD1).
        rewrite app_comm_cons in P. apply Permutation_cons_app_inv in P. 
        destruct (IHN (l1 ++ l2) w1) as (k & w' & E' & EV' & H'); [rewrite app_length in *; cbn in LN; lia|exact F1|rewrite ER; exact P|exact O1|].
        exists (S k), w'. cbn [repeat]. rewrite run_next_step, E1. cbn [bind]. split; [exact E'|]. split; [exact EV'|]. rewrite H', H1. reflexivity.
  Qed.

  Lemma flight : forall rest payload h T t, (length payload <= 1492)%nat -> routed w0 next (h :: rest) -> usable payload q uid t h ->
    T = t + hop_delay payload q uid t h ->
    match rest with [] => True | _ => match touch (h_to h) payload with Some p => passes p T rest | None => True end end -> NoDup (map h_from rest) ->
    forall n others w, length others = n -> fixed w -> ready w rest ->
    Permutation (w_events w) ((T, RxEvent (h_to h) (hop_frame payload q uid h) (h_from h) (power_at has_mob (set_now w0 t) (h_over h) (h_from h) (h_to h))) :: others) ->
    others_ok w others ->
    exists k w', runR w (repeat ORun k) = Ok w' /\ w_events w' = [] /\
      handed (w_log w') = handed (w_log w) ++
        (T, RxCallback (h_to h) (h_from h) payload q (addr_of w0 (h_from h)) (addr_of w0 (h_to h)) (addr_of w0 (h_to h))) :: match touch (h_to h) payload with Some p => stops p T rest | None => [] end.
  Proof.
    induction rest as [|h2 rest IHR]; intros payload h T t SZ RT US ET PA ND.
    - intros n others w LN F RD P O. cbn in RT. destruct (ending payload h T t SZ US ET ltac:(intros u; rewrite (proj1 RT); reflexivity) n others w LN F P O) as (k & w' & E & EV & H).
      exists k, w'. split; [exact E|]. split; [exact EV|]. destruct (touch (h_to h) payload); exact H.
    - destruct (touch (h_to h) payload) as [p2|] eqn:TP.
      2:{ intros n others w LN F RD P O. apply (ending payload h T t SZ US ET ltac:(intros u; rewrite TP; destruct (next (h_to h)) as [[? ?]|]; reflexivity) n others w LN F P O). }
      destruct PA as (SZ2 & US2 & PA). cbn [map] in ND. pose proof ND as ND1. apply NoDup_cons_iff in ND as [NI ND].
      assert (FIRE : forall others w r, fixed w -> ready w (h2 :: rest) ->
        w_events w = (T, RxEvent (h_to h) (hop_frame payload q uid h) (h_from h) (power_at has_mob (set_now w0 t) (h_over h) (h_from h) (h_to h))) :: r ->
        Permutation r others -> others_ok w others ->
        exists k w', runR w (repeat ORun k) = Ok w' /\ w_events w' = [] /\
        handed (w_log w') = handed (w_log w) ++
        (T, RxCallback (h_to h) (h_from h) payload q (addr_of w0 (h_from h)) (addr_of w0 (h_to h)) (addr_of w0 (h_to h))) :: stops p2 T (h2 :: rest)).
      { intros others w r F RD EV P O. destruct (reception payload SZ w h T t r F US ET EV) as (w1 & X1 & X2 & X3 & X4 & X5 & X6).
        pose proof RT as RT'. cbn [routed] in RT'. rewrite (proj1 RT'), TP in X6. cbn [sends] in X6.
        assert (F1 : fixed w1) by (eapply same_fixed; eassumption). destruct (Forall_inv RD) as [B2 Q2].
        destruct (launch p2 SZ2 w1 h2 F1 ltac:(rewrite X1; exact US2)) as (w2 & more & ES & N2 & F2 & (l2 & L2 & QL) & P2 & H2 & EN2 & D2); [rewrite X2; exact B2|rewrite X2; exact Q2|].
        rewrite ES in X6. cbn [bind sends] in X6.
        unfold main in P2. rewrite X1, X4 in P2.
        destruct (IHR p2 h2 (T + hop_delay p2 q uid T h2) T SZ2 (proj2 RT') US2 eq_refl PA ND (length (more ++ others)) (more ++ others) w2) as (k & w' & E' & EV' & H').
        + reflexivity.
        + exact F2.
        + unfold ready in *. apply Forall_inv_tail in RD. rewrite Forall_forall in *. intros x Hx. rewrite D2, X2; [apply RD; exact Hx|].
          intros EQ. apply NI. rewrite <- EQ. apply in_map. exact Hx.
        + rewrite P2. apply perm_skip. apply Permutation_app_head. exact P.
        + assert (NH : ~ In (h_from h2) (enders others)).
          { intros HI. unfold enders in HI. apply in_flat_map in HI as ([t3 [e3 a3|d3 p3 s3 w3]] & HI1 & HI2); cbn in HI2; [|contradiction].
            destruct HI2 as [HI2|[]]. subst e3. destruct O as [O _]. rewrite Forall_forall in O. specialize (O _ HI1). cbn in O. destruct O as [O _]. congruence. }
          assert (O2 : others_ok w2 others).
          { eapply others_keep; [exact O|]. intros e He. rewrite D2, X2; [reflexivity|]. intros ->. contradiction. }
          split; [apply Forall_app; split; [exact H2|apply O2]|]. rewrite enders_app, EN2. cbn [app]. constructor; [exact NH|apply O2].
        + exists (S k), w'. cbn [repeat]. rewrite run_next_step, X6. cbn [bind]. split; [exact E'|]. split; [exact EV'|].
          rewrite H', L2, handed_app, QL, app_nil_r, X5, <- app_assoc. reflexivity. }
      induction n as [|n IHN]; intros others w LN F RD P O; (destruct (w_events w) as [|[t' e] r] eqn:EV; [apply Permutation_nil in P; discriminate|]);
        (destruct (Permutation_in (t', e) P (or_introl eq_refl)) as [HM|HI];
          [injection HM as <- <-; apply Permutation_cons_inv in P; eapply FIRE; eassumption|]).
      + destruct others; [contradiction|discriminate].
      + apply in_split in HI as (l1 & l2 & ->). destruct (others_step w t' e r l1 l2 F EV O) as (w1 & E1 & ER & F1 & H1 & O1 & RD1).
        rewrite app_comm_cons in P. apply Permutation_cons_app_inv in P.
        destruct (IHN (l1 ++ l2) w1) as (k & w' & E' & EV' & H'); [rewrite app_length in *; cbn in LN; lia|exact F1|apply RD1; exact RD|rewrite ER; exact P|exact O1|].
        exists (S k), w'. cbn [repeat]. rewrite run_next_step, E1. cbn [bind]. split; [exact E'|]. split; [exact EV'|]. rewrite H', H1. reflexivity.
  Qed.

  Lemma forwarding : forall payload h rest, routed w0 next (h :: rest) -> passes payload (w_now w0) (h :: rest) -> NoDup (map h_from (h :: rest)) ->
    ready w0 (h :: rest) -> w_events w0 = [] ->
    exists k w', runR w0 (OSend (h_from h) (mkPkt uid payload) (Mac (addr_of w0 (h_to h))) q :: repeat ORun k) = Ok w' /\ w_events w' = [] /\
      handed (w_log w') = handed (w_log w0) ++ stops payload (w_now w0) (h :: rest).
  Proof.
    intros payload h rest RT (SZ & US & PA) ND RD EV. assert (F0 : fixed w0) by (split; [reflexivity|]; repeat split).
    destruct (Forall_inv RD) as [B Q].
    destruct (launch payload SZ w0 h F0 US B Q) as (w1 & others & ES & N1 & F1 & (l & L & QL) & P & H & EN & D).
    cbn [map] in ND. apply NoDup_cons_iff in ND as [NI ND]. rewrite EV, app_nil_r in P. unfold main in P.
    destruct (flight rest payload h _ _ SZ RT US eq_refl PA ND (length others) others w1 eq_refl F1) as (k & w' & E' & EV' & H').
    - unfold ready in *. apply Forall_inv_tail in RD. rewrite Forall_forall in *. intros x Hx. rewrite D; [apply RD; exact Hx|].
      intros EQ. apply NI. rewrite <- EQ. apply in_map. exact Hx.
    - exact P.
    - split; [exact H|]. rewrite EN. constructor; [intros []|constructor].
    - exists k, w'. cbn [ReactModel.runR stepR NetModel.step]. rewrite ES. cbn [bind]. split; [exact E'|]. split; [exact EV'|].
      rewrite H', L, handed_app, QL, app_nil_r. reflexivity.
  Qed.
End Forward.
