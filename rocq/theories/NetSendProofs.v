Require Import ZArith List Bool Lia.
Require Import Verif.Base Verif.Num Verif.FrameModel Verif.NetModel Verif.NetSpec Verif.NetSteps Verif.NetInv Verif.NetTxProofs.
Require Import Verif.FrameProofs.
Import ListNotations.
Local Open Scope Z_scope.

Section Send.
  Context {N : Num}.
  Variable crc : list Z -> Z.
  Variable fcs : bool.
  Variable tx_time : Z -> Z -> Z.
  Variable has_mob : nat -> bool.
  Notation reachable := (@reachable N crc fcs tx_time has_mob).
  Notation run := (@run N crc fcs tx_time has_mob).
  Notation step := (@step N crc fcs tx_time has_mob).
  Notation Send := (@Send N crc fcs tx_time has_mob).
  Implicit Type w : world N.

  (** ** C37 *)
  Lemma Send_false : forall w d p a q w', Send w d p (Mac a) q = Ok (false, w') ->
    w_now w' = w_now w /\ w_dev w' = w_dev w /\ w_chan w' = w_chan w /\ w_events w' = w_events w /\
    ((d_up (w_dev w d) = false /\
      w_log w' = w_log w ++ [(w_now w, Sent d p a q (addr_of w d) false); (w_now w, MacTxDrop d p)]) \/
     (exists admit, d_up (w_dev w d) = true /\ d_queue (w_dev w d) = Some admit /\
      let f := frame_of crc fcs p a q (addr_of w d) in admit (d_q (w_dev w d)) f = false /\
      w_log w' = w_log w ++ [(w_now w, MacTx d f); (w_now w, Sent d p a q (addr_of w d) false); (w_now w, MacTxDrop d f)])).
  Proof.
    intros w d p a q w' H. unfold NetModel.Send in H. rewrite !log1_emit in H.
    destruct (d_up (w_dev w d)) eqn:U; cbn [negb] in H.
    - destruct (d_queue (w_dev w d)) as [admit|] eqn:Q; [|discriminate].
      change (mkPkt (p_uid p) (AddHeader crc fcs (addr_of w d) a q (p_bytes p)))
          with (frame_of crc fcs p a q (addr_of w d)) in H.
      destruct (admit _ _) eqn:A.
      + destruct (d_busy (w_dev w d)) eqn:B; [discriminate|].
        destruct (_ ++ _); [discriminate|]. apply bind_ok in H as ([b4 w4] & H & H4). discriminate.
      + injection H as <-. rewrite ?log1_emit, !emit_emit. cbn. repeat (split; [reflexivity|]). right. exists admit.
        repeat (split; try reflexivity; try assumption).
    - injection H as <-. rewrite !emit_emit. cbn. repeat (split; [reflexivity|]). left. split; reflexivity.
  Qed.

  Lemma Send_true : forall w d p a q w', reachable w -> Send w d p (Mac a) q = Ok (true, w') ->
    let f := frame_of crc fcs p a q (addr_of w d) in
    (exists admit, d_up (w_dev w d) = true /\ d_queue (w_dev w d) = Some admit /\ admit (d_q (w_dev w d)) f = true) /\
    w_now w' = w_now w /\ w_chan w' = w_chan w /\
    (forall d', d' <> d -> w_dev w' d' = w_dev w d') /\ d_busy (w_dev w' d) = true /\
    (if d_busy (w_dev w d)
     then d_cur (w_dev w' d) = d_cur (w_dev w d) /\ d_q (w_dev w' d) = d_q (w_dev w d) ++ [f] /\ w_events w' = w_events w
     else d_cur (w_dev w' d) = Some f /\ d_q (w_dev w' d) = []).
  Proof.
    intros w d p a q w' R H f. pose proof (reachable_indexed _ _ _ _ w R) as HI.
    destruct (busy_pending crc fcs tx_time has_mob d w R) as (_ & _ & HQ).
    unfold NetModel.Send in H. rewrite !log1_emit in H.
    destruct (d_up (w_dev w d)) eqn:U; cbn [negb] in H; [|discriminate].
    destruct (d_queue (w_dev w d)) as [admit|] eqn:Q; [|discriminate].
    change (mkPkt (p_uid p) (AddHeader crc fcs (addr_of w d) a q (p_bytes p))) with f in H.
    destruct (admit (d_q (w_dev w d)) f) eqn:A; [|discriminate].
    split; [exists admit; auto|].
    destruct (d_busy (w_dev w d)) eqn:B.
    - injection H as <-. cbn. rewrite upd_same. cbn. repeat split.
      intros d' Hd. rewrite upd_other by assumption. reflexivity.
    - rewrite (HQ eq_refl) in H. cbn [app] in H. apply bind_ok in H as ([b4 w4] & H & H4). injection H4 as <-.
      rewrite !log1_emit, !emit_emit, emit_set_tx, !emit_emit in H.
      apply (TransmitStart_spec crc fcs tx_time has_mob true every) in H.
      2:{ apply (indexed_set_tx w d [] false (d_cur (w_dev w d))) in HI. exact HI. }
      destruct H as (_ & _ & c & HC & _ & EN & ED & EC). rewrite EN, EC, ED. cbn. rewrite !upd_same. cbn.
      repeat split. intros d' Hd. rewrite !upd_other by assumption. reflexivity.
  Qed.

  (** ** C38 *)
  Definition addressed d (l : trace) : Prop := forall l1 t c p dest tx gap l2,
    l = l1 ++ (t, ToChannel d c p dest tx gap) :: l2 -> opened d dest l1.

  Lemma opened_app : forall d dest l new, opened d dest l ->
    (forall n1 n2 t p a q own, new = n1 ++ (t, Sent d p a q own true) :: n2 -> transmitting d (l ++ n1) = true) ->
    opened d dest (l ++ new).
  Proof.
    intros d dest l new (l1 & l2 & t & p & q & own & -> & H1 & H2) HN.
    exists l1, (l2 ++ new), t, p, q, own. rewrite <- app_assoc. split; [reflexivity|]. split; [assumption|].
    intros l3 l4 t' p' dest' q' own' E. apply app_cons_split in E as [(l2' & -> & ->)|(n1 & -> & ->)].
    - eapply H2. reflexivity.
    - specialize (HN n1 l4 t' p' dest' q' own' eq_refl). rewrite <- app_assoc in HN. exact HN.
  Qed.

  Lemma addressed_app : forall d l new, addressed d l ->
    (forall n1 n2 t c p dest tx gap, new = n1 ++ (t, ToChannel d c p dest tx gap) :: n2 -> opened d dest (l ++ n1)) ->
    addressed d (l ++ new).
  Proof.
    intros d l new H HN l1 t c p dest tx gap l2 E. apply app_cons_split in E as [(l2' & -> & ->)|(n1 & -> & ->)].
    - eapply H. reflexivity.
    - eapply HN. reflexivity.
  Qed.

  Definition pending_dest (d : nat) (dest : Z) (l : list (Z * ev N)) : Prop :=
    forall t dest', In (t, TxComplete d dest') l -> dest' = dest.

  Definition destinations d w : Prop :=
    addressed d (w_log w) /\
    (d_busy (w_dev w d) = true -> exists dest, pending_dest d dest (w_events w) /\ opened d dest (w_log w)).

  Lemma transmitting_app : forall d l t o, Forall (fun o => about d o = false) o ->
    transmitting d (l ++ map (pair t) o) = transmitting d l.
  Proof.
    intros d l t o H. unfold transmitting, begun, ended. rewrite !flat_map_app, !(flat_other _ _ d), !app_nil_r;
      try assumption; try reflexivity;
      (intros t0 o0 Ho; destruct o0; cbn in Ho |- *; try reflexivity; rewrite Ho; reflexivity).
  Qed.

  Lemma transmitting_app_one : forall d l t o,
    match o with PhyTxBegin _ _ | PhyTxEnd _ _ => False | _ => True end -> transmitting d (l ++ [(t, o)]) = transmitting d l.
  Proof.
    intros d l t o H. unfold transmitting, begun, ended. rewrite !flat_map_app.
    destruct o; try destruct H; cbn; rewrite !app_nil_r; reflexivity.
  Qed.

  Lemma busy_transmitting : forall d w, records crc fcs d w -> transmitting d (w_log w) = d_busy (w_dev w d).
  Proof.
    intros d w (_ & H & _). unfold transmitting. rewrite H. destruct (d_busy (w_dev w d)).
    - destruct (Nat.eqb_spec (length (ended d (w_log w)) + 1) (length (ended d (w_log w)))); [lia|reflexivity].
    - rewrite Nat.add_0_r, Nat.eqb_refl. reflexivity.
  Qed.

  Lemma other_split : forall d (t : Z) l n1 n2 t' o, map (pair t) l = n1 ++ (t', o) :: n2 ->
    Forall (fun o => about d o = false) l -> about d o = false.
  Proof.
    intros d t l. induction l as [|x l IH]; intros n1 n2 t' o E H; [destruct n1; discriminate|].
    apply Forall_cons_iff in H as [Hx H]. destruct n1 as [|y n1]; cbn in E.
    - injection E as _ <- _. assumption.
    - injection E as _ E. eauto.
  Qed.

  (** Enumerate the places of an entry in a list of entries. *)
  Ltac peel H n := cbn [map app] in H; repeat (match type of H with
    | _ :: _ = n ++ _ :: _ => destruct n as [|? n]; cbn [app] in H; [try discriminate H|injection H as ? H]
    | [] = n ++ _ :: _ => exfalso; destruct n; discriminate H
    end).

  Lemma local_destinations : forall d w w', local crc fcs tx_time d w w' -> timely w -> transmitter crc fcs d w ->
    records crc fcs d w -> destinations d w -> destinations d w'.
  Proof.
    intros d w w' L [HT _] HX HR [HA HB].
    pose proof (busy_transmitting d w HR) as HTR.
    destruct HX as (_ & _ & line0 & free0 & _ & _ & _ & HX).
    destruct L as [l E EV NW LG AB|l E EV NW LG AB|p a q U B E EV NW LG|p a q c h r U B Q C D E EV NW LG
                  |t r dest cur EV T B C Q E EV' NW LG|t r dest cur h q c EV T B C Q CH D E EV' NW LG
                  |E EV NW LG|c b E Hc Hb EV NW LG]; unfold logs in LG;
    unfold tx_state in E; injection E as E1 E2 E3 E4 E5; unfold destinations; rewrite E1, LG.
    - split.
      + apply addressed_app; [assumption|]. intros. exfalso. eapply other_split in AB; [|eassumption]. cbn in AB. rewrite Nat.eqb_refl in AB. discriminate.
      + intros B. destruct (HB B) as (dest & HP & HO). exists dest. split.
        * intros t dest' HI. apply pend_in in HI. rewrite EV in HI. apply pend_in in HI. eapply HP; eassumption.
        * apply opened_app; [assumption|]. intros. exfalso. eapply other_split in AB; [|eassumption]. cbn in AB. rewrite Nat.eqb_refl in AB. discriminate.
    - assert (HN : forall n1 n2 t o, map (pair (w_now w')) l = n1 ++ (t, o) :: n2 ->
        match o with ToChannel _ _ _ _ _ _ => False | Sent _ _ _ _ _ true => False | _ => True end).
      { intros n1 n2 t o HE.
        destruct AB as [(p & a & q & _ & ->)|[(p & _ & ->)|(p & a & q & _ & ->)]]; peel HE n1; injection HE as <- <- <-; exact I. }
      split.
      + apply addressed_app; [assumption|]. intros. exfalso. apply HN in H. exact H.
      + intros B. destruct (HB B) as (dest & HP & HO). exists dest. rewrite EV. split; [assumption|].
        apply opened_app; [assumption|]. intros. exfalso. apply HN in H. exact H.
    - destruct (HB B) as (dest & HP & HO). split.
      + apply addressed_app; [assumption|]. intros n1 n2 t0 c p0 dest0 tx gap HE. peel HE n1.
      + intros _. exists dest. rewrite EV. split; [assumption|]. apply opened_app; [assumption|].
        intros n1 n2 t0 p0 a0 q0 own0 HE. peel HE n1. subst.
        rewrite (transmitting_app_one d) by exact I. congruence.
    - rewrite B in HX. destruct HX as (B1 & B2 & B3 & B4).
      set (f := frame_of crc fcs p a q (addr_of w d)) in *.
      assert (HO : forall rest, Forall (fun o => match o with Sent _ _ _ _ _ true => False | _ => True end) rest ->
        opened d a (w_log w ++ map (pair (w_now w')) ([MacTx d f; Sent d p a q (addr_of w d) true] ++ rest))).
      { intros rest Hr. exists (w_log w ++ [(w_now w', MacTx d f)]), (map (pair (w_now w')) rest), (w_now w'), p, q, (addr_of w d).
        split; [rewrite <- app_assoc; reflexivity|]. split; [rewrite (transmitting_app_one d) by exact I; congruence|].
        intros l3 l4 t' p' dest' q' own' HE. exfalso.
        assert (HI : In (t', Sent d p' dest' q' own' true) (map (pair (w_now w')) rest)) by (rewrite HE; apply in_elt).
        apply in_map_iff in HI as (o & Ho & HI). injection Ho as _ ->. eapply Forall_forall in Hr; [|eassumption]. exact Hr. }
      split.
      + apply addressed_app; [assumption|]. intros n1 n2 t0 c0 p0 dest0 tx gap HE. peel HE n1. injection HE as <- <- <- <- <- <- <-. subst.
        apply (HO [_; _; _]). repeat constructor.
      + intros _. exists a. split.
        * rewrite EV. intros t0 dest' HI. apply insert_in in HI as [HI|HI]; [injection HI as _ ->; reflexivity|].
          exfalso. apply pend_in, (in_map fst) in HI. rewrite <- ends_pend, B1 in HI. exact HI.
        * apply (HO [_; _; _; _]). repeat constructor.
    - split; [|discriminate].
      apply addressed_app; [assumption|]. intros n1 n2 t0 c p0 dest0 tx gap HE. peel HE n1.
    - rewrite B in HX. destruct HX as (u & p & _ & B2 & B3).
      destruct (HB B) as (dest1 & HP & HO). rewrite EV in HP.
      assert (dest1 = dest) as -> by (symmetry; eapply HP; left; reflexivity).
      assert (HO' : forall rest, Forall (fun o => match o with Sent _ _ _ _ _ true => False | _ => True end) rest ->
        opened d dest (w_log w ++ map (pair (w_now w')) rest)).
      { intros rest Hr. apply opened_app; [assumption|].
        intros l3 l4 t' p' dest' q' own' HE. exfalso.
        assert (HI : In (t', Sent d p' dest' q' own' true) (map (pair (w_now w')) rest)) by (rewrite HE; apply in_elt).
        apply in_map_iff in HI as (o & Ho & HI). injection Ho as _ ->. eapply Forall_forall in Hr; [|eassumption]. exact Hr. }
      split.
      + apply addressed_app; [assumption|]. intros n1 n2 t0 c0 p0 dest0 tx gap HE. peel HE n1. injection HE as <- <- <- <- <- <- <-. subst.
        apply (HO' [_; _; _; _]). repeat constructor.
      + intros _. exists dest. split; [|apply HO'; repeat constructor].
        rewrite EV'. intros t0 dest' HI. apply insert_in in HI as [HI|HI]; [injection HI as _ ->; reflexivity|].
        eapply HP. right. eassumption.
    - assert (HN : forall n1 n2 t o, map (pair (w_now w')) [QueueSet d] = n1 ++ (t, o) :: n2 -> o = QueueSet d).
      { intros n1 n2 t o HE. peel HE n1. congruence. }
      split.
      + apply addressed_app; [assumption|]. intros. exfalso. apply HN in H. discriminate.
      + intros B. destruct (HB B) as (dest & HP & HO). exists dest. rewrite EV. split; [assumption|].
        apply opened_app; [assumption|]. intros. exfalso. apply HN in H. discriminate.
    - assert (HN : forall n1 n2 t o, map (pair (w_now w')) [LinkChange d b] = n1 ++ (t, o) :: n2 -> o = LinkChange d b).
      { intros n1 n2 t o HE. peel HE n1. congruence. }
      split.
      + apply addressed_app; [assumption|]. intros. exfalso. apply HN in H. discriminate.
      + intros B. destruct (HB B) as (dest & HP & HO). exists dest. rewrite EV. split; [assumption|].
        apply opened_app; [assumption|]. intros. exfalso. apply HN in H. discriminate.
  Qed.

  Lemma reachable_destinations : forall d w, reachable w -> destinations d w.
  Proof.
    intros d w R.
    assert (H : (transmitter crc fcs d w /\ records crc fcs d w /\ destinations d w) /\ timely w).
    { revert w R. apply invariant.
      - intros dk ck. pose proof (reachable_initial (N:=N) crc fcs tx_time has_mob dk ck) as RI.
        split; [|apply (reachable_transmitter crc fcs tx_time has_mob d _ RI)].
        split; [apply (reachable_transmitter crc fcs tx_time has_mob d _ RI)|].
        split; [apply (reachable_records crc fcs tx_time has_mob d _ RI)|].
        split; [|discriminate]. intros l1 t c p dest tx gap l2 HE. destruct l1; discriminate.
      - intros w w' M _ [(HT & HR & HD) T]. split; [|eapply micro_timely; eassumption].
        pose proof (micro_local crc fcs tx_time has_mob w w' d M T) as L.
        split; [eapply local_transmitter; eassumption|].
        split; [eapply local_records; eassumption|eapply local_destinations; eassumption]. }
    apply H.
  Qed.

  (** ** C39 *)
  Lemma group_bit : forall a, is_group a = Z.testbit a 40.
  Proof.
    intros a. unfold is_group. rewrite <- Z.bit0_odd. change 1099511627776 with (2 ^ 40).
    rewrite <- Z.shiftr_div_pow2 by lia. rewrite Z.shiftr_spec by lia. reflexivity.
  Qed.

  Lemma classify_kind : forall own dst, kind_of own dst (classify own dst).
  Proof.
    intros own dst. unfold classify. change broadcast with (2 ^ 48 - 1).
    destruct (Z.eqb_spec dst (2 ^ 48 - 1)); [assumption|]. destruct (Z.eqb_spec dst own); [split; assumption|].
    rewrite group_bit. destruct (Z.testbit dst 40) eqn:T; repeat split; assumption.
  Qed.

  Lemma Decapsulate_bad : forall bytes, Decapsulate crc fcs bytes = Ok CrcError -> bad_fcs crc fcs bytes.
  Proof.
    intros bytes H. unfold Decapsulate in H. destruct (Z.ltb_spec (len bytes) 4); [discriminate|].
    destruct fcs; cbn [andb] in H.
    - destruct (crc32 crc _ =? _) eqn:E.
      + exfalso. cbn [negb] in H. repeat (match type of H with (if ?b then _ else _) = _ => destruct b end; try discriminate).
      + apply Z.eqb_neq in E. split; [reflexivity|]. intros body trailer -> HL HC. apply E.
        assert (L : (length (body ++ trailer) - 4 = length body)%nat) by (rewrite app_length; lia).
        rewrite L, firstn_app_exact, skipn_app_exact. unfold crc32. symmetry. exact HC.
    - exfalso. repeat (match type of H with (if ?b then _ else _) = _ => destruct b end; try discriminate).
  Qed.
  Lemma prefix_app : forall n (a b : list Z), (n <= length a)%nat -> firstn n (a ++ b) = firstn n a.
  Proof.
    intros n a b H. rewrite firstn_app. replace (n - length a)%nat with 0%nat by lia. cbn. apply app_nil_r.
  Qed.
  Lemma Decapsulate_good : forall bytes payload proto from to,
    Decapsulate crc fcs bytes = Ok (Frame payload proto from to) ->
    ~ bad_fcs crc fcs bytes /\ from = frame_src bytes /\ to = frame_dst bytes.
  Proof.
    intros bytes payload proto from to H. unfold Decapsulate in H. destruct (Z.ltb_spec (len bytes) 4) as [|L4]; [discriminate|].
    destruct (fcs && negb _) eqn:E; [discriminate|].
    set (body := firstn (length bytes - 4) bytes) in *.
    destruct (Z.ltb_spec (len body) 14) as [|L14]; [discriminate|].
    assert (LB : (length bytes - 4 = length body)%nat) by (unfold body; rewrite firstn_length; lia).
    assert (HB : bytes = body ++ skipn (length bytes - 4) bytes) by (symmetry; apply firstn_skipn).
    assert (HF : firstn 6 body = firstn 6 bytes /\ firstn 6 (skipn 6 body) = firstn 6 (skipn 6 bytes)).
    { clearbody body. rewrite HB at 1 2. rewrite !prefix_app by (unfold len in L14; rewrite ?skipn_length; lia). rewrite skipn_app, prefix_app by (unfold len in L14; rewrite ?skipn_length; lia). split; reflexivity. }
    destruct HF as [HF1 HF2].
    assert (from = frame_src bytes /\ to = frame_dst bytes) as HFT.
    { unfold frame_src, frame_dst. rewrite <- HF1, <- HF2.
      repeat (match type of H with (if ?b then _ else _) = _ => destruct b end; try discriminate);
      injection H; intros; subst; split; reflexivity. }
    split; [|assumption]. intros [F HN]. rewrite F in E. cbn [andb] in E. apply negb_false_iff, Z.eqb_eq in E.
    apply (HN body (skipn (length bytes - 4) bytes)); [assumption| |].
    - rewrite skipn_length. unfold len in L4. lia.
    - symmetry. exact E.
  Qed.

  Lemma Receive_table : forall w d p src power w', Receive crc fcs w d p src power = Ok w' ->
    let g := d_cfg (w_dev w d) in
    exists new, w' = mkWorld (w_now w) (w_dev w) (w_chan w) (w_events w) (w_log w ++ map (pair (w_now w)) new) /\
    ((src = d /\ new = [MacRxDrop d p]) \/
     (src <> d /\ phy_drop crc fcs g (w_now w) p power /\
      exists p', p_uid p' = p_uid p /\ new = [PhyRxEnd d p src; PhyRxDrop d p']) \/
     (src <> d /\ ~ phy_drop crc fcs g (w_now w) p power /\
      exists payload proto t, kind_of (g_addr g) (frame_dst (p_bytes p)) t /\
      new = [PhyRxEnd d p src; PromiscSniffer d p] ++
            (if g_pcb g then [MacPromiscRx d p; PromiscCallback d src payload proto (frame_src (p_bytes p)) (frame_dst (p_bytes p)) t] else []) ++
            match t with
            | POtherHost => []
            | _ => [MacRx d p; RxCallback d src payload proto (frame_src (p_bytes p)) (frame_dst (p_bytes p)) (g_addr g)]
            end)).
  Proof.
    intros w d p src power w' H g. unfold Receive in H. fold g in H. rewrite !log1_emit in H.
    destruct (Nat.eqb_spec src d) as [Es|Ns]; [injection H as <-; exists [MacRxDrop d p]; split; [reflexivity|left; auto]|].
    change (DoCalcRxPower g power) with (effective_power g power) in H.
    destruct (nlt N _ _) eqn:P.
    { injection H as <-. rewrite emit_emit. eexists. split; [reflexivity|]. right. left.
      split; [assumption|]. split; [left; exact P|]. exists p. auto. }
    destruct (match g_err g with Some f => f (w_now w) p | None => false end) eqn:ER.
    { injection H as <-. rewrite emit_emit. eexists. split; [reflexivity|]. right. left.
      split; [assumption|]. split; [|exists p; auto]. right. left. destruct (g_err g); [eauto|discriminate]. }
    apply bind_ok in H as (r & HD & H). destruct r as [|payload proto from to].
    { injection H as <-. rewrite ?log1_emit, emit_emit. eexists. split; [reflexivity|]. right. left.
      split; [assumption|]. split; [right; right; apply Decapsulate_bad; assumption|].
      eexists. split; [|reflexivity]. reflexivity. }
    apply Decapsulate_good in HD as (HG & -> & ->).
    assert (HP : ~ phy_drop crc fcs g (w_now w) p power).
    { intros [X|[(f & X1 & X2)|X]]; [congruence|rewrite X1 in ER; congruence|auto]. }
    pose proof (classify_kind (g_addr g) (frame_dst (p_bytes p))) as HK.
    remember (classify (g_addr g) (frame_dst (p_bytes p))) as t.
    exists ([PhyRxEnd d p src; PromiscSniffer d p] ++
            (if g_pcb g then [MacPromiscRx d p; PromiscCallback d src payload proto (frame_src (p_bytes p)) (frame_dst (p_bytes p)) t] else []) ++
            match t with
            | POtherHost => []
            | _ => [MacRx d p; RxCallback d src payload proto (frame_src (p_bytes p)) (frame_dst (p_bytes p)) (g_addr g)]
            end).
    split; [|right; right; split; [assumption|split; [assumption|exists payload, proto, t; split; [assumption|reflexivity]]]].
    destruct (g_pcb g); rewrite !log1_emit, !emit_emit in H; destruct t; try destruct (g_rxcb g); try discriminate;
      injection H as <-; rewrite ?log1_emit, ?emit_emit; reflexivity.
  Qed.

  (** Outcome of Receive for frames made by a device. *)
  Lemma Receive_total : forall w d uid from to proto payload src power,
    0 <= from < 2 ^ 48 -> 0 <= to < 2 ^ 48 -> 0 <= proto < 2 ^ 16 -> Z.of_nat (length payload) <= 65527 ->
    g_rxcb (d_cfg (w_dev w d)) = true ->
    is_ok (Receive crc fcs w d (mkPkt uid (AddHeader crc fcs from to proto payload)) src power) = true.
  Proof.
    intros w d uid from to proto payload src power Hf Ht Hp Hl Hc. unfold Receive.
    destruct (Nat.eqb src d); [reflexivity|]. destruct (nlt N _ _); [reflexivity|].
    destruct (match g_err _ with Some f => _ | None => false end); [reflexivity|].
    cbn [p_bytes].
    assert (HD : exists q pl fr t, Decapsulate crc fcs (AddHeader crc fcs from to proto payload) = Ok (Frame pl q fr t)).
    { rewrite Decapsulate_AddHeader; try assumption; [|destruct fcs; auto].
      cbv zeta. change (Z.of_nat (length payload)) with (len payload) in Hl. pose proof (len_pos _ payload).
      rewrite Z.mod_small by lia.
      destruct (len payload + 8 <=? 1500); [|eauto]. destruct (Z.ltb_spec (len payload + 8) 65536); [eauto|lia]. }
    destruct HD as (q & pl & fr & t & ->). cbn [bind]. rewrite Hc.
    destruct (classify _ _); reflexivity.
  Qed.
End Send.
