(** Every step is a sequence of small steps; invariants are proved for these. *)
Require Import ZArith List Bool Lia.
Require Import Verif.Base Verif.Num Verif.FrameModel Verif.NetModel Verif.NetSpec.
Import ListNotations.
Local Open Scope Z_scope.

Lemma upd_same : forall A (f : nat -> A) i v, upd f i v i = v.
Proof. intros. unfold upd. rewrite Nat.eqb_refl. reflexivity. Qed.
Lemma upd_other : forall A (f : nat -> A) i j v, j <> i -> upd f i v j = f j.
Proof. intros. unfold upd. destruct (Nat.eqb_spec j i); congruence. Qed.

Lemma bind_ok : forall A B (x : res A) (f : A -> res B) b, bind x f = Ok b -> exists a, x = Ok a /\ f a = Ok b.
Proof. intros A B [a|e|e] f b H; cbn in H; try discriminate. eauto. Qed.

Section Steps.
  Context {N : Num}.
  Variable crc : list Z -> Z.
  Variable fcs : bool.
  Variable tx_time : Z -> Z -> Z.
  Variable has_mob : nat -> bool.
  Notation step := (@step N crc fcs tx_time has_mob).
  Notation run := (@run N crc fcs tx_time has_mob).
  Implicit Type w : world N.

  Definition emit w (l : list obs) : world N :=
    mkWorld (w_now w) (w_dev w) (w_chan w) (w_events w) (w_log w ++ map (pair (w_now w)) l).
  Lemma log1_emit : forall w o, log1 w o = emit w [o].
  Proof. reflexivity. Qed.
  Lemma emit_emit : forall w a b, emit (emit w a) b = emit w (a ++ b).
  Proof. intros. unfold emit. cbn. rewrite map_app, app_assoc. reflexivity. Qed.

  Definition pop w (t : Z) (r : list (Z * ev N)) : world N :=
    mkWorld t (w_dev w) (w_chan w) r (w_log w).

  (** Beginning of a transmission: what TransmitStart does before the channel. *)
  Definition begin_tx w (d : nat) (q : list pkt) (h : pkt) (dest : Z) (c : nat) (pre : list obs) : world N :=
    let x := w_dev w d in
    let txTime := tx_time (g_bps (d_cfg x)) (len (p_bytes h)) in
    let gap := g_gap (d_cfg x) in
    mkWorld (w_now w) (upd (w_dev w) d (mkDev (d_cfg x) (d_queue x) q true (Some h) (d_chan x) (d_id x) (d_up x)))
            (w_chan w) (insert_event (w_now w + (txTime + gap), TxComplete d dest) (w_events w))
            (w_log w ++ map (pair (w_now w)) (pre ++ [PhyTxBegin d h; ToChannel d c h dest txTime gap])).
  Definition tx_duration w (d : nat) (h : pkt) : Z :=
    tx_time (g_bps (d_cfg (w_dev w d))) (len (p_bytes h)) + g_gap (d_cfg (w_dev w d)).

  Notation link_power := (@link_power N has_mob).
  Notation link_delay := (@link_delay N has_mob).
  Notation cut_off := (@cut_off N has_mob).

  (** Who can be reached over channel c. *)
  Definition reachable_on w c src dst : Prop :=
    match c_kind (w_chan w c) with
    | IslChannel => In dst (c_link (w_chan w c))
    | LeoChannel =>
        (indexed (addr_of w src) (c_gnd (w_chan w c)) = true /\ indexed (addr_of w src) (c_sat (w_chan w c)) = false /\
         In dst (map snd (c_sat (w_chan w c)))) \/
        (indexed (addr_of w src) (c_sat (w_chan w c)) = true /\ indexed (addr_of w src) (c_gnd (w_chan w c)) = false /\
         In dst (map snd (c_gnd (w_chan w c))))
    end.

  (** [cfgs]: configuration steps are possible; [ok]: the packets, destinations and
      protocols given to Send. *)
  Variable cfgs : bool.
  Variable ok : pkt -> Z -> Z -> Prop.
  Inductive micro : world N -> world N -> Prop :=
  | m_refuse_down : forall w d p a q, d_up (w_dev w d) = false ->
      micro w (emit w [Sent d p a q (addr_of w d) false; MacTxDrop d p])
  | m_refuse_other : forall w d p, d_up (w_dev w d) = false -> micro w (emit w [MacTxDrop d p])
  | m_refuse_queue : forall w d p a q admit, d_up (w_dev w d) = true -> d_queue (w_dev w d) = Some admit ->
      admit (d_q (w_dev w d)) (frame_of crc fcs p a q (addr_of w d)) = false ->
      micro w (emit w [MacTx d (frame_of crc fcs p a q (addr_of w d)); Sent d p a q (addr_of w d) false;
                       MacTxDrop d (frame_of crc fcs p a q (addr_of w d))])
  | m_enqueue : forall w d p a q admit, d_up (w_dev w d) = true -> d_queue (w_dev w d) = Some admit ->
      admit (d_q (w_dev w d)) (frame_of crc fcs p a q (addr_of w d)) = true -> d_busy (w_dev w d) = true -> ok p a q ->
      micro w (emit (set_tx w d (d_q (w_dev w d) ++ [frame_of crc fcs p a q (addr_of w d)]) true (d_cur (w_dev w d)))
                    [MacTx d (frame_of crc fcs p a q (addr_of w d)); Sent d p a q (addr_of w d) true])
  | m_send : forall w d p a q admit h r c, d_up (w_dev w d) = true -> d_queue (w_dev w d) = Some admit ->
      admit (d_q (w_dev w d)) (frame_of crc fcs p a q (addr_of w d)) = true -> d_busy (w_dev w d) = false ->
      d_q (w_dev w d) ++ [frame_of crc fcs p a q (addr_of w d)] = h :: r ->
      d_chan (w_dev w d) = Some c -> 0 <= tx_duration w d h -> ok p a q ->
      micro w (begin_tx (set_tx w d r false (d_cur (w_dev w d))) d r h a c [MacTx d (frame_of crc fcs p a q (addr_of w d));
                                     Sent d p a q (addr_of w d) true; PromiscSniffer d h; Sniffer d h])
  | m_complete : forall w d dest t r cur admit, w_events w = (t, TxComplete d dest) :: r ->
      d_busy (w_dev w d) = true -> d_cur (w_dev w d) = Some cur -> d_queue (w_dev w d) = Some admit ->
      d_q (w_dev w d) = [] ->
      micro w (emit (set_tx (pop w t r) d (d_q (w_dev w d)) false None) [PhyTxEnd d cur])
  | m_next : forall w d dest t r cur admit h q c, w_events w = (t, TxComplete d dest) :: r ->
      d_busy (w_dev w d) = true -> d_cur (w_dev w d) = Some cur -> d_queue (w_dev w d) = Some admit ->
      d_q (w_dev w d) = h :: q -> d_chan (w_dev w d) = Some c -> 0 <= tx_duration w d h ->
      micro w (begin_tx (set_tx (set_tx (pop w t r) d (d_q (w_dev w d)) false None) d q false None) d q h dest c [PhyTxEnd d cur; Sniffer d h; PromiscSniffer d h])
  | m_deliver : forall w c p src dst txTime a b,
      node_of w src = Some a -> node_of w dst = Some b ->
      (exists dest gap, In (w_now w, ToChannel src c p dest txTime gap) (w_log w)) ->
      In src (c_link (w_chan w c)) -> reachable_on w c src dst ->
      cut_off w c src a b = false -> 0 <= link_delay w c a b txTime ->
      micro w (mkWorld (w_now w) (w_dev w) (w_chan w)
                 (insert_event (w_now w + link_delay w c a b txTime, RxEvent dst p src (link_power w c src a b)) (w_events w))
                 (w_log w ++ [(w_now w, TxRx c p src dst txTime (link_delay w c a b txTime))]))
  | m_drop : forall w d p, micro w (emit w [PhyTxDrop d p])
  | m_receive : forall w d p src power t r w', w_events w = (t, RxEvent d p src power) :: r ->
      Receive crc fcs (pop w t r) d p src power = Ok w' -> micro w w'
  | m_set : forall w d s, cfgs = true -> micro w (Configure w d s)
  | m_queue : forall w d f, cfgs = true -> micro w (SetQueue w d f)
  | m_attach : forall w d c w', Attach w d c = Ok w' -> cfgs = true -> micro w w'
  | m_down : forall w d, cfgs = true -> micro w (set_link w d false)
  | m_chan : forall w c g s l y, cfgs = true -> micro w (set_chan w c (mkChan (c_kind (w_chan w c)) (c_link (w_chan w c)) g s l y))
  | m_now : forall w t, w_now w <= t -> (match w_events w with [] => True | (t', _) :: _ => t <= t' end) ->
      micro w (set_now w t).

  Inductive micros : world N -> world N -> Prop :=
  | ms_nil : forall w, micros w w
  | ms_cons : forall w w1 w2, micro w w1 -> micros w1 w2 -> micros w w2.
  Lemma micros_one : forall w w', micro w w' -> micros w w'.
  Proof. intros. eapply ms_cons; [eassumption|apply ms_nil]. Qed.
  Lemma micros_trans : forall a b c, micros a b -> micros b c -> micros a c.
  Proof. induction 1; intros; [assumption|]. eapply ms_cons; eauto. Qed.

  (** A device's channel index is its own. *)
  Definition indexed_ok w : Prop := forall d c, d_chan (w_dev w d) = Some c ->
    nth_error (c_link (w_chan w c)) (d_id (w_dev w d)) = Some d.

  Lemma Receive_emit : forall w d p src power w', Receive crc fcs w d p src power = Ok w' ->
    exists l, w' = emit w l.
  Proof.
    intros w d p src power w' H. unfold Receive in H. rewrite !log1_emit in H.
    destruct (Nat.eqb src d); [injection H as <-; eauto|].
    destruct (nlt N _ _); [injection H as <-; rewrite emit_emit; eauto|].
    destruct (match g_err _ with Some _ => _ | None => _ end); [injection H as <-; rewrite emit_emit; eauto|].
    apply bind_ok in H as (r & _ & H). destruct r as [|payload protocol from to].
    - injection H as <-. rewrite ?log1_emit, ?emit_emit. eauto.
    - destruct (g_pcb _); rewrite !log1_emit, !emit_emit in H;
      destruct (classify _ _); try destruct (g_rxcb _); try discriminate;
        injection H as <-; rewrite ?log1_emit, ?emit_emit; eauto.
  Qed.

  Lemma schedule_ok : forall w t e w', schedule w t e = Ok w' -> 0 <= t /\
    w' = mkWorld (w_now w) (w_dev w) (w_chan w) (insert_event (w_now w + t, e) (w_events w)) (w_log w).
  Proof.
    intros w t e w' H. unfold schedule in H. destruct (Z.ltb_spec t 0); [discriminate|].
    injection H as <-. split; [lia|reflexivity].
  Qed.

  (** ** Deliveries *)
  Lemma Deliver_spec : forall w c p src dst txTime b w', Deliver has_mob w c p src dst txTime = Ok (b, w') ->
    exists m n, node_of w src = Some m /\ node_of w dst = Some n /\
    ((b = false /\ w' = w /\ cut_off w c src m n = true) \/
     (b = true /\ cut_off w c src m n = false /\ 0 <= link_delay w c m n txTime /\
      w' = mkWorld (w_now w) (w_dev w) (w_chan w)
             (insert_event (w_now w + link_delay w c m n txTime, RxEvent dst p src (link_power w c src m n)) (w_events w))
             (w_log w ++ [(w_now w, TxRx c p src dst txTime (link_delay w c m n txTime))]))).
  Proof.
    intros w c p src dst txTime b w' H. unfold Deliver in H.
    destruct (node_of w src) as [m|] eqn:E1; [|discriminate].
    destruct (node_of w dst) as [n|] eqn:E2; [|discriminate].
    exists m, n. split; [reflexivity|]. split; [reflexivity|].
    unfold cut_off, link_delay, link_power, GetPropagationDelay in *.
    destruct (has_mob m && has_mob n) eqn:M; cbn [andb].
    - destruct (c_loss (w_chan w c)) as [f|] eqn:L.
      + destruct (nlt N _ _) eqn:C.
        * left. injection H as <- <-. auto.
        * right. apply bind_ok in H as (w1 & H1 & H2). apply schedule_ok in H1 as [H0 ->].
          injection H2 as <- <-. split; [reflexivity|split; [reflexivity|split; [assumption|reflexivity]]].
      + right. apply bind_ok in H as (w1 & H1 & H2). apply schedule_ok in H1 as [H0 ->].
          injection H2 as <- <-. split; [reflexivity|split; [reflexivity|split; [assumption|reflexivity]]].
    - right. apply bind_ok in H as (w1 & H1 & H2). apply schedule_ok in H1 as [H0 ->].
      injection H2 as <- <-. split; [reflexivity|]. split.
      { destruct (c_loss (w_chan w c)); reflexivity. } split; [assumption|]. reflexivity.
  Qed.

  Definition sending w c p src txTime : Prop :=
    exists dest gap, In (w_now w, ToChannel src c p dest txTime gap) (w_log w).

  Lemma Deliver_micros : forall w c p src dst txTime b w', sending w c p src txTime ->
    In src (c_link (w_chan w c)) -> reachable_on w c src dst ->
    Deliver has_mob w c p src dst txTime = Ok (b, w') ->
    micros w w' /\ sending w' c p src txTime /\ w_now w' = w_now w /\ w_dev w' = w_dev w /\ w_chan w' = w_chan w.
  Proof.
    intros w c p src dst txTime b w' HS HI HR H.
    apply Deliver_spec in H as (m & n & E1 & E2 & [(-> & -> & C)|(-> & C & D & ->)]).
    - repeat split; auto using ms_nil.
    - split; [apply micros_one, m_deliver; assumption|].
      split; [|cbn; auto]. destruct HS as (dest & gap & HS). exists dest, gap. cbn. apply in_or_app. auto.
  Qed.

  Lemma deliver_all_micros : forall dsts w c p src txTime b w', sending w c p src txTime ->
    In src (c_link (w_chan w c)) -> (forall dst, In dst dsts -> reachable_on w c src dst) ->
    deliver_all has_mob w c p src dsts txTime = Ok (b, w') ->
    micros w w' /\ sending w' c p src txTime /\ w_now w' = w_now w /\ w_dev w' = w_dev w /\ w_chan w' = w_chan w.
  Proof.
    induction dsts as [|d r IH]; intros w c p src txTime b w' HS HI HR H; cbn in H.
    - injection H as <- <-. repeat split; auto using ms_nil.
    - apply bind_ok in H as ([b1 w1] & H1 & H). apply bind_ok in H as ([b2 w2] & H2 & H). injection H as <- <-.
      apply Deliver_micros in H1 as (M1 & S1 & N1 & D1 & C1); [|assumption|assumption|apply HR; left; reflexivity].
      apply IH in H2 as (M2 & S2 & N2 & D2 & C2); [|assumption|rewrite C1; assumption|].
      2:{ intros dst Hd. unfold reachable_on, addr_of. rewrite C1, D1. apply HR. right. assumption. }
      split; [eapply micros_trans; eassumption|]. repeat split; congruence || assumption.
  Qed.

  Lemma Channel_micros : forall w c p id dest txTime b w' src,
    nth_error (c_link (w_chan w c)) id = Some src -> sending w c p src txTime ->
    ChannelTransmitStart has_mob w c p id dest txTime = Ok (b, w') ->
    micros w w' /\ sending w' c p src txTime /\ w_now w' = w_now w /\ w_dev w' = w_dev w /\ w_chan w' = w_chan w.
  Proof.
    intros w c p id dest txTime b w' src HI HS H. unfold ChannelTransmitStart in H.
    assert (HL : In src (c_link (w_chan w c))) by (eapply nth_error_In; eassumption).
    destruct (c_kind (w_chan w c)) eqn:K.
    - assert (HR : forall dst, In dst (c_link (w_chan w c)) -> reachable_on w c src dst).
      { intros dst Hd. unfold reachable_on. rewrite K. assumption. }
      unfold IslTransmitStart in H. rewrite HI in H. destruct (GetDevice w c dest) as [dst|] eqn:G.
      + eapply Deliver_micros; try eassumption. apply HR. unfold GetDevice in G. apply find_some in G as [G _]. assumption.
      + destruct (dest =? broadcast).
        * apply bind_ok in H as ([b1 w1] & H1 & H). injection H as <- <-. eapply deliver_all_micros; [exact HS|exact HL| |exact H1].
          intros dst Hd. apply HR. clear - Hd. revert Hd. generalize 0%nat.
          induction (c_link (w_chan w c)) as [|x l IH]; intros k Hd; [destruct Hd|]. cbn in Hd.
          destruct (Nat.eqb k id); [right; eauto|]. destruct Hd as [<-|Hd]; [left; reflexivity|right; eauto].
        * injection H as <- <-. repeat split; auto using ms_nil.
    - unfold LeoTransmitStart in H. rewrite HI in H.
      destruct (indexed _ (c_gnd _)) eqn:G, (indexed _ (c_sat _)) eqn:S; cbn [andb] in H; try discriminate;
        try (eapply deliver_all_micros; try eassumption; intros dst Hd; unfold reachable_on; rewrite K; auto).
      injection H as <- <-. repeat split; auto using ms_nil.
  Qed.

  (** ** Transmissions *)
  Lemma TransmitStart_spec : forall w d p dest b w', indexed_ok w ->
    TransmitStart tx_time has_mob w d p dest = Ok (b, w') ->
    d_busy (w_dev w d) = false /\ 0 <= tx_duration w d p /\
    exists c, d_chan (w_dev w d) = Some c /\ micros (begin_tx w d (d_q (w_dev w d)) p dest c []) w' /\
    w_now w' = w_now w /\ w_dev w' = w_dev (begin_tx w d (d_q (w_dev w d)) p dest c []) /\ w_chan w' = w_chan w.
  Proof.
    intros w d p dest b w' HI H. unfold TransmitStart in H.
    destruct (d_busy (w_dev w d)); [discriminate|]. split; [reflexivity|].
    apply bind_ok in H as (w2 & H1 & H). apply schedule_ok in H1 as [H0 ->].
    split; [exact H0|].
    destruct (d_chan (w_dev w d)) as [c|] eqn:C; [|discriminate].
    exists c. split; [reflexivity|].
    apply bind_ok in H as ([result w4] & H1 & H). rewrite log1_emit in H1. cbv zeta in H1.
    match type of H1 with ChannelTransmitStart _ ?x _ _ _ _ _ = _ => set (w3 := x) in H1 end.
    assert (E : w3 = begin_tx w d (d_q (w_dev w d)) p dest c []).
    { unfold w3, begin_tx, emit, log1, set_tx, set_dev. cbn. rewrite C, <- app_assoc. reflexivity. }
    rewrite <- E. clearbody w3.
    assert (S3 : sending w3 c p d (tx_time (g_bps (d_cfg (w_dev w d))) (len (p_bytes p)))).
    { rewrite E. eexists _, _. cbn. apply in_or_app. right. right. left. reflexivity. }
    assert (L3 : nth_error (c_link (w_chan w3 c)) (d_id (w_dev w d)) = Some d).
    { rewrite E. cbn. apply HI. assumption. }
    apply (Channel_micros w3 c p (d_id (w_dev w d)) dest _ result w4 d L3 S3) in H1 as (M & S4 & EN & ED & EC).
    assert (w_now w3 = w_now w /\ w_chan w3 = w_chan w) as [EN3 EC3] by (rewrite E; split; reflexivity).
    destruct result; injection H as <- <-; [split; [exact M|repeat split; congruence]|].
    split; [eapply micros_trans; [exact M|]; apply micros_one, m_drop|]. cbn. repeat split; congruence.
  Qed.

  Lemma begin_tx_emit : forall w d q h dest c l, begin_tx (emit w l) d q h dest c [] = begin_tx w d q h dest c l.
  Proof. intros. unfold begin_tx, emit. cbn [w_now w_dev w_chan w_events w_log app]. rewrite map_app, <- app_assoc. reflexivity. Qed.
  Lemma emit_set_tx : forall w l d q b cur, set_tx (emit w l) d q b cur = emit (set_tx w d q b cur) l.
  Proof. reflexivity. Qed.

  Lemma indexed_set_tx : forall w d q b cur, indexed_ok w -> indexed_ok (set_tx w d q b cur).
  Proof.
    intros w d q b cur H d' c. unfold set_tx, set_dev. cbn. unfold upd.
    destruct (Nat.eqb_spec d' d) as [->|]; cbn; apply H.
  Qed.

  Lemma Send_micros : forall w d p dest q b w', indexed_ok w -> (forall a, dest = Mac a -> ok p a q) ->
    Send crc fcs tx_time has_mob w d p dest q = Ok (b, w') -> micros w w'.
  Proof.
    intros w d p dest q b w' HI HOK H. unfold Send in H. rewrite !log1_emit in H. destruct dest as [a|].
    - destruct (d_up (w_dev w d)) eqn:U; cbn [negb] in H.
      + destruct (d_queue (w_dev w d)) as [admit|] eqn:Q; [|discriminate].
        change (mkPkt (p_uid p) (AddHeader crc fcs (addr_of w d) a q (p_bytes p)))
          with (frame_of crc fcs p a q (addr_of w d)) in H.
        destruct (admit _ _) eqn:A.
        * destruct (d_busy (w_dev w d)) eqn:B.
          { injection H as <- <-. rewrite ?log1_emit, emit_emit, emit_set_tx.
            apply micros_one. eapply m_enqueue; eauto. }
          destruct (d_q (w_dev w d) ++ _) as [|h r] eqn:L; [discriminate|].
          apply bind_ok in H as ([b4 w4] & H & H4). injection H4 as <- <-.
          rewrite !log1_emit, !emit_emit, emit_set_tx, !emit_emit in H.
          apply TransmitStart_spec in H.
          2:{ apply (indexed_set_tx w d r false (d_cur (w_dev w d))) in HI. exact HI. }
          destruct H as (_ & HD & c & HC & M & _). rewrite begin_tx_emit in M.
          eapply ms_cons; [|].
          2:{ replace (d_q _) with r in M; [exact M|].
              unfold emit, set_tx, set_dev. cbn. rewrite upd_same. reflexivity. }
          unfold emit, set_tx, set_dev, tx_duration in HC, HD. cbn in HC, HD. rewrite upd_same in HC, HD. cbn in HC, HD.
          eapply m_send; eauto.
        * injection H as <- <-. rewrite ?log1_emit, !emit_emit. apply micros_one. eapply m_refuse_queue; eassumption.
      + injection H as <- <-. rewrite ?log1_emit, !emit_emit. apply micros_one. eapply m_refuse_down; eassumption.
    - destruct (d_up (w_dev w d)) eqn:U; [discriminate|]. injection H as <- <-. apply micros_one, m_refuse_other. assumption.
  Qed.

  Lemma Complete_micros : forall w d dest t r w', indexed_ok w -> w_events w = (t, TxComplete d dest) :: r ->
    DoTransmitComplete tx_time has_mob (pop w t r) d dest = Ok w' -> micros w w'.
  Proof.
    intros w d dest t r w' HI HE H. unfold DoTransmitComplete in H. cbn [w_dev pop] in H.
    destruct (d_busy (w_dev w d)) eqn:B; [|discriminate]. cbn [negb] in H.
    destruct (d_cur (w_dev w d)) as [cur|] eqn:C; [|discriminate].
    destruct (d_queue (w_dev w d)) as [admit|] eqn:Q; [|discriminate].
    destruct (d_q (w_dev w d)) as [|h q] eqn:L.
    - injection H as <-. rewrite log1_emit, <- L. apply micros_one. eapply m_complete; eassumption.
    - apply bind_ok in H as ([b3 w3] & H & H3). injection H3 as <-.
      rewrite !log1_emit, !emit_emit, emit_set_tx, !emit_emit in H.
      apply TransmitStart_spec in H.
      2:{ apply (indexed_set_tx _ d (h :: q) false None) in HI. apply (indexed_set_tx _ d q false None) in HI. exact HI. }
      destruct H as (_ & HD & c & HC & M & _). rewrite begin_tx_emit in M.
      eapply ms_cons; [|].
      2:{ replace (d_q (w_dev (emit _ _) d)) with q in M; [exact M|].
          unfold emit, set_tx, set_dev. cbn. rewrite upd_same. reflexivity. }
      unfold emit, set_tx, set_dev, tx_duration in HC, HD. cbn in HC, HD. rewrite !upd_same in HC, HD. cbn in HC, HD.
      rewrite <- L. eapply m_next; eassumption.
  Qed.

  Definition external (o : op N) : bool := match o with OSend _ _ _ _ | OAdvance _ | ORun => false | _ => true end.
  Lemma step_micros : forall w o w', indexed_ok w -> (external o = true -> cfgs = true) ->
    (forall d p a q, o = OSend d p (Mac a) q -> ok p a q) -> step w o = Ok w' -> micros w w'.
  Proof.
    intros w o w' HI HC HOK H. destruct o; cbn in H; cbn in HC; try specialize (HC eq_refl).
    - apply bind_ok in H as ([b w1] & H & H1). injection H1 as <-. eapply Send_micros; try eassumption. intros a ->. eauto.
    - injection H as <-. apply micros_one, m_set; assumption.
    - injection H as <-. apply micros_one, m_queue; assumption.
    - apply micros_one. eapply m_attach; eassumption.
    - apply bind_ok in H as ([b w1] & H & H1). injection H1 as <-. unfold ChannelDetach in H.
      assert (HB : forall x, BaseDetach x c i = (b, w1) -> micros x w1).
      { intros x Hx. unfold BaseDetach in Hx. destruct (nth_error (c_link (w_chan x c)) i) as [y|]; [|injection Hx as <- <-; apply ms_nil].
        destruct (d_up (w_dev x y)); injection Hx as <- <-; [apply micros_one, m_down; assumption|apply ms_nil]. }
      destruct (c_kind (w_chan w c)) eqn:K.
      + injection H as H. auto.
      + destruct (nth_error _ _); [|discriminate]. injection H as H. rewrite <- K in H.
        eapply ms_cons; [apply m_chan; assumption|]. apply HB. exact H.
    - injection H as <-. apply micros_one, m_down; assumption.
    - injection H as <-. apply micros_one. apply m_chan; assumption.
    - injection H as <-. apply micros_one. apply m_chan; assumption.
    - destruct ((w_now w <=? t) && _) eqn:E; injection H as <-; [|apply ms_nil].
      apply andb_true_iff in E as [E1 E2]. apply micros_one, m_now; [lia|].
      destruct (w_events w) as [|[t' e] r]; [exact I|lia].
    - unfold run_next in H. destruct (w_events w) as [|[t e] r] eqn:E; [injection H as <-; apply ms_nil|].
      destruct e as [d dest|dst p src power].
      + eapply Complete_micros; eassumption.
      + apply micros_one. eapply m_receive; eassumption.
  Qed.

  Lemma Attach_spec : forall w d c w', Attach w d c = Ok w' -> exists g s,
    (c_kind (w_chan w c) = LeoChannel -> g_kind (d_cfg (w_dev w d)) <> Plain) /\
    (c_kind (w_chan w c) = IslChannel \/ g_kind (d_cfg (w_dev w d)) <> Gnd -> g = c_gnd (w_chan w c)) /\
    (c_kind (w_chan w c) = IslChannel \/ g_kind (d_cfg (w_dev w d)) <> Sat -> s = c_sat (w_chan w c)) /\
    (c_kind (w_chan w c) = LeoChannel -> g_kind (d_cfg (w_dev w d)) = Gnd -> g = index_set (addr_of w d) d (c_gnd (w_chan w c))) /\
    (c_kind (w_chan w c) = LeoChannel -> g_kind (d_cfg (w_dev w d)) = Sat -> s = index_set (addr_of w d) d (c_sat (w_chan w c))) /\
    w_now w' = w_now w /\ w_events w' = w_events w /\ w_log w' = w_log w ++ [(w_now w, LinkChange d true)] /\
    (forall d', d' <> d -> w_dev w' d' = w_dev w d') /\
    w_dev w' d = (let x := w_dev w d in mkDev (d_cfg x) (d_queue x) (d_q x) (d_busy x) (d_cur x) (Some c)
                                          (length (c_link (w_chan w c))) true) /\
    (forall c', c' <> c -> w_chan w' c' = w_chan w c') /\
    w_chan w' c = (let ch := w_chan w c in mkChan (c_kind ch) (c_link ch ++ [d]) g s (c_loss ch) (c_delay ch)).
  Proof.
    intros w d c w' H. unfold Attach in H. apply bind_ok in H as (w1 & H1 & H). injection H as <-.
    assert (E : exists g s, w1 = set_chan w c (mkChan (c_kind (w_chan w c)) (c_link (w_chan w c) ++ [d]) g s
                                                 (c_loss (w_chan w c)) (c_delay (w_chan w c))) /\
      (c_kind (w_chan w c) = LeoChannel -> g_kind (d_cfg (w_dev w d)) <> Plain) /\
    (c_kind (w_chan w c) = IslChannel \/ g_kind (d_cfg (w_dev w d)) <> Gnd -> g = c_gnd (w_chan w c)) /\
    (c_kind (w_chan w c) = IslChannel \/ g_kind (d_cfg (w_dev w d)) <> Sat -> s = c_sat (w_chan w c)) /\
    (c_kind (w_chan w c) = LeoChannel -> g_kind (d_cfg (w_dev w d)) = Gnd -> g = index_set (addr_of w d) d (c_gnd (w_chan w c))) /\
    (c_kind (w_chan w c) = LeoChannel -> g_kind (d_cfg (w_dev w d)) = Sat -> s = index_set (addr_of w d) d (c_sat (w_chan w c)))).
    { unfold ChannelAttach in H1.
      destruct (c_kind (w_chan w c)), (g_kind (d_cfg (w_dev w d))); try discriminate; injection H1 as <-;
      (eexists _, _; split; [reflexivity|repeat split; try congruence; intros [A|A]; congruence]). }
    destruct E as (g & s & -> & E). exists g, s.
    destruct E as (E1 & E2 & E3 & E4 & E5). do 5 (split; [assumption|]).
    unfold set_link, set_dev, set_chan, log1. cbn. rewrite !upd_same. cbn.
    repeat split.
    - intros d' Hd. rewrite !upd_other by assumption. reflexivity.
    - intros c' Hc. rewrite !upd_other by assumption. reflexivity.
  Qed.

  Lemma micro_indexed : forall w w', micro w w' -> indexed_ok w -> indexed_ok w'.
  Proof.
    intros w w' M HI. destruct M; try exact HI.
    - apply (indexed_set_tx w d (d_q (w_dev w d) ++ [frame_of crc fcs p a q (addr_of w d)]) true (d_cur (w_dev w d))) in HI.
      exact HI.
    - intros d' c'. unfold begin_tx, set_tx, set_dev. cbn. unfold upd. destruct (Nat.eqb_spec d' d) as [->|]; cbn; [rewrite ?Nat.eqb_refl; cbn|]; apply HI.
    - intros d' c'. unfold emit, set_tx, set_dev. cbn. unfold upd. destruct (Nat.eqb_spec d' d) as [->|]; cbn; [rewrite ?Nat.eqb_refl; cbn|]; apply HI.
    - intros d' c'. unfold begin_tx, set_tx, set_dev. cbn. unfold upd. destruct (Nat.eqb_spec d' d) as [->|]; cbn; [rewrite ?Nat.eqb_refl; cbn|]; apply HI.
    - apply Receive_emit in H0 as (l & ->). exact HI.
    - intros d' c'. unfold Configure, set_dev. cbn. unfold upd. destruct (Nat.eqb_spec d' d) as [->|]; cbn; apply HI.
    - intros d' c'. unfold SetQueue, set_dev. cbn. unfold upd. destruct (Nat.eqb_spec d' d) as [->|]; cbn; apply HI.
    - apply Attach_spec in H as (g & s & _ & _ & _ & _ & _ & _ & _ & _ & HD & HD' & HC & HC').
      intros d' c' HX. destruct (Nat.eq_dec c' c) as [->|Nc].
      + rewrite HC'. cbn. destruct (Nat.eq_dec d' d) as [->|Nd].
        * rewrite HD'. cbn. rewrite nth_error_app2, Nat.sub_diag by lia. reflexivity.
        * rewrite HD in * by assumption. specialize (HI d' c HX). rewrite nth_error_app1; [assumption|].
          apply nth_error_Some. congruence.
      + rewrite HC by assumption. destruct (Nat.eq_dec d' d) as [->|Nd].
        * rewrite HD' in HX. cbn in HX. congruence.
        * rewrite HD in * by assumption. apply HI. assumption.
    - intros d' c'. unfold set_link, set_dev. cbn. unfold upd. destruct (Nat.eqb_spec d' d) as [->|]; cbn; apply HI.
    - intros d' c' HX. unfold set_chan in *. cbn in *. unfold upd. destruct (Nat.eqb_spec c' c) as [->|]; cbn; apply HI; assumption.
  Qed.

  Lemma micros_indexed : forall w w', micros w w' -> indexed_ok w -> indexed_ok w'.
  Proof. induction 1; intros; [assumption|]. eauto using micro_indexed. Qed.

  Lemma initial_indexed : forall dk ck, @indexed_ok (initial dk ck).
  Proof. intros dk ck d c H. discriminate. Qed.

End Steps.

Definition every (p : pkt) (a q : Z) : Prop := True.

Section Runs.
  Context {N : Num}.
  Variable crc : list Z -> Z.
  Variable fcs : bool.
  Variable tx_time : Z -> Z -> Z.
  Variable has_mob : nat -> bool.
  Implicit Type w : world N.
  Lemma run_micros : forall ops w w', indexed_ok w -> run crc fcs tx_time has_mob w ops = Ok w' ->
    micros crc fcs tx_time has_mob true every w w'.
  Proof.
    induction ops as [|o r IH]; intros w w' HI H; cbn in H.
    - injection H as <-. apply ms_nil.
    - apply bind_ok in H as (w1 & H1 & H).
      assert (M : micros crc fcs tx_time has_mob true every w w1) by (eapply step_micros; try eassumption; [reflexivity|intros; exact I]).
      eapply micros_trans; [eassumption|]. apply IH; [|assumption]. eapply micros_indexed; eassumption.
  Qed.

  (** Induction principle for reachable states. *)
  Lemma invariant : forall (P : world N -> Prop), (forall dk ck, P (initial dk ck)) ->
    (forall w w', micro crc fcs tx_time has_mob true every w w' -> indexed_ok w -> P w -> P w') ->
    forall w, reachable crc fcs tx_time has_mob w -> P w.
  Proof.
    intros P P0 PS w (dk & ck & ops & H). apply run_micros in H; [|apply initial_indexed].
    pose proof (initial_indexed (N:=N) dk ck) as HI. specialize (P0 dk ck).
    remember (initial dk ck) as w0. clear Heqw0. induction H; [assumption|].
    eauto using micro_indexed.
  Qed.

  Lemma reachable_indexed : forall w, reachable crc fcs tx_time has_mob w -> indexed_ok w.
  Proof. apply invariant; [apply initial_indexed|]. intros. eapply micro_indexed; eassumption. Qed.
End Runs.
