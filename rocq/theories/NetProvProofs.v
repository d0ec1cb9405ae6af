Require Import ZArith List Bool Lia Sorted ZifyBool.
Require Import Verif.Base Verif.Num Verif.FrameModel Verif.FrameProofs Verif.NetModel Verif.NetSpec Verif.NetSteps Verif.NetInv
  Verif.NetTxProofs Verif.NetSendProofs.
Import ListNotations.
Local Open Scope Z_scope.

Section Prov.
  Context {N : Num}.
  Variable crc : list Z -> Z.
  Variable fcs : bool.
  Variable tx_time : Z -> Z -> Z.
  Variable has_mob : nat -> bool.
  Notation reachable := (@reachable N crc fcs tx_time has_mob).
  Implicit Type w : world N.

  (** Frame f was made of a packet accepted by Send on src. *)
  Definition genuine (l : trace) (f : pkt) (src : nat) : Prop :=
    exists t p a q own, In (t, Sent src p a q own true) l /\ f = frame_of crc fcs p a q own.
  (** What a callback of d reports, at the end of trace l. *)
  Definition reported (l : trace) (t : Z) (d src : nat) (payload : list Z) (proto from to : Z) : Prop :=
    src <> d /\ exists t0 p a q own, t0 <= t /\ In (t0, Sent src p a q own true) l /\
      Decapsulate crc fcs (AddHeader crc fcs own a q (p_bytes p)) = Ok (Frame payload proto from to).
  Definition explained (l : trace) (t : Z) (o : obs) : Prop :=
    match o with
    | RxCallback d src payload proto from to own =>
        reported l t d src payload proto from to /\ classify own to <> POtherHost
    | PromiscCallback d src payload proto from to k => reported l t d src payload proto from to
    | _ => True
    end.

  Definition prov w : Prop :=
    (forall d f, In f (d_q (w_dev w d)) -> genuine (w_log w) f d) /\
    (forall t d c p dest tx gap, In (t, ToChannel d c p dest tx gap) (w_log w) -> genuine (w_log w) p d) /\
    (forall t dst p src power, In (t, RxEvent dst p src power) (w_events w) -> genuine (w_log w) p src) /\
    (forall l1 t o l2, w_log w = l1 ++ (t, o) :: l2 -> explained l1 t o) /\
    (forall x, In x (w_log w) -> fst x <= w_now w).

  Lemma genuine_app : forall l n f src, genuine l f src -> genuine (l ++ n) f src.
  Proof.
    intros l n f src (t & p & a & q & own & H & E). exists t, p, a, q, own. split; [|assumption].
    apply in_or_app. auto.
  Qed.

  Definition silent (o : obs) : Prop :=
    match o with ToChannel _ _ _ _ _ _ | RxCallback _ _ _ _ _ _ _ | PromiscCallback _ _ _ _ _ _ _ => False | _ => True end.

  (** Preservation, given the new entries. *)
  Lemma prov_ext : forall w w' new, prov w -> w_now w <= w_now w' ->
    w_log w' = w_log w ++ map (pair (w_now w')) new ->
    (forall d f, In f (d_q (w_dev w' d)) -> In f (d_q (w_dev w d)) \/ genuine (w_log w') f d) ->
    (forall d c p dest tx gap, In (ToChannel d c p dest tx gap) new -> genuine (w_log w') p d) ->
    (forall t dst p src power, In (t, RxEvent dst p src power) (w_events w') ->
       In (t, RxEvent dst p src power) (w_events w) \/ genuine (w_log w') p src) ->
    (forall n1 o n2, new = n1 ++ o :: n2 -> explained (w_log w ++ map (pair (w_now w')) n1) (w_now w') o) ->
    prov w'.
  Proof.
    intros w w' new (P1 & P2 & P3 & P4 & P5) HN HL HQ HT HE HX. rewrite HL in *. split; [|split; [|split; [|split]]].
    - intros d f Hf. rewrite HL. apply HQ in Hf as [Hf|Hf]; [apply genuine_app; auto|assumption].
    - intros t d c p dest tx gap H. rewrite HL in *. apply in_app_or in H as [H|H]; [apply genuine_app; eauto|].
      apply in_map_iff in H as (o & E & H). injection E as _ ->. eauto.
    - intros t dst p src power H. rewrite HL. apply HE in H as [H|H]; [apply genuine_app; eauto|assumption].
    - intros l1 t o l2 E. rewrite HL in E. apply app_cons_split in E as [(l2' & E & _)|(n1 & -> & E)]; [eauto|].
      apply map_eq_app in E as (m1 & m2 & -> & <- & E). destruct m2 as [|o' m2]; [discriminate|].
      cbn in E. injection E as <- <- _. eapply HX. reflexivity.
    - intros x H. rewrite HL in H. apply in_app_or in H as [H|H]; [apply P5 in H; lia|].
      apply in_map_iff in H as (o & <- & H). cbn. lia.
  Qed.

  Lemma explained_silent : forall l t n n1 o n2, Forall silent n -> n = n1 ++ o :: n2 -> explained l t o.
  Proof.
    intros l t n n1 o n2 H ->. rewrite Forall_app in H. destruct H as [_ H]. apply Forall_cons_iff in H as [H _].
    destruct o; try destruct H; exact I.
  Qed.

  Lemma q_other : forall (f : nat -> dev N) d x d' (P : Prop), (d' = d -> P) ->
    forall y, In y (d_q (upd f d x d')) -> (d' = d -> In y (d_q x) -> P) -> In y (d_q (f d')) \/ P.
  Proof.
    intros f d x d' P _ y. unfold upd. destruct (Nat.eqb_spec d' d) as [->|]; auto.
  Qed.

  Lemma micro_prov : forall w w', micro crc fcs tx_time has_mob true every w w' -> timely w -> prov w -> prov w'.
  Proof.
    intros w w' M HT HP. pose proof HP as (P1 & P2 & P3 & P4 & P5).
    destruct M;
      try (eapply (prov_ext w _ _ HP); [cbn; lia|reflexivity|auto| |auto|]; [cbn; intros; intuition discriminate|];
           intros n1 o n2; apply explained_silent; repeat constructor).
    - (* enqueue *)
      eapply (prov_ext w _ _ HP); [cbn; lia|reflexivity| | |auto|].
      + intros d' f. cbn. unfold upd. destruct (Nat.eqb_spec d' d) as [->|]; [|auto]. cbn. rewrite in_app_iff.
        intros [Hf|[<-|[]]]; [auto|]. right. eexists _, _, _, _, _. split; [|reflexivity]. apply in_or_app. right. right. left. reflexivity.
      + cbn; intros; intuition discriminate.
      + intros n1 o n2. apply explained_silent. repeat constructor.
    - (* send *)
      assert (HG : forall f, In f (h :: r) -> genuine (w_log (begin_tx tx_time (set_tx w d r false (d_cur (w_dev w d))) d r h a c [MacTx d (frame_of crc fcs p a q (addr_of w d));
                                     Sent d p a q (addr_of w d) true; PromiscSniffer d h; Sniffer d h])) f d).
      { intros f Hf. rewrite <- H3, in_app_iff in Hf. cbn. destruct Hf as [Hf|[<-|[]]].
        - apply genuine_app. auto.
        - eexists _, _, _, _, _. split; [|reflexivity]. apply in_or_app. right. right. left. reflexivity. }
      eapply (prov_ext w _ _ HP); [cbn; lia|reflexivity| | | |].
      + intros d' f. cbn. unfold upd. destruct (Nat.eqb_spec d' d) as [->|]; [|auto].
        cbn. intros Hf. right. apply HG. right. assumption.
      + intros d' c' p' dest tx gap Hi. repeat destruct Hi as [Hi|Hi]; try discriminate; [|destruct Hi].
        injection Hi as <- <- <- <- <- <-. apply HG. left. reflexivity.
      + intros t dst p' src power. cbn. rewrite insert_in. intros [Hi|Hi]; [discriminate|auto].
      + intros n1 o n2 E. cbn [app] in E. repeat (destruct n1 as [|? n1]; cbn in E; [injection E as <- _; exact I|injection E as _ E]).
        destruct n1; discriminate.
    - (* complete *)
      assert (HW : w_now w <= t) by (eapply pop_timely; eassumption).
      eapply (prov_ext w _ _ HP); [cbn; lia|reflexivity| | | |].
      + intros d' f. cbn. unfold upd. destruct (Nat.eqb_spec d' d) as [->|]; cbn; auto.
      + cbn; intros; intuition discriminate.
      + intros t' dst p src power Hi. left. rewrite H. right. exact Hi.
      + intros n1 o n2. apply explained_silent. repeat constructor.
    - (* next *)
      assert (HW : w_now w <= t) by (eapply pop_timely; eassumption).
      assert (HG : forall new f, In f (h :: q) -> genuine (w_log w ++ new) f d).
      { intros new f Hf. apply genuine_app, P1. rewrite H3. assumption. }
      eapply (prov_ext w _ _ HP); [cbn; lia|reflexivity| | | |].
      + intros d' f. cbn. unfold upd. destruct (Nat.eqb_spec d' d) as [->|]; [|auto].
        cbn. intros Hf. right. apply HG. right. assumption.
      + intros d' c' p' dest' tx gap Hi. repeat destruct Hi as [Hi|Hi]; try discriminate; [|destruct Hi].
        injection Hi as <- <- <- <- <- <-. apply HG. left. reflexivity.
      + intros t' dst p' src power. cbn. rewrite insert_in. intros [Hi|Hi]; [discriminate|]. left. rewrite H. right. exact Hi.
      + intros n1 o n2 E. cbn [app] in E. repeat (destruct n1 as [|? n1]; cbn in E; [injection E as <- _; exact I|injection E as _ E]).
        destruct n1; discriminate.
    - (* deliver *)
      eapply (prov_ext w _ [TxRx c p src dst txTime _] HP); [cbn; lia|reflexivity|auto| | |].
      + cbn; intros; intuition discriminate.
      + intros t dst' p' src' power. cbn [w_events]. rewrite insert_in. intros [Hi|Hi]; [|auto].
        injection Hi as _ <- <- <- _. right. cbn. apply genuine_app. destruct H1 as (dest & gap & H1). eauto.
      + intros n1 o n2. apply explained_silent. repeat constructor.
    - (* receive *)
      assert (HW : w_now w <= t) by (eapply pop_timely; eassumption).
      destruct (Receive_emit crc fcs _ _ _ _ _ _ H0) as (new & ->).
      eapply (prov_ext w _ new HP); [cbn; lia|reflexivity|auto| | |].
      + intros d' c p' dest tx gap Hi. exfalso.
        apply Receive_table in H0 as (new' & E & HC). apply (f_equal w_log) in E. cbn in E.
        apply app_inv_head in E. apply (f_equal (map snd)) in E. rewrite !map_map in E. cbn in E. rewrite !map_id in E. subst new'.
        destruct HC as [(_ & ->)|[(_ & _ & p2 & _ & ->)|(_ & _ & pl & pr & k & _ & ->)]]; cbn in Hi; try (intuition discriminate).
        destruct (g_pcb _), k; cbn in Hi; intuition discriminate.
      + intros t' dst p' src' power'. cbn. intros Hi. left. rewrite H. right. exact Hi.
      + assert (HG : genuine (w_log w) p src) by (eapply P3; rewrite H; left; reflexivity).
        unfold Receive in H0. rewrite !log1_emit in H0. destruct (Nat.eqb_spec src d) as [->|NE].
        { apply (f_equal (fun r => match r with Ok w => w_log w | _ => [] end)) in H0. cbn in H0. apply app_inv_head in H0.
          destruct new as [|? [|? ?]]; try discriminate. injection H0 as <-. intros n1 o n2. apply explained_silent. repeat constructor. }
        assert (HX : forall l, Forall silent l -> Ok (emit (pop w t r) l) = Ok (emit (pop w t r) new) -> Forall silent new).
        { intros l Hl E. apply (f_equal (fun r => match r with Ok w => w_log w | _ => [] end)) in E. cbn in E.
          apply app_inv_head in E. apply (f_equal (map snd)) in E. rewrite !map_map in E. cbn in E. rewrite !map_id in E. subst l. assumption. }
        destruct (nlt N _ _).
        { rewrite emit_emit in H0. apply HX in H0; [|repeat constructor]. intros n1 o n2. apply explained_silent. assumption. }
        destruct (match g_err _ with Some _ => _ | None => _ end).
        { rewrite emit_emit in H0. apply HX in H0; [|repeat constructor]. intros n1 o n2. apply explained_silent. assumption. }
        apply bind_ok in H0 as (r0 & HD & H0). destruct r0 as [|payload protocol from to].
        { rewrite ?log1_emit, emit_emit in H0. apply HX in H0; [|repeat constructor]. intros n1 o n2. apply explained_silent. assumption. }
        assert (HR : forall n1, reported (w_log w ++ n1) t d src payload protocol from to).
        { intros n1. split; [assumption|]. destruct HG as (t0 & p0 & a & q & own & HI & ->).
          exists t0, p0, a, q, own. split; [apply P5 in HI; cbn in HI; lia|]. split; [apply in_or_app; auto|]. exact HD. }
        assert (HY : forall l, Ok (emit (pop w t r) l) = Ok (emit (pop w t r) new) ->
          Forall (fun o => silent o \/ (exists k, o = PromiscCallback d src payload protocol from to k) \/
                           (exists own, o = RxCallback d src payload protocol from to own /\ classify own to <> POtherHost)) l ->
          forall n1 o n2, new = n1 ++ o :: n2 -> explained (w_log w ++ map (pair t) n1) t o).
        { intros l E Hl n1 o n2 ->. apply (f_equal (fun r => match r with Ok w => w_log w | _ => [] end)) in E. cbn in E. apply app_inv_head in E.
          apply (f_equal (map snd)) in E. rewrite !map_map in E. cbn in E. rewrite !map_id in E. subst l.
          apply Forall_app in Hl as [_ Hl]. apply Forall_cons_iff in Hl as [[Hl|[(k & ->)|(own & -> & Hk)]] _].
          - destruct o; try destruct Hl; exact I.
          - apply HR.
          - split; [apply HR|assumption]. }
        set (own := g_addr (d_cfg (w_dev (pop w t r) d))) in *.
        destruct (g_pcb _); rewrite ?log1_emit, ?emit_emit in H0; destruct (classify own to) eqn:K;
          try destruct (g_rxcb _); try discriminate; rewrite ?log1_emit, ?emit_emit in H0;
          (eapply HY; [exact H0|]); cbn [app];
          repeat (apply Forall_cons; [first [left; exact I|right; left; eexists; reflexivity|right; right; exists own; split; [reflexivity|congruence]]|]);
          apply Forall_nil.
    - (* set *)
      eapply (prov_ext w _ [] HP); [cbn; lia|cbn; rewrite app_nil_r; reflexivity| | |auto|].
      + intros d' f. cbn. unfold upd. destruct (Nat.eqb_spec d' d) as [->|]; cbn; auto.
      + intros d' c p dest tx gap [].
      + intros n1 o n2; destruct n1; discriminate.
    - (* queue *)
      eapply (prov_ext w _ [QueueSet d] HP); [cbn; lia|cbn; reflexivity| | |auto|].
      + intros d' y. cbn. unfold upd. destruct (Nat.eqb_spec d' d) as [->|]; cbn; [intros []|auto].
      + cbn; intros; intuition discriminate.
      + intros n1 o n2. apply explained_silent. repeat constructor.
    - (* attach *)
      apply Attach_spec in H as (g & s & _ & _ & _ & _ & _ & HN & HE & HL & HD & HD' & _).
      eapply (prov_ext w _ [LinkChange d true] HP); [lia|rewrite HL, HN; reflexivity| | | |].
      + intros d' f. destruct (Nat.eq_dec d' d) as [->|NE]; [rewrite HD'; cbn; auto|rewrite HD by assumption; auto].
      + cbn; intros; intuition discriminate.
      + rewrite HE. auto.
      + intros n1 o n2. apply explained_silent. repeat constructor.
    - (* down *)
      eapply (prov_ext w _ [LinkChange d false] HP); [cbn; lia|cbn; reflexivity| | |auto|].
      + intros d' f. cbn. unfold upd. destruct (Nat.eqb_spec d' d) as [->|]; cbn; auto.
      + cbn; intros; intuition discriminate.
      + intros n1 o n2. apply explained_silent. repeat constructor.
    - (* chan *)
      exact HP.
    - (* now *)
      eapply (prov_ext w _ [] HP); [cbn; lia|cbn; rewrite app_nil_r; reflexivity|auto| |auto|].
      + intros d' c p dest tx gap [].
      + intros n1 o n2; destruct n1; discriminate.
  Qed.

  Lemma reachable_prov : forall w, reachable w -> prov w.
  Proof.
    intros w R. enough (H : timely w /\ prov w) by apply H. revert w R. apply invariant.
    - intros dk ck. split; [split; constructor|]. split; [intros d f []|]. split; [intros t d c p dest tx gap []|].
      split; [intros t dst p src power []|]. split; [intros l1 t o l2; destruct l1; discriminate|intros x []].
    - intros w w' M _ [HT HP]. split; [eapply micro_timely; eassumption|eapply micro_prov; eassumption].
  Qed.

  (** ** C51 *)
  Lemma integrity : forall w, reachable w ->
    (forall t d p dest q own ok, In (t, Sent d p dest q own ok) (w_log w) ->
       0 <= dest < 2 ^ 48 /\ 0 <= own < 2 ^ 48 /\ 0 <= q < 2 ^ 16 /\ Z.of_nat (length (p_bytes p)) <= 1492) ->
    forall l1 t d src payload proto from to own l2,
    w_log w = l1 ++ (t, RxCallback d src payload proto from to own) :: l2 ->
    src <> d /\ (to = 2 ^ 48 - 1 \/ to = own \/ Z.testbit to 40 = true) /\
    exists t0 p, t0 <= t /\ In (t0, Sent src p to proto from true) l1 /\ payload = p_bytes p.
  Proof.
    intros w R HS l1 t d src payload proto from to own l2 E.
    destruct (reachable_prov w R) as (_ & _ & _ & P4 & _). apply P4 in E as E'. cbn in E'.
    destruct E' as ((NE & t0 & p & a & q & o & HT & HI & HD) & HK). split; [assumption|].
    destruct (HS t0 src p a q o true) as (Ha & Ho & Hq & Hl); [rewrite E; apply in_or_app; auto|].
    rewrite Decapsulate_AddHeader in HD; try assumption; [|destruct fcs; auto].
    change (Z.of_nat (length (p_bytes p))) with (len (p_bytes p)) in Hl. pose proof (len_pos _ (p_bytes p)).
    cbv zeta in HD. rewrite Z.mod_small in HD by lia.
    destruct (Z.leb_spec (len (p_bytes p) + 8) 1500) as [_|]; [|lia].
    destruct (Z.ltb_spec (len (p_bytes p) + 8) 65536) as [_|]; [|lia].
    injection HD as <- <- <- <-. split.
    - pose proof (classify_kind own a) as K. destruct (classify own a); cbn in K; [auto|right; left; apply K|right; right; apply K|congruence].
    - exists t0, p. auto.
  Qed.

  (** ** C52 *)
  Lemma not_itself : forall w, reachable w -> forall t d src payload proto from to,
    (forall own, In (t, RxCallback d src payload proto from to own) (w_log w) -> src <> d) /\
    (forall k, In (t, PromiscCallback d src payload proto from to k) (w_log w) -> src <> d).
  Proof.
    intros w R t d src payload proto from to. destruct (reachable_prov w R) as (_ & _ & _ & P4 & _).
    split; intros x H; apply in_split in H as (l1 & l2 & H); apply P4 in H; apply H.
  Qed.
End Prov.
