(** What Install of the channel helpers builds. *)
Require Import ZArith List Bool String Lia ZifyBool.
Require Import Verif.Base Verif.Num Verif.Vec Verif.LossModel Verif.FrameModel Verif.NetModel Verif.NetSpec Verif.NetSteps Verif.NetInv
  Verif.NetTxProofs Verif.NetSendProofs Verif.NetChanProofs Verif.NetProvProofs Verif.NetSideProofs Verif.NetSafeProofs
  Verif.HelperModel.
Import ListNotations.
Local Open Scope Z_scope.

Section Helpers.
  Context {N : Num}.
  Variable crc : list Z -> Z.
  Variable fcs : bool.
  Variable tx_time : Z -> Z -> Z.
  Variable has_mob : nat -> bool.
  Notation step := (@step N crc fcs tx_time has_mob).
  Notation run := (@run N crc fcs tx_time has_mob).
  Implicit Type w : world N.

  Lemma run_app : forall l1 l2 w, run w (l1 ++ l2) = bind (run w l1) (fun w1 => run w1 l2).
  Proof.
    induction l1 as [|o r IH]; intros l2 w; [reflexivity|]. cbn. destruct (step w o); cbn; [apply IH|reflexivity|reflexivity].
  Qed.

  (** ** Channel attributes *)
  Definition chan_apply (ch : chan N) (a : cattr N) : chan N :=
    match a with
    | ALoss f => mkChan (c_kind ch) (c_link ch) (c_gnd ch) (c_sat ch) f (c_delay ch)
    | ADelay f => mkChan (c_kind ch) (c_link ch) (c_gnd ch) (c_sat ch) (c_loss ch) f
    end.
  (** Two worlds that differ at most in channel [c] and in the devices of [P], with no events and only
      configuration observed. *)
  Definition quiet (x : Z * obs) : bool := match snd x with QueueSet _ | LinkChange _ _ => true | _ => false end.
  Definition touches (P : nat -> Prop) (c : nat) w w' : Prop :=
    w_now w' = w_now w /\ w_events w' = w_events w /\
    (exists new, w_log w' = w_log w ++ new /\ forallb quiet new = true) /\
    (forall d, ~ P d -> w_dev w' d = w_dev w d) /\
    (forall c', c' <> c -> w_chan w' c' = w_chan w c').
  Lemma touches_trans : forall P Q c w w1 w2, touches P c w w1 -> touches Q c w1 w2 ->
    touches (fun d => P d \/ Q d) c w w2.
  Proof.
    intros P Q c w w1 w2 (A1 & A2 & (n1 & A3 & A3') & A4 & A5) (B1 & B2 & (n2 & B3 & B3') & B4 & B5).
    split; [congruence|]. split; [congruence|]. split.
    { exists (n1 ++ n2). rewrite B3, A3, app_assoc, forallb_app, A3', B3'. auto. }
    split.
    - intros d H. rewrite B4, A4; tauto.
    - intros c' H. rewrite B5, A5; auto.
  Qed.
  Lemma touches_weaken : forall (P Q : nat -> Prop) c w w', (forall d, P d -> Q d) -> touches P c w w' -> touches Q c w w'.
  Proof.
    intros P Q c w w' I (A1 & A2 & A3 & A4 & A5). split; [auto|]. split; [auto|]. split; [auto|]. split; [|auto].
    intros d H. apply A4. auto.
  Qed.

  Lemma channel_ops_spec : forall l c w, exists w', run w (map (channel_op c) l) = Ok w' /\
    touches (fun _ => False) c w w' /\ w_chan w' c = fold_left chan_apply l (w_chan w c).
  Proof.
    induction l as [|a r IH]; intros c w.
    - exists w. split; [reflexivity|]. split; [|reflexivity]. split; [auto|]. split; [auto|]. split; [|auto].
      exists []. rewrite app_nil_r. auto.
    - assert (X : exists w1, step w (channel_op c a) = Ok w1 /\ touches (fun _ => False) c w w1 /\
                   w_chan w1 c = chan_apply (w_chan w c) a).
      { destruct a as [f|f]; eexists; (split; [reflexivity|]); (split; [|cbn; rewrite upd_same; reflexivity]);
          (split; [reflexivity|]); (split; [reflexivity|]); (split; [exists []; rewrite app_nil_r; auto|]);
          (split; [reflexivity|]); intros c' H; cbn; apply upd_other; assumption. }
      destruct X as (w1 & X1 & X2 & X3). destruct (IH c w1) as (w' & H1 & H2 & H3). exists w'. cbn [map]. cbn [NetModel.run].
      rewrite X1. cbn [bind]. split; [assumption|]. split.
      + eapply touches_weaken; [|eapply touches_trans; eassumption]. cbn. tauto.
      + cbn [fold_left]. rewrite H3, X3. reflexivity.
  Qed.

  (** ** Device attributes *)
  Definition with_cfg (x : dev N) (g : cfg N) : dev N :=
    mkDev g (d_queue x) (d_q x) (d_busy x) (d_cur x) (d_chan x) (d_id x) (d_up x).
  Definition attrs_cfg (g : cfg N) (l : list (attr N)) : cfg N :=
    fold_left (fun g a => apply_setting g (setting_of a)) l g.
  Lemma sets_spec : forall l d w, exists w', run w (map (fun a => OSet d (setting_of a)) l) = Ok w' /\
    touches (fun x => x = d) d w w' /\ w_chan w' = w_chan w /\
    w_dev w' d = with_cfg (w_dev w d) (attrs_cfg (d_cfg (w_dev w d)) l).
  Proof.
    induction l as [|a r IH]; intros d w.
    - exists w. split; [reflexivity|]. split; [|split; [reflexivity|destruct (w_dev w d); reflexivity]].
      split; [auto|]. split; [auto|]. split; [|auto]. exists []. rewrite app_nil_r. auto.
    - destruct (IH d (Configure w d (setting_of a))) as (w' & H1 & H2 & H3 & H4). exists w'. cbn. split; [assumption|].
      split; [|split; [assumption|]].
      + eapply touches_weaken; [|eapply touches_trans; [|exact H2]]; [intros x [X|X]; exact X|]. cbn.
        split; [reflexivity|]. split; [reflexivity|]. split; [exists []; rewrite app_nil_r; auto|]. split; [|reflexivity].
        intros x Hx. apply upd_other. assumption.
      + rewrite H4. cbn. rewrite upd_same. reflexivity.
  Qed.

  (** The configuration of an installed device. *)
  Definition installed_cfg (g : cfg N) (l : list (attr N)) (node : nat) (a : Z) : cfg N :=
    apply_setting (apply_setting (apply_setting (attrs_cfg g l) (CAddress a)) (CNode node)) CRxCallback.
  (** What attaching device [d] of the given kind and address does to a channel. *)
  Definition attached (ch : chan N) (k : dkind) (a : Z) (d : nat) : chan N :=
    match c_kind ch, k with
    | LeoChannel, Gnd => mkChan (c_kind ch) (c_link ch ++ [d]) (index_set a d (c_gnd ch)) (c_sat ch) (c_loss ch) (c_delay ch)
    | LeoChannel, Sat => mkChan (c_kind ch) (c_link ch ++ [d]) (c_gnd ch) (index_set a d (c_sat ch)) (c_loss ch) (c_delay ch)
    | _, _ => mkChan (c_kind ch) (c_link ch ++ [d]) (c_gnd ch) (c_sat ch) (c_loss ch) (c_delay ch)
    end.

  Lemma device_ops_spec : forall attrs q c d node id w,
    c_kind (w_chan w c) = IslChannel \/ g_kind (attrs_cfg (d_cfg (w_dev w d)) attrs) <> Plain ->
    exists w', run w (device_ops attrs q c d node id) = Ok w' /\ touches (fun x => x = d) c w w' /\
      w_dev w' d = mkDev (installed_cfg (d_cfg (w_dev w d)) attrs node (allocate id)) (Some q) []
                     (d_busy (w_dev w d)) (d_cur (w_dev w d)) (Some c) (List.length (c_link (w_chan w c))) true /\
      w_chan w' c = attached (w_chan w c) (g_kind (attrs_cfg (d_cfg (w_dev w d)) attrs)) (allocate id) d.
  Proof.
    intros attrs q c d node id w K. unfold device_ops. rewrite run_app.
    destruct (sets_spec attrs d w) as (w1 & -> & T1 & C1 & D1). cbn [bind].
    set (g := attrs_cfg (d_cfg (w_dev w d)) attrs) in *.
    cbn [NetModel.run NetModel.step bind].
    match goal with |- context [Attach ?x d c] => set (w2 := x) end.
    assert (D2 : w_dev w2 d = mkDev (installed_cfg (d_cfg (w_dev w d)) attrs node (allocate id)) (Some q) []
                     (d_busy (w_dev w d)) (d_cur (w_dev w d)) (d_chan (w_dev w d)) (d_id (w_dev w d)) (d_up (w_dev w d))).
    { subst w2. cbn. rewrite !upd_same. cbn. rewrite D1. reflexivity. }
    assert (T2 : touches (fun x => x = d) c w w2).
    { destruct T1 as (A1 & A2 & (n & A3 & A3') & A4 & A5). subst w2. cbn. split; [assumption|]. split; [assumption|].
      split; [|split].
      - exists (n ++ [(w_now w1, QueueSet d)]). cbn. rewrite A3, app_assoc, forallb_app, A3'. auto.
      - intros x Hx. cbn. rewrite !upd_other by assumption. apply A4. assumption.
      - intros c' _. cbn. rewrite C1. reflexivity. }
    assert (C2 : w_chan w2 = w_chan w) by (subst w2; cbn; assumption).
    clearbody w2. unfold Attach, ChannelAttach. rewrite C2. unfold addr_of. rewrite D2. cbn [d_cfg g_kind].
    assert (GK : g_kind (installed_cfg (d_cfg (w_dev w d)) attrs node (allocate id)) = g_kind g) by reflexivity.
    rewrite GK.
    assert (GA : g_addr (installed_cfg (d_cfg (w_dev w d)) attrs node (allocate id)) = allocate id) by reflexivity.
    rewrite GA. destruct T2 as (A1 & A2 & (n & A3 & A3') & A4 & A5).
    unfold attached.
    destruct (c_kind (w_chan w c)) eqn:CK; [|destruct (g_kind g) eqn:GG; [destruct K as [K|K]; [discriminate|contradiction]| |]];
      (eexists; split; [cbn; reflexivity|]; split;
       [ split; [cbn; assumption|]; split; [cbn; assumption|]; split;
         [ exists (n ++ [(w_now w2, LinkChange d true)]); cbn; rewrite A3, app_assoc, forallb_app, A3'; auto |];
         split; [ intros x Hx; cbn; rewrite !upd_other by assumption; apply A4; assumption |];
         intros c' Hc; cbn; rewrite upd_other by assumption; rewrite C2; reflexivity
       | split; [ cbn; rewrite !upd_same; cbn; rewrite ?upd_same; cbn; rewrite D2; reflexivity | cbn; rewrite upd_same; reflexivity ] ]).
  Qed.

  (** ** The loop over the nodes *)
  Fixpoint attach_all (ch : chan N) (k : dkind) (id : Z) (d n : nat) : chan N :=
    match n with
    | O => ch
    | S m => attach_all (attached ch k (allocate id) d) k (id + 1) (S d) m
    end.
  Lemma attached_same : forall ch k a d, c_kind (attached ch k a d) = c_kind ch /\
    c_loss (attached ch k a d) = c_loss ch /\ c_delay (attached ch k a d) = c_delay ch /\
    c_link (attached ch k a d) = c_link ch ++ [d].
  Proof. intros. unfold attached. destruct (c_kind ch) eqn:E, k; cbn; rewrite ?E; auto. Qed.
  Lemma attach_all_same : forall n ch k id d, c_kind (attach_all ch k id d n) = c_kind ch /\
    c_loss (attach_all ch k id d n) = c_loss ch /\ c_delay (attach_all ch k id d n) = c_delay ch /\
    c_link (attach_all ch k id d n) = c_link ch ++ seq d n.
  Proof.
    induction n as [|n IH]; intros ch k id d; cbn [attach_all seq].
    - rewrite app_nil_r. auto.
    - destruct (IH (attached ch k (allocate id) d) k (id + 1) (S d)) as (A & B & C & D).
      destruct (attached_same ch k (allocate id) d) as (A' & B' & C' & D'). rewrite A, B, C, D, A', B', C', D', <- app_assoc. auto.
  Qed.

  Lemma devices_ops_spec : forall nodes attrs q c d id w leo,
    c_kind (w_chan w c) = IslChannel \/ g_kind (attrs_cfg (new_cfg leo) attrs) <> Plain ->
    (forall i, (i < List.length nodes)%nat -> d_cfg (w_dev w (d + i)) = new_cfg leo) ->
    exists w', run w (devices_ops attrs q c d nodes id) = Ok w' /\
      touches (fun x => (d <= x < d + List.length nodes)%nat) c w w' /\
      (forall i node, nth_error nodes i = Some node ->
        w_dev w' (d + i) = mkDev (installed_cfg (new_cfg leo) attrs node (allocate (id + Z.of_nat i))) (Some q) []
                     (d_busy (w_dev w (d + i))) (d_cur (w_dev w (d + i))) (Some c)
                     (List.length (c_link (w_chan w c)) + i) true) /\
      w_chan w' c = attach_all (w_chan w c) (g_kind (attrs_cfg (new_cfg leo) attrs)) id d (List.length nodes).
  Proof.
    induction nodes as [|node nodes IH]; intros attrs q c d id w leo K F.
    - exists w. split; [reflexivity|]. split; [|split; [intros [|i] node H; discriminate|reflexivity]].
      split; [auto|]. split; [auto|]. split; [|auto]. exists []. rewrite app_nil_r. auto.
    - cbn [devices_ops]. rewrite run_app.
      assert (F0 : d_cfg (w_dev w d) = new_cfg leo) by (rewrite <- (F 0%nat); [f_equal; f_equal; lia|cbn; lia]).
      destruct (device_ops_spec attrs q c d node id w) as (w1 & -> & T1 & D1 & C1); [rewrite F0; assumption|]. cbn [bind].
      rewrite F0 in D1, C1. pose proof T1 as (A1 & A2 & A3 & A4 & A5).
      destruct (IH attrs q c (S d) (id + 1) w1 leo) as (w' & H & T2 & D2 & C2).
      { rewrite C1. destruct (attached_same (w_chan w c) (g_kind (attrs_cfg (new_cfg leo) attrs)) (allocate id) d) as (-> & _).
        assumption. }
      { intros i Hi. rewrite A4 by lia. replace (S d + i)%nat with (d + S i)%nat by lia. apply F. cbn. lia. }
      exists w'. split; [assumption|]. split; [|split].
      + eapply touches_weaken; [|eapply touches_trans; eassumption]. intros x Hx. cbn [List.length]. cbn beta in Hx. lia.
      + intros [|i] n Hn; cbn in Hn.
        * injection Hn as <-. replace (d + 0)%nat with d by lia. destruct T2 as (_ & _ & _ & B4 & _). rewrite B4 by lia.
          rewrite D1. rewrite !Z.add_0_r, Nat.add_0_r. reflexivity.
        * replace (d + S i)%nat with (S d + i)%nat by lia. rewrite (D2 i n Hn). rewrite A4 by lia.
          rewrite C1. destruct (attached_same (w_chan w c) (g_kind (attrs_cfg (new_cfg leo) attrs)) (allocate id) d) as (_ & _ & _ & ->).
          rewrite app_length. cbn [List.length].
          replace (id + 1 + Z.of_nat i) with (id + Z.of_nat (S i)) by lia.
          replace (List.length (c_link (w_chan w c)) + 1 + i)%nat with (List.length (c_link (w_chan w c)) + S i)%nat by lia. reflexivity.
      + rewrite C2, C1. reflexivity.
  Qed.

  (** ** The indices of a LEO channel *)
  Lemma index_set_keep : forall a d m b x, b <> a -> In (b, x) m -> In (b, x) (index_set a d m).
  Proof.
    intros a d m b x Hb. induction m as [|[k y] r IH]; intros H; [destruct H|]. cbn [index_set].
    destruct (a <? k); [right; assumption|]. destruct (Z.eqb_spec a k) as [->|Hk].
    - destruct H as [H|H]; [congruence|right; assumption].
    - destruct H as [H|H]; [left; assumption|right; auto].
  Qed.
  Lemma index_set_iff : forall a d m b x, (forall y, ~ In (a, y) m) ->
    In (b, x) (index_set a d m) <-> In (b, x) m \/ (b = a /\ x = d).
  Proof.
    intros a d m b x F. split.
    - intros H. apply index_set_in in H as [H|H]; [injection H as -> ->; auto|auto].
    - intros [H|[-> ->]]; [|apply index_set_has]. apply index_set_keep; [|assumption]. intros ->. apply (F x). assumption.
  Qed.
  Lemma allocate_id : forall id, 0 <= id -> id + 1 < 2 ^ 48 -> allocate id = id + 1.
  Proof. intros id H1 H2. unfold allocate. apply Z.mod_small. lia. Qed.

  Definition side (k : dkind) (ch : chan N) : list (Z * nat) :=
    match k with Plain => [] | Gnd => c_gnd ch | Sat => c_sat ch end.
  Lemma attached_side : forall ch k a d k', c_kind ch = LeoChannel ->
    side k' (attached ch k a d) = match k, k' with
                                  | Gnd, Gnd => index_set a d (c_gnd ch)
                                  | Sat, Sat => index_set a d (c_sat ch)
                                  | _, _ => side k' ch
                                  end.
  Proof. intros ch k a d k' L. unfold attached. rewrite L. destruct k, k'; reflexivity. Qed.
  Lemma attach_all_side : forall n ch k id d k', c_kind ch = LeoChannel -> k' <> Plain -> 0 <= id -> id + Z.of_nat n < 2 ^ 48 ->
    (forall a x, In (a, x) (side k ch) -> a <= id) ->
    forall a x, In (a, x) (side k' (attach_all ch k id d n)) <->
      In (a, x) (side k' ch) \/ (k' = k /\ exists i, (i < n)%nat /\ a = id + 1 + Z.of_nat i /\ x = (d + i)%nat).
  Proof.
    induction n as [|n IH]; intros ch k id d k' L KP I1 I2 F a x; cbn [attach_all].
    - split; [auto|]. intros [H|(_ & i & H & _)]; [assumption|lia].
    - rewrite allocate_id by lia.
      assert (NF : forall y, ~ In (id + 1, y) (side k ch)).
      { intros y H. apply F in H. lia. }
      rewrite IH; [|destruct (attached_same ch k (id + 1) d) as (-> & _); assumption|assumption|lia|lia|].
      + rewrite attached_side by assumption. split.
        * intros [H|(-> & i & H & -> & ->)].
          -- destruct k, k'; try contradiction; try (left; assumption); (apply index_set_in in H as [H|H]; [|left; assumption]);
               injection H as -> ->; right; (split; [reflexivity|]); exists O; lia.
          -- right. split; [reflexivity|]. exists (S i). lia.
        * intros [H|(-> & i & H & -> & ->)].
          -- left. destruct k, k'; try contradiction; try assumption; (apply index_set_iff; [exact NF|left; assumption]).
          -- destruct i as [|i]; [left|right; split; [reflexivity|]; exists i; lia].
             replace (id + 1 + Z.of_nat 0) with (id + 1) by lia. replace (d + 0)%nat with d by lia.
             destruct k; try contradiction; apply index_set_has.
      + intros b y H. rewrite attached_side in H by assumption.
        destruct k; (try (apply F in H; lia)); apply index_set_in in H as [H|H]; try (injection H as -> _; lia); apply F in H; lia.
  Qed.

  (** ** Install *)
  Section Install.
  Variable pos : nat -> Z -> vec N.
  Variable seconds : num N -> Z.

  (** Attributes set on the factories do not make a LEO device another class. *)
  Lemma attrs_kind : forall l g, g_kind g <> Plain -> g_kind (attrs_cfg g l) <> Plain.
  Proof.
    induction l as [|a r IH]; intros g G; [assumption|]. cbn. apply IH. destruct a; cbn; try assumption.
    destruct (g_kind g); [contradiction| |]; destruct sat; discriminate.
  Qed.
  Lemma attrs_plain : forall l g, g_kind g = Plain -> g_kind (attrs_cfg g l) = Plain.
  Proof.
    induction l as [|a r IH]; intros g G; [assumption|]. cbn. apply IH. destruct a; cbn; try assumption. rewrite G. reflexivity.
  Qed.

  (** The attributes and queue of the [i]-th installed device. *)
  Definition leo_attrs (h : leo_helper N) (sats : list nat) (i : nat) : list (attr N) :=
    if (i <? List.length sats)%nat then lh_sat h else lh_gnd h.
  Definition leo_queue (h : leo_helper N) (sats : list nat) (i : nat) : queue_rule :=
    if (i <? List.length sats)%nat then lh_satq h else lh_gndq h.
  Definition leo_kind (h : leo_helper N) (sats : list nat) (i : nat) : dkind :=
    g_kind (attrs_cfg (new_cfg true) (leo_attrs h sats i)).
  Definition leo_loss_of (h : leo_helper N) : leoloss N :=
    mkLeoLoss (SetElevationAngle (N := N) (lh_angle h)) (lh_atm h) (lh_fspl h) (lh_margin h).

  Lemma leo_install_spec : forall h c d sats gnds id w,
    let n := List.length (sats ++ gnds) in
    w_chan w c = new_chan LeoChannel ->
    (forall i, (i < n)%nat -> d_cfg (w_dev w (d + i)) = new_cfg true) ->
    0 <= id -> id + Z.of_nat n < 2 ^ 48 ->
    exists w', run w (leo_install pos seconds h c d sats gnds id) = Ok w' /\
      touches (fun x => (d <= x < d + n)%nat) c w w' /\
      (forall i node, nth_error (sats ++ gnds) i = Some node ->
        w_dev w' (d + i) = mkDev (installed_cfg (new_cfg true) (leo_attrs h sats i) node (id + 1 + Z.of_nat i))
                     (Some (leo_queue h sats i)) []
                     (d_busy (w_dev w (d + i))) (d_cur (w_dev w (d + i))) (Some c) i true) /\
      c_kind (w_chan w' c) = LeoChannel /\ c_link (w_chan w' c) = seq d n /\
      c_loss (w_chan w' c) = Some (leo_loss pos (leo_loss_of h)) /\
      c_delay (w_chan w' c) = Some (constant_speed pos seconds (lh_speed h)) /\
      (forall k a x, k <> Plain -> In (a, x) (side k (w_chan w' c)) <->
        exists i, (i < n)%nat /\ a = id + 1 + Z.of_nat i /\ x = (d + i)%nat /\ leo_kind h sats i = k).
  Proof.
    intros h c d sats gnds id w n HC HD I1 I2. unfold n in *. rewrite app_length in *. clear n.
    unfold leo_install. rewrite app_assoc, run_app.
    set (l1 := map (channel_op c) (lh_chan h) ++ _).
    assert (E1 : exists w1, run w l1 = Ok w1 /\ touches (fun _ => False) c w w1 /\
              w_chan w1 c = mkChan LeoChannel [] [] [] (Some (leo_loss pos (leo_loss_of h))) (Some (constant_speed pos seconds (lh_speed h)))).
    { destruct (channel_ops_spec (lh_chan h ++ [ALoss (Some (leo_loss pos (leo_loss_of h)));
          ADelay (Some (constant_speed pos seconds (lh_speed h)))]) c w) as (w1 & R & T & C).
      exists w1. split; [|split; [assumption|]].
      - rewrite <- R. rewrite map_app. reflexivity.
      - rewrite C, fold_left_app, HC. clear. generalize (lh_chan h). intros l.
        assert (G : forall l ch, c_kind (fold_left chan_apply l ch) = c_kind ch /\ c_link (fold_left chan_apply l ch) = c_link ch /\
                   c_gnd (fold_left chan_apply l ch) = c_gnd ch /\ c_sat (fold_left chan_apply l ch) = c_sat ch).
        { induction l0 as [|a r IH]; intros ch; [auto|]. cbn. destruct (IH (chan_apply ch a)) as (-> & -> & -> & ->). destruct a; auto. }
        destruct (G l (new_chan LeoChannel)) as (G1 & G2 & G3 & G4). cbn. rewrite G1, G2, G3, G4. reflexivity. }
    destruct E1 as (w1 & -> & T1 & C1). cbn [bind]. rewrite run_app.
    pose proof T1 as (_ & _ & _ & A4 & _).
    destruct (devices_ops_spec sats (lh_sat h) (lh_satq h) c d id w1 true) as (w2 & -> & T2 & D2 & C2).
    { right. apply attrs_kind. discriminate. }
    { intros i Hi. rewrite A4 by tauto. apply HD. lia. }
    cbn [bind]. pose proof T2 as (_ & _ & _ & B4 & _).
    set (ks := g_kind (attrs_cfg (new_cfg true) (lh_sat h))) in *. set (kg := g_kind (attrs_cfg (new_cfg true) (lh_gnd h))).
    assert (KS : ks <> Plain) by (apply attrs_kind; discriminate).
    assert (KG : kg <> Plain) by (apply attrs_kind; discriminate).
    destruct (devices_ops_spec gnds (lh_gnd h) (lh_gndq h) c (d + List.length sats) (id + Z.of_nat (List.length sats)) w2 true)
      as (w3 & -> & T3 & D3 & C3).
    { right. exact KG. }
    { intros i Hi. rewrite B4 by lia. rewrite A4 by tauto. replace (d + List.length sats + i)%nat with (d + (List.length sats + i))%nat by lia.
      apply HD. lia. }
    pose proof T3 as (_ & _ & _ & E4 & _). fold kg in C3.
    destruct (attach_all_same (List.length sats) (w_chan w1 c) ks id d) as (P1 & P2 & P3 & P4).
    destruct (attach_all_same (List.length gnds) (w_chan w2 c) kg (id + Z.of_nat (List.length sats)) (d + List.length sats)) as (Q1 & Q2 & Q3 & Q4).
    rewrite <- C2 in P1, P2, P3, P4. rewrite <- C3 in Q1, Q2, Q3, Q4.
    rewrite C1 in P1, P2, P3, P4. cbn [c_kind c_loss c_delay c_link app] in P1, P2, P3, P4.
    exists w3. split; [reflexivity|]. split.
    { eapply touches_weaken; [|eapply touches_trans; [exact T1|eapply touches_trans; [exact T2|exact T3]]]. cbn beta. intros x. lia. }
    split.
    { intros i node Hn. unfold leo_attrs, leo_queue. destruct (Nat.ltb_spec i (List.length sats)) as [Hi|Hi].
      - rewrite nth_error_app1 in Hn by assumption. rewrite E4 by lia. rewrite (D2 i node Hn).
        rewrite allocate_id by lia. rewrite A4 by tauto. rewrite C1. cbn [c_link List.length].
        replace (id + Z.of_nat i + 1) with (id + 1 + Z.of_nat i) by lia. reflexivity.
      - rewrite nth_error_app2 in Hn by assumption. assert (Hg : (i - List.length sats < List.length gnds)%nat).
        { apply nth_error_Some. congruence. }
        specialize (D3 _ _ Hn). replace (d + List.length sats + (i - List.length sats))%nat with (d + i)%nat in D3 by lia.
        rewrite D3. rewrite allocate_id by lia. rewrite B4 by lia. rewrite A4 by tauto. rewrite P4, seq_length.
        replace (id + Z.of_nat (List.length sats) + Z.of_nat (i - List.length sats) + 1) with (id + 1 + Z.of_nat i) by lia.
        replace (List.length sats + (i - List.length sats))%nat with i by lia. reflexivity. }
    split; [congruence|]. split; [rewrite Q4, P4, <- seq_app; reflexivity|]. split; [congruence|]. split; [congruence|].
    intros k a x K.
    assert (SS : forall k a x, k <> Plain -> In (a, x) (side k (w_chan w2 c)) <->
       k = ks /\ exists i, (i < List.length sats)%nat /\ a = id + 1 + Z.of_nat i /\ x = (d + i)%nat).
    { intros k' a' x' K'. rewrite C2. rewrite attach_all_side; [|rewrite C1; reflexivity|assumption|lia|lia|].
      - rewrite C1. split; [|auto]. intros [X|X]; [|assumption]. destruct k'; cbn in X; contradiction.
      - rewrite C1. intros a0 x0 X. destruct ks; cbn in X; contradiction. }
    rewrite C3, attach_all_side; [|assumption|assumption|lia|lia|].
    - rewrite SS by assumption. unfold leo_kind, leo_attrs. split.
      + intros [(-> & i & Hi & -> & ->)|(-> & i & Hi & -> & ->)].
        * exists i. rewrite (proj2 (Nat.ltb_lt _ _) Hi). repeat split; lia.
        * exists (List.length sats + i)%nat. rewrite (proj2 (Nat.ltb_ge _ _)) by lia. repeat split; lia.
      + intros (i & Hi & -> & -> & HK). destruct (Nat.ltb_spec i (List.length sats)) as [Hs|Hs].
        * left. split; [auto|]. exists i. auto.
        * right. split; [auto|]. exists (i - List.length sats)%nat. lia.
    - intros a0 x0 X. apply SS in X as (_ & i & Hi & -> & _); [|assumption]. lia.
  Qed.

  Lemma isl_install_spec : forall h c d nodes id w,
    let n := List.length nodes in
    w_chan w c = new_chan IslChannel ->
    (forall i, (i < n)%nat -> d_cfg (w_dev w (d + i)) = new_cfg false) ->
    0 <= id -> id + Z.of_nat n < 2 ^ 48 ->
    exists w', run w (isl_install h c d nodes id) = Ok w' /\
      touches (fun x => (d <= x < d + n)%nat) c w w' /\
      (forall i node, nth_error nodes i = Some node ->
        w_dev w' (d + i) = mkDev (installed_cfg (new_cfg false) (ih_dev h) node (id + 1 + Z.of_nat i))
                     (Some (ih_queue h)) []
                     (d_busy (w_dev w (d + i))) (d_cur (w_dev w (d + i))) (Some c) i true) /\
      c_kind (w_chan w' c) = IslChannel /\ c_link (w_chan w' c) = seq d n /\
      c_gnd (w_chan w' c) = [] /\ c_sat (w_chan w' c) = [] /\
      c_loss (w_chan w' c) = c_loss (fold_left chan_apply (ih_chan h) (new_chan IslChannel)) /\
      c_delay (w_chan w' c) = c_delay (fold_left chan_apply (ih_chan h) (new_chan IslChannel)).
  Proof.
    intros h c d nodes id w n HC HD I1 I2. unfold n in *. clear n.
    unfold isl_install. rewrite run_app. destruct (channel_ops_spec (ih_chan h) c w) as (w1 & -> & T1 & C1). cbn [bind].
    rewrite HC in C1. set (ch := fold_left chan_apply (ih_chan h) (new_chan IslChannel)) in *.
    assert (G : forall l ch, c_kind (fold_left chan_apply l ch) = c_kind ch /\ c_link (fold_left chan_apply l ch) = c_link ch /\
                   c_gnd (fold_left chan_apply l ch) = c_gnd ch /\ c_sat (fold_left chan_apply l ch) = c_sat ch).
    { induction l as [|a r IH]; intros ch0; [auto|]. cbn. destruct (IH (chan_apply ch0 a)) as (-> & -> & -> & ->). destruct a; auto. }
    destruct (G (ih_chan h) (new_chan IslChannel)) as (G1 & G2 & G3 & G4). fold ch in G1, G2, G3, G4. cbn in G1, G2, G3, G4.
    pose proof T1 as (_ & _ & _ & A4 & _).
    destruct (devices_ops_spec nodes (ih_dev h) (ih_queue h) c d id w1 false) as (w2 & -> & T2 & D2 & C2).
    { left. rewrite C1. assumption. }
    { intros i Hi. rewrite A4 by tauto. apply HD. assumption. }
    destruct (attach_all_same (List.length nodes) (w_chan w1 c) (g_kind (attrs_cfg (new_cfg false) (ih_dev h))) id d) as (P1 & P2 & P3 & P4).
    rewrite <- C2 in P1, P2, P3, P4.
    exists w2. split; [reflexivity|]. split.
    { eapply touches_weaken; [|eapply touches_trans; eassumption]. cbn beta. intros x. lia. }
    split.
    { intros i node Hn. assert (Hi : (i < List.length nodes)%nat) by (apply nth_error_Some; congruence).
      rewrite (D2 i node Hn), A4 by tauto. rewrite allocate_id by lia. rewrite C1, G2. cbn [List.length].
      replace (id + Z.of_nat i + 1) with (id + 1 + Z.of_nat i) by lia. reflexivity. }
    split; [congruence|]. split; [rewrite P4, C1, G2; reflexivity|].
    assert (X : forall n ch id d, c_kind ch = IslChannel -> c_gnd (attach_all ch (g_kind (attrs_cfg (new_cfg false) (ih_dev h))) id d n) = c_gnd ch
             /\ c_sat (attach_all ch (g_kind (attrs_cfg (new_cfg false) (ih_dev h))) id d n) = c_sat ch).
    { clear. induction n as [|n IH]; intros ch id d K; [auto|]. cbn [attach_all].
      assert (Y : forall k a, c_kind (attached ch k a d) = IslChannel /\ c_gnd (attached ch k a d) = c_gnd ch /\ c_sat (attached ch k a d) = c_sat ch).
      { intros k a. unfold attached. rewrite K. auto. }
      destruct (Y (g_kind (attrs_cfg (new_cfg false) (ih_dev h))) (allocate id)) as (Y1 & Y2 & Y3).
      destruct (IH (attached ch (g_kind (attrs_cfg (new_cfg false) (ih_dev h))) (allocate id) d) (id + 1) (S d) Y1) as [-> ->]. auto. }
    destruct (X (List.length nodes) (w_chan w1 c) id d) as [X1 X2]; [rewrite C1; assumption|]. rewrite <- C2 in X1, X2.
    split; [rewrite X1, C1; assumption|]. split; [rewrite X2, C1; assumption|]. split; congruence.
  Qed.
  End Install.
End Helpers.
