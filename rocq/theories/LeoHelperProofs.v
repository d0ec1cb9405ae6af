(** Networks made by LeoHelper. *)
Require Import ZArith List Bool Lia ZifyBool.
Require Import Verif.Base Verif.Num Verif.Vec Verif.LossModel Verif.FrameModel Verif.NetModel Verif.NetSpec Verif.NetSteps Verif.NetInv
  Verif.NetTxProofs Verif.NetChanProofs Verif.NetSideProofs Verif.HelperModel Verif.HelperProofs Verif.HelperSafeProofs Verif.HelperSpec
  Verif.HelperApiProofs Verif.CacheModel Verif.CacheSpec Verif.CacheProofs Verif.LeoHelperModel Verif.LeoHelperSpec.
Import ListNotations.
Local Open Scope Z_scope.

(** ** Indices of devices *)
Definition count_after (count : nat -> nat) (l : list nat) (n : nat) : nat := (count n + count_occ Nat.eq_dec l n)%nat.
Lemma device_indices_ext_in : forall l f g, (forall n, In n l -> f n = g n) -> device_indices f l = device_indices g l.
Proof.
  induction l as [|n r IH]; intros f g H; [reflexivity|]. cbn [device_indices]. rewrite (H n) by (left; reflexivity). f_equal. apply IH.
  intros m Hm. unfold upd. destruct (Nat.eqb m n); [reflexivity|apply H; right; assumption].
Qed.
Lemma device_indices_ext : forall l f g, (forall n, f n = g n) -> device_indices f l = device_indices g l.
Proof. intros l f g H. apply device_indices_ext_in. intros n _. apply H. Qed.
Lemma device_indices_app : forall l1 l2 count,
  device_indices count (l1 ++ l2) = device_indices count l1 ++ device_indices (count_after count l1) l2.
Proof.
  induction l1 as [|n r IH]; intros l2 count.
  - cbn [device_indices app]. apply device_indices_ext. intros x. unfold count_after. cbn. lia.
  - cbn [device_indices app]. rewrite IH. do 2 f_equal. apply device_indices_ext. intros m. unfold count_after, upd. cbn [count_occ].
    destruct (Nat.eqb_spec m n) as [E|E]; destruct (Nat.eq_dec n m); try congruence; try lia. subst. lia.
Qed.
Lemma device_indices_nodup : forall l count, NoDup l -> device_indices count l = map count l.
Proof.
  induction l as [|n r IH]; intros count H; [reflexivity|]. inversion H as [|? ? H1 H2]; subst. cbn. f_equal. rewrite IH by assumption.
  apply map_ext_in. intros m Hm. unfold upd. destruct (Nat.eqb_spec m n) as [->|]; [contradiction|reflexivity].
Qed.
Lemma device_indices_length : forall l count, length (device_indices count l) = length l.
Proof. induction l as [|n r IH]; intros count; [reflexivity|]. cbn. rewrite IH. reflexivity. Qed.
Lemma map_const : forall (f : nat -> nat) k l, (forall n, In n l -> f n = k) -> map f l = repeat k (length l).
Proof.
  induction l as [|n r IH]; intros H; [reflexivity|]. cbn. rewrite H by (left; reflexivity). rewrite IH; [reflexivity|]. intros m Hm. apply H. right. assumption.
Qed.

Lemma NoDup_first : forall (a b : list nat), NoDup (a ++ b) -> NoDup a.
Proof.
  induction a as [|x a IH]; intros b H; [constructor|]. inversion H as [|? ? H1 H2]; subst. constructor; [|eapply IH; eassumption].
  intros Hx. apply H1. apply in_or_app. left. assumption.
Qed.
Lemma NoDup_second : forall (a b : list nat), NoDup (a ++ b) -> NoDup b.
Proof. induction a as [|x a IH]; intros b H; [assumption|]. inversion H; subst. auto. Qed.

Lemma fresh_indices : forall sats gws uts, NoDup (sats ++ gws ++ uts) ->
  device_indices (fun _ => O) (sats ++ (sats ++ gws) ++ (sats ++ uts)) =
  repeat 0%nat (length sats) ++ (repeat 1%nat (length sats) ++ repeat 0%nat (length gws)) ++
  (repeat 2%nat (length sats) ++ repeat 0%nat (length uts)).
Proof.
  intros sats gws uts ND.
  assert (NS : NoDup sats) by (apply NoDup_first in ND; exact ND).
  assert (NGU : NoDup (gws ++ uts)) by (apply NoDup_second in ND; exact ND).
  assert (NG : NoDup gws) by (apply NoDup_first in NGU; exact NGU).
  assert (NU : NoDup uts) by (apply NoDup_second in NGU; exact NGU).
  assert (DIS : forall (a b : list nat) x, NoDup (a ++ b) -> In x a -> ~ In x b).
  { induction a as [|y a IH]; intros b x H Ha Hb; [destruct Ha|]. inversion H as [|? ? H1 H2]; subst. destruct Ha as [->|Ha].
    - apply H1. apply in_or_app. right. assumption.
    - eapply IH; eassumption. }
  assert (ONE : forall l x, NoDup l -> In x l -> count_occ Nat.eq_dec l x = 1%nat).
  { intros l x H1 H2. apply (NoDup_count_occ' Nat.eq_dec); assumption. }
  assert (NONE : forall l x, ~ In x l -> count_occ Nat.eq_dec l x = 0%nat) by (intros l x H; apply count_occ_not_In; assumption).
  rewrite !device_indices_app. rewrite !device_indices_nodup by assumption.
  rewrite !map_const with (k := 0%nat) (l := sats) by reflexivity.
  f_equal. f_equal; [f_equal; apply map_const|f_equal; apply map_const]; intros x Hx; unfold count_after.
  - rewrite ONE by assumption. reflexivity.
  - assert (~ In x sats) by (intros Hs; apply (DIS sats (gws ++ uts) x ND Hs); apply in_or_app; left; assumption).
    rewrite !NONE by assumption. reflexivity.
  - rewrite !count_occ_app, ONE by assumption. rewrite (NONE gws); [lia|]. intros Hg. apply (DIS sats (gws ++ uts) x ND Hx). apply in_or_app. left. assumption.
  - assert (~ In x sats) by (intros Hs; apply (DIS sats (gws ++ uts) x ND Hs); apply in_or_app; right; assumption).
    rewrite !count_occ_app, !(NONE sats) by assumption. rewrite (NONE gws); [reflexivity|]. intros Hg. apply (DIS gws uts x NGU Hg Hx).
Qed.

(** ** The stack *)
Lemma install_stack_spec : forall l has,
  (NoDup l /\ (forall n, In n l -> has n = false) -> exists has', install_stack has l = Ok has') /\
  (~ (NoDup l /\ (forall n, In n l -> has n = false)) -> install_stack has l = Abort AssertFailed).
Proof.
  induction l as [|n r IH]; intros has; cbn [install_stack].
  - split; [intros _; eauto|]. intros H. exfalso. apply H. split; [constructor|intros ? []].
  - destruct (IH (upd has n true)) as [A B]. destruct (has n) eqn:E.
    + split; [|reflexivity]. intros [_ H]. rewrite H in E by (left; reflexivity). discriminate.
    + assert (EQ : (NoDup r /\ (forall m, In m r -> upd has n true m = false)) <-> (NoDup (n :: r) /\ (forall m, In m (n :: r) -> has m = false))).
      { split.
        - intros [H1 H2]. split.
          + constructor; [|assumption]. intros Hn. apply H2 in Hn. unfold upd in Hn. rewrite Nat.eqb_refl in Hn. discriminate.
          + intros m [<-|Hm]; [assumption|]. specialize (H2 m Hm). unfold upd in H2. destruct (Nat.eqb m n); [discriminate|assumption].
        - intros [H1 H2]. inversion H1 as [|? ? H3 H4]; subst. split; [assumption|]. intros m Hm. unfold upd.
          destruct (Nat.eqb_spec m n) as [->|]; [contradiction|]. apply H2. right. assumption. }
      rewrite <- EQ. auto.
Qed.

Section LeoHelper.
  Context {N : Num}.
  Variable crc : list Z -> Z.
  Variable fcs : bool.
  Variable tx_time : Z -> Z -> Z.
  Variable has_mob : nat -> bool.
  Variable pos : nat -> Z -> vec N.
  Variable seconds : num N -> Z.
  Notation run := (@run N crc fcs tx_time has_mob).
  Notation step := (@step N crc fcs tx_time has_mob).
  Notation reachable := (@reachable N crc fcs tx_time has_mob).
  Implicit Type w : world N.

  (** ** Devices and channels *)
  Lemma stack_devices_raw : forall h c d id sats gws uts w,
    let n := length sats in
    let g := length gws in
    let u := length uts in
    let d2 := (d + n)%nat in
    let d3 := (d + n + n + g)%nat in
    w_chan w c = new_chan IslChannel -> w_chan w (S c) = new_chan LeoChannel -> w_chan w (S (S c)) = new_chan LeoChannel ->
    (forall i, (i < n)%nat -> d_cfg (w_dev w (d + i)) = new_cfg false) ->
    (forall i, (i < (n + g) + (n + u))%nat -> d_cfg (w_dev w (d + n + i)) = new_cfg true) ->
    0 <= id -> id + Z.of_nat (n + (n + g) + (n + u)) < 2 ^ 48 ->
    exists w', run w (stack_devices pos seconds h c d id sats gws uts) = Ok w' /\
      (forall i node, nth_error sats i = Some node -> exists b cur,
         w_dev w' (d + i) = mkDev (installed_cfg (new_cfg false) (ih_dev (sk_isl h)) node (id + 1 + Z.of_nat i))
                     (Some (ih_queue (sk_isl h))) [] b cur (Some c) i true) /\
      (forall i node, nth_error (sats ++ gws) i = Some node -> exists b cur,
         w_dev w' (d2 + i) = mkDev (installed_cfg (new_cfg true) (leo_attrs (sk_gw h) sats i) node (id + 1 + Z.of_nat (n + i)))
                     (Some (leo_queue (sk_gw h) sats i)) [] b cur (Some (S c)) i true) /\
      (forall i node, nth_error (sats ++ uts) i = Some node -> exists b cur,
         w_dev w' (d3 + i) = mkDev (installed_cfg (new_cfg true) (leo_attrs (sk_ut h) sats i) node (id + 1 + Z.of_nat (n + n + g + i)))
                     (Some (leo_queue (sk_ut h) sats i)) [] b cur (Some (S (S c))) i true) /\
      (c_kind (w_chan w' c) = IslChannel /\ c_link (w_chan w' c) = seq d n /\
       c_loss (w_chan w' c) = c_loss (fold_left chan_apply (ih_chan (sk_isl h)) (new_chan IslChannel)) /\
       c_delay (w_chan w' c) = c_delay (fold_left chan_apply (ih_chan (sk_isl h)) (new_chan IslChannel))) /\
      (c_kind (w_chan w' (S c)) = LeoChannel /\ c_link (w_chan w' (S c)) = seq d2 (n + g) /\
       c_loss (w_chan w' (S c)) = Some (leo_loss pos (leo_loss_of (sk_gw h))) /\
       c_delay (w_chan w' (S c)) = Some (constant_speed pos seconds (lh_speed (sk_gw h))) /\
       (forall k a x, k <> Plain -> In (a, x) (side k (w_chan w' (S c))) <->
          exists i, (i < n + g)%nat /\ a = id + 1 + Z.of_nat (n + i) /\ x = (d2 + i)%nat /\ leo_kind (sk_gw h) sats i = k)) /\
      (c_kind (w_chan w' (S (S c))) = LeoChannel /\ c_link (w_chan w' (S (S c))) = seq d3 (n + u) /\
       c_loss (w_chan w' (S (S c))) = Some (leo_loss pos (leo_loss_of (sk_ut h))) /\
       c_delay (w_chan w' (S (S c))) = Some (constant_speed pos seconds (lh_speed (sk_ut h))) /\
       (forall k a x, k <> Plain -> In (a, x) (side k (w_chan w' (S (S c)))) <->
          exists i, (i < n + u)%nat /\ a = id + 1 + Z.of_nat (n + n + g + i) /\ x = (d3 + i)%nat /\ leo_kind (sk_ut h) sats i = k)) /\
      w_now w' = w_now w /\ w_events w' = w_events w /\
      (exists new, w_log w' = w_log w ++ new /\ forallb quiet new = true) /\
      (forall x, (x < d \/ d + (n + (n + g) + (n + u)) <= x)%nat -> w_dev w' x = w_dev w x) /\
      (forall y, y <> c -> y <> S c -> y <> S (S c) -> w_chan w' y = w_chan w y).
  Proof.
    intros h c d id sats gws uts w n g u d2 d3 C0 C1 C2 D0 D1 I1 I2. unfold stack_devices. fold n g. subst d2 d3.
    rewrite run_app.
    destruct (isl_install_spec crc fcs tx_time has_mob pos (sk_isl h) c d sats id w C0 D0 I1) as (w1 & R1 & T1 & V1 & K1 & L1 & _ & _ & O1 & Y1).
    { fold n. lia. }
    rewrite R1. cbn [bind]. rewrite run_app. destruct T1 as (T11 & T12 & (n1 & T13 & T13') & T14 & T15).
    assert (LN : length (sats ++ gws) = (n + g)%nat) by apply app_length.
    assert (LU : length (sats ++ uts) = (n + u)%nat) by apply app_length.
    fold n in V1, L1, T14.
    destruct (leo_install_spec crc fcs tx_time has_mob pos seconds (sk_gw h) (S c) (d + n) sats gws (id + Z.of_nat n) w1)
      as (w2 & R2 & T2 & V2 & K2 & L2 & O2 & Y2 & S2).
    { rewrite T15 by lia. exact C1. }
    { rewrite LN. intros i Hi. rewrite T14 by lia. apply D1. lia. }
    { lia. }
    { rewrite LN. lia. }
    rewrite R2. cbn [bind]. destruct T2 as (T21 & T22 & (n2 & T23 & T23') & T24 & T25). rewrite LN in *.
    destruct (leo_install_spec crc fcs tx_time has_mob pos seconds (sk_ut h) (S (S c)) (d + n + n + g) sats uts (id + Z.of_nat (n + n + g)) w2)
      as (w3 & R3 & T3 & V3 & K3 & L3 & O3 & Y3 & S3).
    { rewrite T25, T15 by lia. exact C2. }
    { rewrite LU. intros i Hi. rewrite T24, T14 by lia. replace (d + n + n + g + i)%nat with (d + n + (n + g + i))%nat by lia. apply D1. lia. }
    { lia. }
    { rewrite LU. lia. }
    destruct T3 as (T31 & T32 & (n3 & T33 & T33') & T34 & T35). rewrite LU in *.
    exists w3. split; [exact R3|]. split; [|split; [|split; [|split; [|split; [|split; [|split; [congruence|split; [congruence|split; [|split]]]]]]]]].
    - intros i node Hn. assert (Hi : (i < n)%nat) by (apply nth_error_Some; congruence). do 2 eexists.
      rewrite T34, T24 by lia. rewrite (V1 i node Hn). reflexivity.
    - intros i node Hn. assert (Hi : (i < n + g)%nat) by (rewrite <- LN; apply nth_error_Some; congruence). do 2 eexists.
      rewrite T34 by lia. rewrite (V2 i node Hn). replace (id + Z.of_nat n + 1 + Z.of_nat i) with (id + 1 + Z.of_nat (n + i)) by lia. reflexivity.
    - intros i node Hn. do 2 eexists. rewrite (V3 i node Hn).
      replace (id + Z.of_nat (n + n + g) + 1 + Z.of_nat i) with (id + 1 + Z.of_nat (n + n + g + i)) by lia. reflexivity.
    - rewrite T35, T25 by lia. auto.
    - rewrite T35 by lia. repeat (split; [assumption|]). intros k a x Hk. rewrite (S2 k a x Hk).
      split; intros (i & A & B & C & D); exists i; repeat split; try assumption; lia.
    - repeat (split; [assumption|]). intros k a x Hk. rewrite (S3 k a x Hk).
      split; intros (i & A & B & C & D); exists i; repeat split; try assumption; lia.
    - exists (n1 ++ n2 ++ n3). rewrite T33, T23, T13, <- !app_assoc. split; [reflexivity|]. rewrite !forallb_app, T13', T23', T33'. reflexivity.
    - intros x Hx. rewrite T34, T24, T14 by lia. reflexivity.
    - intros y H1 H2 H3. rewrite T35, T25, T15 by lia. reflexivity.
  Qed.

  (** ** Setters *)
  Definition isl_part (c : stack_call N) : list (isl_call N) :=
    match c with
    | KDevice a | KIslDevice a => [HDeviceAttribute a]
    | KChannel a | KIslChannel a => [HIslChannelAttribute a]
    | _ => []
    end.
  Definition option_list {A : Type} (o : option A) : list A := match o with Some a => [a] | None => [] end.
  Definition attrs_of (r : role) (calls : list (stack_call N)) : list (attr N) := flat_map (fun c => option_list (attr_set r c)) calls.
  Definition default_queue : queue_rule := fun q _ => (length q <? 100)%nat.

  Lemma stack_call_ok : forall (h : stack_helper N) c, ~ refused c -> exists h', stack_helper_call h c = Ok h' /\
    ih_queue (sk_isl h') = ih_queue (sk_isl h) /\
    ih_dev (sk_isl h') = ih_dev (sk_isl h) ++ option_list (attr_set InterSatellite c) /\
    ih_chan (sk_isl h') = ih_chan (sk_isl h) ++ match c with KChannel a | KIslChannel a => [a] | _ => [] end /\
    lh_sat (sk_gw h') = lh_sat (sk_gw h) ++ option_list (attr_set GatewaySatellite c) /\
    lh_gnd (sk_gw h') = lh_gnd (sk_gw h) ++ option_list (attr_set Gateway c) /\
    lh_sat (sk_ut h') = lh_sat (sk_ut h) ++ option_list (attr_set TerminalSatellite c) /\
    lh_gnd (sk_ut h') = lh_gnd (sk_ut h) ++ option_list (attr_set Terminal c) /\
    lh_satq (sk_gw h') = match queue_set GatewaySatellite c with Some q => q | None => lh_satq (sk_gw h) end /\
    lh_gndq (sk_gw h') = match queue_set Gateway c with Some q => q | None => lh_gndq (sk_gw h) end /\
    lh_satq (sk_ut h') = match queue_set TerminalSatellite c with Some q => q | None => lh_satq (sk_ut h) end /\
    lh_gndq (sk_ut h') = match queue_set Terminal c with Some q => q | None => lh_gndq (sk_ut h) end /\
    leo_loss_of (sk_gw h') = leo_loss_of (sk_gw h) /\ leo_loss_of (sk_ut h') = leo_loss_of (sk_ut h) /\
    lh_speed (sk_gw h') = lh_speed (sk_gw h) /\ lh_speed (sk_ut h') = lh_speed (sk_ut h).
  Proof.
    intros [i g u] c R.
    destruct c as [q|q|q|q|q|a|a|a|a|a|a|a|a|a|a]; unfold stack_helper_call, isl_do, gw_do, ut_do, isl_helper_call;
      try (assert (O : leo_only a = false) by (destruct a; try reflexivity; exfalso; exact (R I)); rewrite O);
      cbn [bind leo_helper_call sk_isl sk_gw sk_ut lh_sat lh_gnd lh_satq lh_gndq lh_speed lh_chan lh_angle lh_fspl lh_atm lh_margin];
      (eexists; split; [reflexivity|]);
      cbn [sk_isl sk_gw sk_ut option_list attr_set queue_set ih_queue ih_dev ih_chan lh_sat lh_gnd lh_satq lh_gndq lh_speed]; rewrite ?app_nil_r;
      repeat (split; [reflexivity|]); reflexivity.
  Qed.
  Lemma stack_call_refused : forall (h : stack_helper N) c, refused c -> stack_helper_call h c = Abort AssertFailed.
  Proof. intros [i g u] c R. destruct c; try contradiction; destruct a; try contradiction; reflexivity. Qed.

  Lemma stack_calls_ok : forall calls (h : stack_helper N), (forall c, In c calls -> ~ refused c) -> exists h', stack_helper_calls h calls = Ok h' /\
    ih_queue (sk_isl h') = ih_queue (sk_isl h) /\
    ih_dev (sk_isl h') = ih_dev (sk_isl h) ++ attrs_of InterSatellite calls /\
    ih_chan (sk_isl h') = ih_chan (sk_isl h) ++ flat_map (fun c => match c with KChannel a | KIslChannel a => [a] | _ => [] end) calls /\
    lh_sat (sk_gw h') = lh_sat (sk_gw h) ++ attrs_of GatewaySatellite calls /\
    lh_gnd (sk_gw h') = lh_gnd (sk_gw h) ++ attrs_of Gateway calls /\
    lh_sat (sk_ut h') = lh_sat (sk_ut h) ++ attrs_of TerminalSatellite calls /\
    lh_gnd (sk_ut h') = lh_gnd (sk_ut h) ++ attrs_of Terminal calls /\
    lh_satq (sk_gw h') = last_of (queue_set GatewaySatellite) calls (lh_satq (sk_gw h)) /\
    lh_gndq (sk_gw h') = last_of (queue_set Gateway) calls (lh_gndq (sk_gw h)) /\
    lh_satq (sk_ut h') = last_of (queue_set TerminalSatellite) calls (lh_satq (sk_ut h)) /\
    lh_gndq (sk_ut h') = last_of (queue_set Terminal) calls (lh_gndq (sk_ut h)) /\
    leo_loss_of (sk_gw h') = leo_loss_of (sk_gw h) /\ leo_loss_of (sk_ut h') = leo_loss_of (sk_ut h) /\
    lh_speed (sk_gw h') = lh_speed (sk_gw h) /\ lh_speed (sk_ut h') = lh_speed (sk_ut h).
  Proof.
    induction calls as [|c r IH]; intros h R.
    - exists h. split; [reflexivity|]. cbn. rewrite !app_nil_r. repeat split.
    - destruct (stack_call_ok h c) as (h1 & E & A1 & A2 & A3 & A4 & A5 & A6 & A7 & A8 & A9 & A10 & A11 & A12 & A13 & A14 & A15);
        [apply R; left; reflexivity|].
      destruct (IH h1) as (h2 & E2 & B1 & B2 & B3 & B4 & B5 & B6 & B7 & B8 & B9 & B10 & B11 & B12 & B13 & B14 & B15); [intros x Hx; apply R; right; assumption|].
      exists h2. cbn [stack_helper_calls]. rewrite E. cbn [bind]. split; [exact E2|].
      unfold attrs_of, last_of in *. cbn [flat_map fold_left]. rewrite !app_assoc, <- A2, <- A3, <- A4, <- A5, <- A6, <- A7, <- A8, <- A9, <- A10, <- A11.
      repeat split; congruence.
  Qed.
  Lemma stack_calls_refused : forall calls (h : stack_helper N) c, In c calls -> refused c -> stack_helper_calls h calls = Abort AssertFailed.
  Proof.
    induction calls as [|c r IH]; intros h x H R; [destruct H|]. cbn [stack_helper_calls].
    assert (D : refused c \/ ~ refused c) by (destruct c; cbn; auto; destruct a; cbn; auto).
    destruct D as [D|D].
    - rewrite stack_call_refused by assumption. reflexivity.
    - destruct H as [->|H]; [contradiction|]. destruct (stack_call_ok h c D) as (h1 & -> & _). cbn [bind]. eapply IH; eassumption.
  Qed.

  (** Attributes of installed devices. *)
  Lemma last_attrs : forall {B : Type} r (f : attr N -> option B) calls v,
    last_of (of_attr r f) calls v = last_of f (attrs_of r calls) v.
  Proof.
    intros B r f. induction calls as [|c l IH]; intros v; [reflexivity|]. unfold last_of, attrs_of, of_attr in *. cbn [fold_left flat_map].
    destruct (attr_set r c); cbn [option_list app fold_left]; apply IH.
  Qed.
  Lemma attrs_cfg_values : forall l (g : cfg N),
    let y := attrs_cfg g l in
    g_bps y = last_of (fun a => match a with ARate x => Some x | _ => None end) l (g_bps g) /\
    g_gap y = last_of (fun a => match a with AGap x => Some x | _ => None end) l (g_gap g) /\
    g_thr y = last_of (fun a => match a with AThreshold x => Some x | _ => None end) l (g_thr g) /\
    g_txp y = last_of (fun a => match a with ATxPower x => Some x | _ => None end) l (g_txp g) /\
    g_gain y = last_of (fun a => match a with ARxGain x => Some x | _ => None end) l (g_gain g) /\
    g_loss y = last_of (fun a => match a with ARxLoss x => Some x | _ => None end) l (g_loss g) /\
    g_err y = last_of (fun a => match a with AErrorModel x => Some x | _ => None end) l (g_err g) /\
    (g_kind g = Plain -> g_kind y = Plain) /\
    (forall b : bool, g_kind g = (if b then Sat else Gnd) ->
       g_kind y = if last_of (fun a => match a with AType x => Some x | _ => None end) l b then Sat else Gnd).
  Proof.
    induction l as [|a l IH]; intros g y; [cbn; repeat split; auto|].
    destruct (IH (apply_setting g (setting_of a))) as (A1 & A2 & A3 & A4 & A5 & A6 & A7 & A8 & A9).
    change (attrs_cfg (apply_setting g (setting_of a)) l) with y in *.
    unfold last_of in *. cbn [fold_left].
    split; [rewrite A1; destruct a; reflexivity|]. split; [rewrite A2; destruct a; reflexivity|]. split; [rewrite A3; destruct a; reflexivity|].
    split; [rewrite A4; destruct a; reflexivity|]. split; [rewrite A5; destruct a; reflexivity|]. split; [rewrite A6; destruct a; reflexivity|].
    split; [rewrite A7; destruct a; reflexivity|]. split.
    - intros K. apply A8. destruct a; cbn; rewrite K; reflexivity.
    - intros b K. apply A9. destruct a as [[]| | | | | | | |], b; cbn; rewrite K; reflexivity.
  Qed.
  Lemma configured_plain : forall calls y node a b cur c i, y = mkDev (installed_cfg (new_cfg false) (attrs_of InterSatellite calls) node a) (Some default_queue) [] b cur (Some c) i true ->
    configured calls InterSatellite y /\ g_kind (d_cfg y) = Plain.
  Proof.
    intros calls y node a b cur c i ->. unfold configured. rewrite !last_attrs.
    destruct (attrs_cfg_values (attrs_of InterSatellite calls) (new_cfg false)) as (A1 & A2 & A3 & A4 & A5 & A6 & A7 & A8 & A9).
    split; [split; [|repeat split; assumption]|exact (A8 eq_refl)]. cbn [d_queue].
    assert (E : forall (l : list (stack_call N)) (v : queue_rule), last_of (queue_set InterSatellite) l v = v).
    { induction l as [|x l IH]; intros v; [reflexivity|]. unfold last_of in *. cbn [fold_left]. destruct x; apply IH. }
    rewrite E. reflexivity.
  Qed.
  Lemma configured_leo : forall calls r t y node a b cur c i,
    y = mkDev (installed_cfg (new_cfg true) (AType t :: attrs_of r calls) node a) (Some (last_of (queue_set r) calls default_queue)) [] b cur (Some c) i true ->
    configured calls r y /\ g_kind (d_cfg y) = type_of calls r t.
  Proof.
    intros calls r t y node a b cur c i ->. unfold configured, type_of. rewrite !last_attrs.
    destruct (attrs_cfg_values (attrs_of r calls) (apply_setting (new_cfg true) (CType t))) as (A1 & A2 & A3 & A4 & A5 & A6 & A7 & A8 & A9).
    split; [split; [reflexivity|repeat split; assumption]|]. refine (A9 t _). destruct t; reflexivity.
  Qed.

  (** ** Traffic stays in its network *)
  Lemma networks_traffic : forall w c d id sats gws uts ops w', indexed_ok w -> networks w c d id sats gws uts ->
    Forall (fun o => moves o = true) ops -> run w ops = Ok w' ->
    exists new, w_log w' = w_log w ++ new /\ forall t ch p src dst tx delay, In (t, TxRx ch p src dst tx delay) new ->
      let n := length sats in
      let g := length gws in
      let u := length uts in
      (ch = c -> among src d n /\ among dst d n) /\
      (ch = S c -> among src (d + n) n /\ among dst (d + n + n) g \/ among src (d + n + n) g /\ among dst (d + n) n) /\
      (ch = S (S c) -> among src (d + n + n + g) n /\ among dst (d + n + n + g + n) u \/ among src (d + n + n + g + n) u /\ among dst (d + n + n + g) n).
  Proof.
    intros w c d id sats gws uts ops w' HI NW F H.
    assert (HS : hears_step w w').
    { clear NW. revert w HI H. induction F as [|o r HO F IH]; intros w HI H; cbn in H.
      - injection H as <-. apply hears_dev; [split; reflexivity|reflexivity].
      - apply bind_ok in H as (w1 & H1 & H2). eapply hears_trans; [eapply (step_moves crc fcs tx_time has_mob); eassumption|].
        apply IH; [eapply (step_indexed crc fcs tx_time has_mob); eassumption|assumption]. }
    destruct HS as (_ & new & L & HH). exists new. split; [exact L|]. intros t ch p src dst tx delay HT n g u.
    destruct NW as (V1 & V2 & V3 & V4 & V5 & K1 & L1 & (K2 & L2 & S2 & G2) & (K3 & L3 & S3 & G3)). fold n g u in V1, V2, V3, V4, V5, L1, L2, S2, G2, L3, S3, G3.
    apply HH in HT as [HS HR].
    assert (AD : forall x y node a k cc i, set_up w x node a k cc i -> y = x -> addr_of w y = a) by (intros x y node a k cc i (_ & A & _) ->; exact A).
    assert (AT : forall (l : list nat) i, (i < length l)%nat -> exists node, nth_error l i = Some node).
    { intros l i Hi. destruct (nth_error l i) eqn:E; [eauto|]. apply nth_error_None in E. lia. }
    split; [|split]; intros ->; unfold reachable_on in HR.
    - rewrite K1, L1 in HR. rewrite L1 in HS. apply in_seq in HS. apply in_seq in HR. unfold among. lia.
    - rewrite K2 in HR. rewrite L2 in HS. apply in_seq in HS.
      assert (SA : addr_of w src = id + 1 + Z.of_nat n + Z.of_nat (src - (d + n))).
      { destruct (lt_dec src (d + n + n)) as [Hs|Hs].
        - destruct (AT sats (src - (d + n))%nat) as (node & E); [fold n; lia|]. rewrite (AD _ src _ _ _ _ _ (V2 _ _ E)) by lia. lia.
        - destruct (AT gws (src - (d + n + n))%nat) as (node & E); [fold g; lia|]. rewrite (AD _ src _ _ _ _ _ (V3 _ _ E)) by lia. lia. }
      destruct HR as [(H1 & _ & H2)|(H1 & _ & H2)]; apply indexed_in in H1 as (x & Hx); apply in_map_iff in H2 as ([b y] & E & Hy); cbn in E; subst y.
      + right. apply G2 in Hx as (i & Hi & Ea & Ex). apply S2 in Hy as (j & Hj & Eb & Ey). unfold among. lia.
      + left. apply S2 in Hx as (i & Hi & Ea & Ex). apply G2 in Hy as (j & Hj & Eb & Ey). unfold among. lia.
    - rewrite K3 in HR. rewrite L3 in HS. apply in_seq in HS.
      assert (SA : addr_of w src = id + 1 + Z.of_nat (n + n + g) + Z.of_nat (src - (d + n + n + g))).
      { destruct (lt_dec src (d + n + n + g + n)) as [Hs|Hs].
        - destruct (AT sats (src - (d + n + n + g))%nat) as (node & E); [fold n; lia|]. rewrite (AD _ src _ _ _ _ _ (V4 _ _ E)) by lia. lia.
        - destruct (AT uts (src - (d + n + n + g + n))%nat) as (node & E); [fold u; lia|]. rewrite (AD _ src _ _ _ _ _ (V5 _ _ E)) by lia. lia. }
      destruct HR as [(H1 & _ & H2)|(H1 & _ & H2)]; apply indexed_in in H1 as (x & Hx); apply in_map_iff in H2 as ([b y] & E & Hy); cbn in E; subst y.
      + right. apply G3 in Hx as (i & Hi & Ea & Ex). apply S3 in Hy as (j & Hj & Eb & Ey). unfold among. lia.
      + left. apply S3 in Hx as (i & Hi & Ea & Ex). apply G3 in Hy as (j & Hj & Eb & Ey). unfold among. lia.
  Qed.
End LeoHelper.
