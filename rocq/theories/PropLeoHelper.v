(** C66-C68: LeoHelper. *)
Require Import ZArith List Bool Lia ZifyBool.
Require Import Verif.Base Verif.Num Verif.Vec Verif.LossModel Verif.FrameModel Verif.NetModel Verif.NetSpec Verif.NetSteps Verif.NetInv
  Verif.NetSideProofs Verif.NetExamples Verif.HelperModel Verif.HelperSpec Verif.HelperProofs Verif.HelperApiProofs Verif.CacheModel Verif.CacheSpec
  Verif.LeoHelperModel Verif.LeoHelperSpec Verif.LeoHelperProofs Verif.LeoArpProofs.
Import ListNotations.
Local Open Scope Z_scope.

(** Three new channels from [c], new devices from [d], addresses from [id + 1] on. *)
Definition vacant {N : Num} (w : world N) (c d : nat) (id : Z) (sats gws uts : list nat) : Prop :=
  let n := length sats in
  let g := length gws in
  let u := length uts in
  w_chan w c = new_chan IslChannel /\ w_chan w (S c) = new_chan LeoChannel /\ w_chan w (S (S c)) = new_chan LeoChannel /\
  (forall i, (i < n)%nat -> d_cfg (w_dev w (d + i)) = new_cfg false) /\
  (forall i, (n <= i < n + (n + g) + (n + u))%nat -> d_cfg (w_dev w (d + i)) = new_cfg true) /\
  0 <= id /\ id + Z.of_nat (n + (n + g) + (n + u)) < 2 ^ 48.

(** ** C66: the setters *)
Theorem C66_refused : forall (N : Num) pos seconds (calls : list (stack_call N)),
  (exists c, In c calls /\ refused c) <-> stack_helper_calls (new_stack_helper pos seconds) calls = Abort AssertFailed.
Proof.
  intros N pos seconds calls. split.
  - intros (c & H & R). eapply stack_calls_refused; eassumption.
  - intros H. assert (D : forall c : stack_call N, refused c \/ ~ refused c) by (intros c; destruct c; cbn; auto; destruct a; cbn; auto).
    assert (E : (exists c, In c calls /\ refused c) \/ (forall c, In c calls -> ~ refused c)).
    { clear H. induction calls as [|x l IH]; [right; intros ? []|]. destruct (D x) as [R|R]; [left; exists x; split; [left; reflexivity|assumption]|].
      destruct IH as [(c & A & B)|B]; [left; exists c; split; [right|]; assumption|]. right. intros c [<-|A]; auto. }
    destruct E as [E|E]; [exact E|]. destruct (stack_calls_ok calls (new_stack_helper pos seconds) E) as (h & A & _). congruence.
Qed.
Print Assumptions C66_refused.

Theorem C66_setters : forall (N : Num) crc fcs tx_time has_mob pos seconds (calls : list (stack_call N)),
  (forall c, In c calls -> ~ refused c) ->
  exists h, stack_helper_calls (new_stack_helper pos seconds) calls = Ok h /\
  forall w c d id sats gws uts, vacant w c d id sats gws uts ->
  let n := length sats in
  let g := length gws in
  let u := length uts in
  exists w', run crc fcs tx_time has_mob w (stack_devices pos seconds h c d id sats gws uts) = Ok w' /\
    (forall i, (i < n)%nat -> configured calls InterSatellite (w_dev w' (d + i)) /\ g_kind (d_cfg (w_dev w' (d + i))) = Plain) /\
    (forall i, (i < n)%nat -> let y := w_dev w' (d + n + i) in
       configured calls GatewaySatellite y /\ g_kind (d_cfg y) = type_of calls GatewaySatellite true) /\
    (forall i, (i < g)%nat -> let y := w_dev w' (d + n + n + i) in
       configured calls Gateway y /\ g_kind (d_cfg y) = type_of calls Gateway false) /\
    (forall i, (i < n)%nat -> let y := w_dev w' (d + n + n + g + i) in
       configured calls TerminalSatellite y /\ g_kind (d_cfg y) = type_of calls TerminalSatellite true) /\
    (forall i, (i < u)%nat -> let y := w_dev w' (d + n + n + g + n + i) in
       configured calls Terminal y /\ g_kind (d_cfg y) = type_of calls Terminal false) /\
    c_loss (w_chan w' c) = last_of isl_loss_set calls (Some (fun tx a b t => IslCalcRxPower tx (pos a t) (pos b t))) /\
    c_delay (w_chan w' c) = last_of isl_delay_set calls (Some (fun a b t => seconds (ndiv N (vdist (pos a t) (pos b t)) (nZ N 299792458)))) /\
    (forall ch, ch = S c \/ ch = S (S c) ->
       c_loss (w_chan w' ch) = Some (fun tx a b t => LeoCalcRxPower default_loss tx (pos a t) (pos b t)) /\
       c_delay (w_chan w' ch) = Some (fun a b t => seconds (ndiv N (vdist (pos a t) (pos b t)) (nZ N 299702458)))).
Proof.
  intros N crc fcs tx_time has_mob pos seconds calls R.
  destruct (stack_calls_ok calls (new_stack_helper pos seconds) R) as (h & E & A1 & A2 & A3 & A4 & A5 & A6 & A7 & A8 & A9 & A10 & A11 & A12 & A13 & A14 & A15).
  exists h. split; [exact E|]. intros w c d id sats gws uts (C0 & C1 & C2 & D0 & D1 & I1 & I2) n g u.
  destruct (stack_devices_raw crc fcs tx_time has_mob pos seconds h c d id sats gws uts w C0 C1 C2 D0)
    as (w' & RUN & V1 & V2 & V3 & (K1 & L1 & O1 & Y1) & (K2 & L2 & O2 & Y2 & _) & (K3 & L3 & O3 & Y3 & _) & _); [|assumption|assumption|].
  { intros i Hi. rewrite <- Nat.add_assoc. apply D1. lia. }
  fold n g u in V1, V2, V3.
  exists w'. split; [exact RUN|].
  assert (AT : forall (l : list nat) i, (i < length l)%nat -> exists node, nth_error l i = Some node).
  { intros l i Hi. destruct (nth_error l i) eqn:X; [eauto|]. apply nth_error_None in X. lia. }
  unfold leo_attrs, leo_queue in V2, V3. fold n in V2, V3.
  split; [|split; [|split; [|split; [|split; [|split; [|split]]]]]].
  - intros i Hi. destruct (AT sats i Hi) as (node & X). destruct (V1 i node X) as (b & cur & Y).
    eapply configured_plain. rewrite Y, A1, A2. reflexivity.
  - intros i Hi. destruct (AT (sats ++ gws) i) as (node & X); [rewrite app_length; fold n; lia|]. destruct (V2 i node X) as (b & cur & Y).
    replace (i <? n)%nat with true in Y by lia. intros y. subst y. eapply configured_leo. rewrite Y, A4, A8. reflexivity.
  - intros i Hi. destruct (AT (sats ++ gws) (n + i)%nat) as (node & X); [rewrite app_length; fold n g; lia|]. destruct (V2 _ node X) as (b & cur & Y).
    replace (n + i <? n)%nat with false in Y by lia. rewrite Nat.add_assoc in Y. intros y. subst y. eapply configured_leo. rewrite Y, A5, A9. reflexivity.
  - intros i Hi. destruct (AT (sats ++ uts) i) as (node & X); [rewrite app_length; fold n; lia|]. destruct (V3 i node X) as (b & cur & Y).
    replace (i <? n)%nat with true in Y by lia. intros y. subst y. eapply configured_leo. rewrite Y, A6, A10. reflexivity.
  - intros i Hi. destruct (AT (sats ++ uts) (n + i)%nat) as (node & X); [rewrite app_length; fold n u; lia|]. destruct (V3 _ node X) as (b & cur & Y).
    replace (n + i <? n)%nat with false in Y by lia. rewrite Nat.add_assoc in Y. intros y. subst y. eapply configured_leo. rewrite Y, A7, A11. reflexivity.
  - rewrite O1, A3, fold_left_app. destruct (last_loss_fold (flat_map (fun c => match c with KChannel a | KIslChannel a => [a] | _ => [] end) calls)
        (fold_left chan_apply (ih_chan (sk_isl (new_stack_helper pos seconds))) (new_chan IslChannel))) as [-> _].
    cbn [c_loss fold_left chan_apply ih_chan sk_isl new_stack_helper new_isl_helper].
    change (isl_loss pos) with (fun (tx : num N) a b t => IslCalcRxPower tx (pos a t) (pos b t)). generalize (Some (fun (tx : num N) (a b : nat) t => IslCalcRxPower tx (pos a t) (pos b t))).
    clear. unfold last_of. induction calls as [|x l IH]; intros f; [reflexivity|]. cbn [flat_map fold_left].
    destruct x; try apply IH; destruct a; cbn [app last_loss isl_loss_set]; apply IH.
  - rewrite Y1, A3, fold_left_app. destruct (last_loss_fold (flat_map (fun c => match c with KChannel a | KIslChannel a => [a] | _ => [] end) calls)
        (fold_left chan_apply (ih_chan (sk_isl (new_stack_helper pos seconds))) (new_chan IslChannel))) as [_ ->].
    cbn [c_delay fold_left chan_apply ih_chan sk_isl new_stack_helper new_isl_helper].
    change (constant_speed pos seconds (nZ N 299792458)) with (fun a b t => seconds (ndiv N (vdist (pos a t) (pos b t)) (nZ N 299792458))).
    generalize (Some (fun a b t => seconds (ndiv N (vdist (pos a t) (pos b t)) (nZ N 299792458)))).
    clear. unfold last_of. induction calls as [|x l IH]; intros f; [reflexivity|]. cbn [flat_map fold_left].
    destruct x; try apply IH; destruct a; cbn [app last_delay isl_delay_set]; apply IH.
  - intros ch [->| ->]; [rewrite O2, Y2, A12, A14|rewrite O3, Y3, A13, A15]; split; reflexivity.
Qed.
Print Assumptions C66_setters.

(** SetQueue does not reach the inter-satellite devices. *)
Theorem C66_queue_refuted : forall (N : Num) crc fcs tx_time has_mob pos seconds, exists (calls : list (stack_call N)) h w' q,
  stack_helper_calls (new_stack_helper pos seconds) (calls ++ [KQueue q]) = Ok h /\
  run crc fcs tx_time has_mob (initial (fun d => (0 <? d)%nat) (fun c => if (c =? 0)%nat then IslChannel else LeoChannel))
    (stack_devices pos seconds h 0 0 0 [0]%nat [1]%nat [2]%nat) = Ok w' /\
  (forall q', d_queue (w_dev w' 0%nat) = Some q' -> q' [] (packet 1) <> q [] (packet 1)) /\
  (forall d, (1 <= d < 5)%nat -> d_queue (w_dev w' d) = Some q).
Proof.
  intros N crc fcs tx_time has_mob pos seconds.
  destruct (C66_setters N crc fcs tx_time has_mob pos seconds [KQueue (fun _ _ => false)]) as (h & E & H); [intros c [<-|[]]; auto|].
  destruct (H (initial (fun d => (0 <? d)%nat) (fun c => if (c =? 0)%nat then IslChannel else LeoChannel)) 0%nat 0%nat 0 [0]%nat [1]%nat [2]%nat)
    as (w' & R & V1 & V2 & V3 & V4 & V5 & _).
  { unfold vacant. cbn [length]. repeat split; try lia.
    - intros i Hi. assert (i = 0%nat) by lia. subst. reflexivity.
    - intros [|i] Hi; [lia|reflexivity]. }
  exists [], h, w', (fun _ _ => false). split; [exact E|]. split; [exact R|]. split.
  - intros q' HQ. destruct (V1 0%nat) as [[Q _] _]; [cbn; lia|]. cbn in Q. rewrite Q in HQ. injection HQ as <-. discriminate.
  - intros d Hd. destruct (V2 0%nat) as [[Q2 _] _]; [cbn; lia|]. destruct (V3 0%nat) as [[Q3 _] _]; [cbn; lia|].
    destruct (V4 0%nat) as [[Q4 _] _]; [cbn; lia|]. destruct (V5 0%nat) as [[Q5 _] _]; [cbn; lia|]. cbn in Q2, Q3, Q4, Q5.
    assert (d = 1 \/ d = 2 \/ d = 3 \/ d = 4)%nat as [->|[->|[->| ->]]] by lia; assumption.
Qed.
Print Assumptions C66_queue_refuted.

(** A queue and attributes for all devices, then some for gateways and satellites. *)
Definition ex_calls : list (stack_call NumZ) :=
  [KQueue (fun q _ => (length q <? 7)%nat); KDevice (ARate 8000); KGndGwQueue (fun q _ => (length q <? 3)%nat); KSatUtDevice (ARxGain (N := NumZ) 5);
   KChannel (ADelay (Some (fun _ _ _ => 4))); KIslDevice (AGap 9); KGndUtDevice (ARate 16000)].
(** Satellites 10 and 11 above the others. *)
Definition ex_pos (n : nat) (t : Z) : vec NumZ := @V NumZ (if (n <? 12)%nat then 7000000 + Z.of_nat n else 6371010) 0 0.
Definition ex_seconds (x : num NumZ) : Z := Z.abs x.
Definition ex_start : world NumZ := initial (fun d => (1 <? d)%nat) (fun c => if (c =? 0)%nat then IslChannel else LeoChannel).
Example ex_C66 : (forall c, In c ex_calls -> ~ refused c) /\
  vacant ex_start 0 0 100 [10; 11]%nat [12]%nat [13; 14]%nat /\
  holds (fun h => holds (fun w : world NumZ => map (fun d => g_bps (d_cfg (w_dev w d))) (seq 0 9) = [8000; 8000; 8000; 8000; 8000; 8000; 8000; 16000; 16000] /\
                                  map (fun d => g_gap (d_cfg (w_dev w d))) (seq 0 9) = [9; 9; 0; 0; 0; 0; 0; 0; 0] /\
                                  map (fun d => g_gain (d_cfg (w_dev w d))) (seq 0 9) = [0; 0; 0; 0; 0; 5; 5; 0; 0] /\
                                  map (fun c => option_map (fun f => f 10%nat 12%nat 0) (c_delay (w_chan w c))) (seq 0 3) = [Some 4; Some 0; Some 0])
     (run ex_crc true ex_tx ex_mob ex_start (stack_devices ex_pos ex_seconds h 0 0 100 [10; 11]%nat [12]%nat [13; 14]%nat)))
    (stack_helper_calls (new_stack_helper ex_pos ex_seconds) ex_calls).
Proof.
  split; [|split].
  - intros c H. cbn in H. destruct H as [<-|[<-|[<-|[<-|[<-|[<-|[<-|[]]]]]]]]; auto.
  - unfold vacant. cbn [length]. repeat split; try lia.
    + intros [|[|i]] Hi; try lia; reflexivity.
    + intros [|[|i]] Hi; try lia. reflexivity.
  - vm_compute. repeat split.
Qed.
Example ex_C66_refused : refused (KDevice (ARxGain (N := NumZ) 5) : stack_call NumZ) /\
  stack_helper_calls (new_stack_helper ex_pos ex_seconds) [KDevice (ARxGain (N := NumZ) 5)] = Abort AssertFailed.
Proof. split; [exact I|reflexivity]. Qed.

(** ** C67: three networks *)
(** Calls that leave the device types alone. *)
Definition leaves_types {N : Num} (c : stack_call N) : Prop :=
  match c with
  | KDevice (AType _) | KIslDevice (AType _) | KGndGwDevice (AType _) | KGndUtDevice (AType _) | KSatGwDevice (AType _) | KSatUtDevice (AType _) => False
  | _ => True
  end.
Lemma type_left : forall (N : Num) (calls : list (stack_call N)) r t, (forall c, In c calls -> leaves_types c) ->
  type_of calls r t = if t then Sat else Gnd.
Proof.
  intros N calls r t H. unfold type_of, last_of.
  replace (fold_left _ calls t) with t; [reflexivity|]. induction calls as [|c l IH]; [reflexivity|]. cbn [fold_left].
  assert (E : match of_attr r (fun a => match a with AType x => Some x | _ => None end) c with Some x => x | None => t end = t).
  { assert (L : leaves_types c) by (apply H; left; reflexivity). unfold of_attr.
    destruct c; cbn in L |- *; try reflexivity; destruct r; try reflexivity; destruct a; try reflexivity; contradiction. }
  rewrite E. apply IH. intros x Hx. apply H. right. assumption.
Qed.

Theorem C67_networks : forall (N : Num) crc fcs tx_time has_mob pos seconds (calls : list (stack_call N)) h w c d id sats gws uts,
  stack_helper_calls (new_stack_helper pos seconds) calls = Ok h -> (forall x, In x calls -> leaves_types x) ->
  vacant w c d id sats gws uts ->
  let m := (length sats + (length sats + length gws) + (length sats + length uts))%nat in
  exists w', run crc fcs tx_time has_mob w (stack_devices pos seconds h c d id sats gws uts) = Ok w' /\
    networks w' c d id sats gws uts /\
    (forall x, ~ among x d m -> w_dev w' x = w_dev w x) /\
    (forall y, ~ among y c 3 -> w_chan w' y = w_chan w y).
Proof.
  intros N crc fcs tx_time has_mob pos seconds calls h w c d id sats gws uts E T VA m.
  assert (R : forall x, In x calls -> ~ refused x).
  { intros x Hx Rx. assert (Q : stack_helper_calls (new_stack_helper pos seconds) calls = Abort AssertFailed) by (apply C66_refused; eauto). congruence. }
  destruct (C66_setters N crc fcs tx_time has_mob pos seconds calls R) as (h' & E' & EFF). assert (h' = h) by congruence. subst h'. clear E'.
  destruct (EFF w c d id sats gws uts VA) as (w' & RUN & E1 & E2 & E3 & E4 & E5 & _).
  destruct VA as (C0 & C1 & C2 & D0 & D1 & I1 & I2).
  destruct (stack_devices_raw crc fcs tx_time has_mob pos seconds h c d id sats gws uts w C0 C1 C2 D0)
    as (w2 & RUN2 & V1 & V2 & V3 & (K1 & L1 & _) & (K2 & L2 & _ & _ & S2) & (K3 & L3 & _ & _ & S3) & _ & _ & _ & X1 & X2); [|assumption|assumption|].
  { intros i Hi. rewrite <- Nat.add_assoc. apply D1. lia. }
  rewrite RUN in RUN2. injection RUN2 as <-. exists w'. split; [exact RUN|].
  set (n := length sats) in *. set (g := length gws) in *. set (u := length uts) in *.
  assert (LT : forall (l : list nat) i node, nth_error l i = Some node -> (i < length l)%nat) by (intros l i node H; apply nth_error_Some; congruence).
  assert (KG : forall i, (i < n + g)%nat -> leo_kind (sk_gw h) sats i = if (i <? n)%nat then Sat else Gnd).
  { intros i Hi. destruct (nth_error (sats ++ gws) i) as [node|] eqn:Hn; [|apply nth_error_None in Hn; rewrite app_length in Hn; fold n g in Hn; lia].
    destruct (V2 i node Hn) as (b & cur & Y). destruct (Nat.ltb_spec i n).
    - destruct (E2 i) as [_ K]; [assumption|]. rewrite Y, type_left in K by assumption. exact K.
    - destruct (E3 (i - n)%nat) as [_ K]; [lia|]. replace (d + n + n + (i - n))%nat with (d + n + i)%nat in K by lia. rewrite Y, type_left in K by assumption. exact K. }
  assert (KU : forall i, (i < n + u)%nat -> leo_kind (sk_ut h) sats i = if (i <? n)%nat then Sat else Gnd).
  { intros i Hi. destruct (nth_error (sats ++ uts) i) as [node|] eqn:Hn; [|apply nth_error_None in Hn; rewrite app_length in Hn; fold n u in Hn; lia].
    destruct (V3 i node Hn) as (b & cur & Y). destruct (Nat.ltb_spec i n).
    - destruct (E4 i) as [_ K]; [assumption|]. rewrite Y, type_left in K by assumption. exact K.
    - destruct (E5 (i - n)%nat) as [_ K]; [lia|]. replace (d + n + n + g + n + (i - n))%nat with (d + n + n + g + i)%nat in K by lia. rewrite Y, type_left in K by assumption. exact K. }
  split; [|split; [intros x Hx; apply X1; unfold among in Hx; lia|intros y Hy; apply X2; unfold among in Hy; lia]].
  unfold networks. fold n g u. split; [|split; [|split; [|split; [|split; [|split; [exact K1|split; [exact L1|split]]]]]]].
  - intros i node Hn. destruct (V1 i node Hn) as (b & cur & Y). destruct (E1 i) as [_ K]; [apply LT in Hn; assumption|].
    unfold set_up. rewrite Y in K |- *. cbn [d_cfg] in K |- *. rewrite K. repeat split.
  - intros i node Hn. pose proof (LT _ _ _ Hn) as Hi. fold n in Hi. assert (Hm : nth_error (sats ++ gws) i = Some node) by (rewrite nth_error_app1 by assumption; assumption).
    destruct (V2 i node Hm) as (b & cur & Y). destruct (E2 i Hi) as [_ K].
    unfold set_up. rewrite Y in K |- *. cbn [d_cfg] in K |- *. rewrite K, type_left by assumption. repeat split.
  - intros i node Hn. pose proof (LT _ _ _ Hn) as Hi. fold g in Hi.
    assert (Hm : nth_error (sats ++ gws) (n + i) = Some node) by (rewrite nth_error_app2 by (fold n; lia); fold n; replace (n + i - n)%nat with i by lia; assumption).
    destruct (V2 _ node Hm) as (b & cur & Y). destruct (E3 i Hi) as [_ K]. rewrite !Nat.add_assoc in Y.
    unfold set_up. rewrite Y in K |- *. cbn [d_cfg] in K |- *. rewrite K, type_left by assumption. repeat split.
  - intros i node Hn. pose proof (LT _ _ _ Hn) as Hi. fold n in Hi. assert (Hm : nth_error (sats ++ uts) i = Some node) by (rewrite nth_error_app1 by assumption; assumption).
    destruct (V3 i node Hm) as (b & cur & Y). destruct (E4 i Hi) as [_ K].
    unfold set_up. rewrite Y in K |- *. cbn [d_cfg] in K |- *. rewrite K, type_left by assumption. repeat split.
  - intros i node Hn. pose proof (LT _ _ _ Hn) as Hi. fold u in Hi.
    assert (Hm : nth_error (sats ++ uts) (n + i) = Some node) by (rewrite nth_error_app2 by (fold n; lia); fold n; replace (n + i - n)%nat with i by lia; assumption).
    destruct (V3 _ node Hm) as (b & cur & Y). destruct (E5 i Hi) as [_ K]. rewrite !Nat.add_assoc in Y.
    unfold set_up. rewrite Y in K |- *. cbn [d_cfg] in K |- *. rewrite K, type_left by assumption. repeat split.
  - split; [exact K2|]. split; [exact L2|].
    assert (S : forall k b x, k <> Plain -> In (b, x) (side k (w_chan w' (S c))) <->
       exists i, (i < n + g)%nat /\ b = id + 1 + Z.of_nat (n + i) /\ x = (d + n + i)%nat /\ (if (i <? n)%nat then Sat else Gnd) = k).
    { intros k b x Hk. rewrite (S2 k b x Hk). split; intros (i & A & B & C & D); exists i; rewrite (KG i A) in *; auto. }
    split; intros b x;
      [change (c_sat (w_chan w' (Datatypes.S c))) with (side Sat (w_chan w' (Datatypes.S c))); rewrite (S Sat b x) by discriminate
      |change (c_gnd (w_chan w' (Datatypes.S c))) with (side Gnd (w_chan w' (Datatypes.S c))); rewrite (S Gnd b x) by discriminate];
      split; intros (i & A); exists i; destruct (Nat.ltb_spec i n); intuition (try lia; try congruence).
  - split; [exact K3|]. split; [exact L3|].
    assert (S : forall k b x, k <> Plain -> In (b, x) (side k (w_chan w' (S (S c)))) <->
       exists i, (i < n + u)%nat /\ b = id + 1 + Z.of_nat (n + n + g + i) /\ x = (d + n + n + g + i)%nat /\ (if (i <? n)%nat then Sat else Gnd) = k).
    { intros k b x Hk. rewrite (S3 k b x Hk). split; intros (i & A & B & C & D); exists i; rewrite (KU i A) in *; auto. }
    split; intros b x;
      [change (c_sat (w_chan w' (Datatypes.S (Datatypes.S c)))) with (side Sat (w_chan w' (Datatypes.S (Datatypes.S c)))); rewrite (S Sat b x) by discriminate
      |change (c_gnd (w_chan w' (Datatypes.S (Datatypes.S c)))) with (side Gnd (w_chan w' (Datatypes.S (Datatypes.S c)))); rewrite (S Gnd b x) by discriminate];
      split; intros (i & A); exists i; destruct (Nat.ltb_spec i n); intuition (try lia; try congruence).
Qed.
Print Assumptions C67_networks.

(** Whatever is sent afterwards, satellites hear each other on the inter-satellite
    devices only, and gateways and terminals hear only satellites, and those only on
    their own network. *)
Theorem C67_separate : forall (N : Num) crc fcs tx_time has_mob pos seconds (calls : list (stack_call N)) h w c d id sats gws uts w1 ops w2,
  reachable crc fcs tx_time has_mob w ->
  stack_helper_calls (new_stack_helper pos seconds) calls = Ok h -> (forall x, In x calls -> leaves_types x) ->
  vacant w c d id sats gws uts ->
  run crc fcs tx_time has_mob w (stack_devices pos seconds h c d id sats gws uts) = Ok w1 ->
  Forall ordinary ops -> run crc fcs tx_time has_mob w1 ops = Ok w2 ->
  let n := length sats in
  let g := length gws in
  let u := length uts in
  exists new, w_log w2 = w_log w1 ++ new /\ forall t ch p src dst tx delay, In (t, TxRx ch p src dst tx delay) new ->
    (ch = c -> among src d n /\ among dst d n) /\
    (ch = S c -> among src (d + n) n /\ among dst (d + n + n) g \/ among src (d + n + n) g /\ among dst (d + n) n) /\
    (ch = S (S c) -> among src (d + n + n + g) n /\ among dst (d + n + n + g + n) u \/ among src (d + n + n + g + n) u /\ among dst (d + n + n + g) n).
Proof.
  intros N crc fcs tx_time has_mob pos seconds calls h w c d id sats gws uts w1 ops w2 RE E T VA R1 F R2 n g u.
  destruct (C67_networks N crc fcs tx_time has_mob pos seconds calls h w c d id sats gws uts E T VA) as (w' & R1' & NW & _).
  rewrite R1 in R1'. injection R1' as <-.
  eapply (networks_traffic crc fcs tx_time has_mob); [|exact NW| |exact R2].
  - apply (reachable_indexed crc fcs tx_time has_mob). destruct RE as (dk & ck & l & RE). exists dk, ck, (l ++ stack_devices pos seconds h c d id sats gws uts).
    rewrite run_app, RE. cbn [bind]. exact R1.
  - eapply Forall_impl; [|exact F]. intros o Ho. destruct o; try destruct Ho; try reflexivity.
Qed.
Print Assumptions C67_separate.

Definition ex_ops : list (op NumZ) :=
  [OSend 0 (packet 1) (Mac broadcast) 2048; OSend 2 (packet 2) (Mac broadcast) 2048; OSend 4 (packet 3) (Mac broadcast) 2048;
   OSend 7 (packet 4) (Mac 107) 2048; ORun; ORun; ORun; ORun; ORun; ORun].
Definition heard {N : Num} (w : world N) : list (nat * nat * nat) :=
  flat_map (fun x => match snd x with TxRx c p src dst tx delay => [(c, src, dst)] | _ => [] end) (w_log w).
Example ex_C67 : (forall x, In x ex_calls -> leaves_types x) /\ vacant ex_start 0 0 100 [10; 11]%nat [12]%nat [13; 14]%nat /\
  reachable ex_crc true ex_tx ex_mob ex_start /\ Forall ordinary ex_ops /\
  holds (fun h => holds (fun w => holds (fun w2 => heard w2 = [(0, 0, 1); (1, 2, 4); (1, 4, 2); (1, 4, 3); (2, 7, 5); (2, 7, 6)]%nat)
     (run ex_crc true ex_tx ex_mob w ex_ops))
     (run ex_crc true ex_tx ex_mob ex_start (stack_devices ex_pos ex_seconds h 0 0 100 [10; 11]%nat [12]%nat [13; 14]%nat)))
    (stack_helper_calls (new_stack_helper ex_pos ex_seconds) ex_calls).
Proof.
  split; [|split; [exact (proj1 (proj2 ex_C66))|split; [|split]]].
  - intros c H. cbn in H. destruct H as [<-|[<-|[<-|[<-|[<-|[<-|[<-|[]]]]]]]]; exact I.
  - exists (fun d => (1 <? d)%nat), (fun c => if (c =? 0)%nat then IslChannel else LeoChannel), []. reflexivity.
  - repeat constructor; unfold broadcast; cbn [length p_bytes packet]; lia.
  - vm_compute. reflexivity.
Qed.

(** ** C68: the ARP caches after Install *)
(** Nodes that are all different and have neither devices nor a stack yet. *)
Definition bare (count : nat -> nat) (has : nat -> bool) (nodes : list nat) : Prop :=
  NoDup nodes /\ forall x, In x nodes -> count x = 0%nat /\ has x = false.

(** What Install writes: in each network every device gets one entry, for the
    address of the interface that has the number of the peers' device index. *)
Definition expected (d : nat) (id : Z) (ip : nat -> Z) (n g u : nat) (s : caches) : caches :=
  let mac k := id + 1 + Z.of_nat k in
  let s1 := if (2 <=? n)%nat
            then primed (primed s d (n - 1) (ip 0%nat) (mac (n - 1)%nat)) (d + n - 1) 1 (ip 0%nat) (mac (n - 2)%nat) else s in
  let s2 := if (0 <? n)%nat && (0 <? g)%nat
            then primed (primed s1 (d + n) n (ip n) (mac (n + n + g - 1)%nat)) (d + n + n) g (ip (n + 1)%nat) (mac (n + n - 1)%nat) else s1 in
  if (0 <? n)%nat && (0 <? u)%nat
  then primed (primed s2 (d + n + n + g) n (ip (n + n + g)%nat) (mac (n + n + g + n + u - 1)%nat))
              (d + n + n + g + n) u (ip (n + n + g + 2)%nat) (mac (n + n + g + n - 1)%nat) else s2.

Lemma primed_ext : forall s s' f k x m, (forall c y, s c y = s' c y) -> forall c y, primed s f k x m c y = primed s' f k x m c y.
Proof. intros s s' f k x m H c y. unfold primed. rewrite H. reflexivity. Qed.

Lemma firstn_exact : forall (A : Type) (a b : list A), firstn (length a) (a ++ b) = a.
Proof. intros A a b. rewrite firstn_app, Nat.sub_diag, firstn_O, app_nil_r, firstn_all. reflexivity. Qed.
Lemma skipn_exact : forall (A : Type) (a b : list A), skipn (length a) (a ++ b) = b.
Proof. intros A a b. rewrite skipn_app, Nat.sub_diag, skipn_all. reflexivity. Qed.

Theorem C68_caches : forall (N : Num) crc fcs tx_time has_mob pos seconds (calls : list (stack_call N)) h w c d id sats gws uts count has ip s,
  stack_helper_calls (new_stack_helper pos seconds) calls = Ok h -> (forall x, In x calls -> leaves_types x) ->
  vacant w c d id sats gws uts -> bare count has (sats ++ gws ++ uts) ->
  let n := length sats in
  let g := length gws in
  let u := length uts in
  let result := stack_install pos seconds crc fcs tx_time has_mob h c d id count has ip sats gws uts w s in
  (n = 1%nat /\ u = 1%nat -> result = UB OutOfRange) /\
  (~ (n = 1%nat /\ u = 1%nat) -> exists w' s', result = Ok (w', s') /\ networks w' c d id sats gws uts /\
     forall k x, s' k x = expected d id ip n g u s k x).
Proof.
  intros N crc fcs tx_time has_mob pos seconds calls h w c d id sats gws uts count has ip s E T VA [ND BA] n g u result. subst result.
  destruct (C67_networks N crc fcs tx_time has_mob pos seconds calls h w c d id sats gws uts E T VA) as (w' & RUN & NW & _).
  unfold stack_install. rewrite RUN. cbn [bind].
  destruct (install_stack_spec (sats ++ gws ++ uts) has) as [ST _]. destruct ST as (has' & ->); [split; [assumption|intros x Hx; apply BA; assumption]|]. cbn [bind].
  assert (IX : device_indices count (sats ++ (sats ++ gws) ++ (sats ++ uts)) =
     repeat 0%nat n ++ (repeat 1%nat n ++ repeat 0%nat g) ++ (repeat 2%nat n ++ repeat 0%nat u)).
  { rewrite (device_indices_ext_in _ count (fun _ => O)); [apply fresh_indices; assumption|].
    intros x Hx. apply BA. rewrite !in_app_iff in *. tauto. }
  rewrite IX. fold n g u.
  set (A0 := repeat 0%nat n). set (A1 := repeat 1%nat n ++ repeat 0%nat g). set (A2 := repeat 2%nat n ++ repeat 0%nat u).
  assert (LA0 : length A0 = n) by apply repeat_length.
  assert (LA1 : length A1 = (n + g)%nat) by (unfold A1; rewrite app_length, !repeat_length; reflexivity).
  assert (LA2 : length A2 = (n + u)%nat) by (unfold A2; rewrite app_length, !repeat_length; reflexivity).
  replace (firstn n (A0 ++ A1 ++ A2)) with A0 by (rewrite <- LA0 at 1; symmetry; apply firstn_exact).
  replace (skipn n (A0 ++ A1 ++ A2)) with (A1 ++ A2) by (rewrite <- LA0 at 1; symmetry; apply skipn_exact).
  replace (firstn (n + g) (A1 ++ A2)) with A1 by (rewrite <- LA1 at 1; symmetry; apply firstn_exact).
  replace (skipn (n + (n + g)) (A0 ++ A1 ++ A2)) with A2
    by (rewrite app_assoc; replace (n + (n + g))%nat with (length (A0 ++ A1)) by (rewrite app_length; lia); symmetry; apply skipn_exact).
  destruct NW as (V1 & V2 & V3 & V4 & V5 & NW') eqn:NWE. clear NWE. assert (NW2 : networks w' c d id sats gws uts) by (repeat (split; [assumption|]); assumption).
  fold n g u in V1, V2, V3, V4, V5. clear NW'.
  assert (AT : forall (l : list nat) i, (i < length l)%nat -> exists node, nth_error l i = Some node).
  { intros l i Hi. destruct (nth_error l i) eqn:X; [eauto|]. apply nth_error_None in X. lia. }
  assert (LE : forall d0 l i e, nth_error (endpoints w' d0 l) i = Some e -> (i < length l)%nat).
  { intros d0 l i e H. rewrite <- (endpoints_length w' d0). apply nth_error_Some. congruence. }
  assert (MESH : mesh_net (endpoints w' d A0) d n 0 (fun i => id + 1 + Z.of_nat i)).
  { split; [rewrite endpoints_length; assumption|]. intros i e He. pose proof (LE _ _ _ _ He) as Hi. rewrite LA0 in Hi.
    apply nth_endpoints in He as (x & Hx & ->). destruct (AT sats i Hi) as (node & Hn). destruct (V1 i node Hn) as (_ & Q1 & Q2 & _).
    unfold addr_of. rewrite Q1, Q2. apply nth_error_In, repeat_spec in Hx. rewrite Hx. reflexivity. }
  assert (GW : star_net (endpoints w' (d + n) A1) (d + n) n g 1 0 (fun i => id + 1 + Z.of_nat (n + i))).
  { split; [rewrite endpoints_length; assumption|]. intros i e He. pose proof (LE _ _ _ _ He) as Hi. rewrite LA1 in Hi.
    apply nth_endpoints in He as (x & Hx & ->). apply nth_repeat2 in Hx as ->. unfold addr_of. destruct (Nat.ltb_spec i n).
    - destruct (AT sats i) as (node & Hn); [assumption|]. destruct (V2 i node Hn) as (_ & Q1 & Q2 & _). rewrite Q1, Q2. reflexivity.
    - destruct (AT gws (i - n)%nat) as (node & Hn); [fold g; lia|]. destruct (V3 _ node Hn) as (_ & Q1 & Q2 & _).
      replace (d + n + n + (i - n))%nat with (d + n + i)%nat in Q1, Q2 by lia. rewrite Q1, Q2. f_equal. lia. }
  assert (UT : star_net (endpoints w' (d + n + n + g) A2) (d + n + n + g) n u 2 0 (fun i => id + 1 + Z.of_nat (n + n + g + i))).
  { split; [rewrite endpoints_length; assumption|]. intros i e He. pose proof (LE _ _ _ _ He) as Hi. rewrite LA2 in Hi.
    apply nth_endpoints in He as (x & Hx & ->). apply nth_repeat2 in Hx as ->. unfold addr_of. destruct (Nat.ltb_spec i n).
    - destruct (AT sats i) as (node & Hn); [assumption|]. destruct (V4 i node Hn) as (_ & Q1 & Q2 & _). rewrite Q1, Q2. reflexivity.
    - destruct (AT uts (i - n)%nat) as (node & Hn); [fold u; lia|]. destruct (V5 _ node Hn) as (_ & Q1 & Q2 & _).
      replace (d + n + n + g + n + (i - n))%nat with (d + n + n + g + i)%nat in Q1, Q2 by lia. rewrite Q1, Q2. f_equal. lia. }
  assert (S1 : exists s1, arp_install (endpoints w' d A0) (assigned ip 0 n) s = Ok s1 /\ forall k x, s1 k x =
     (if (2 <=? n)%nat then primed (primed s d (n - 1) (ip 0%nat) (id + 1 + Z.of_nat (n - 1))) (d + n - 1) 1 (ip 0%nat) (id + 1 + Z.of_nat (n - 2)) else s) k x).
  { destruct (Nat.leb_spec 2 n).
    - exact (mesh_arp _ _ _ _ _ ip 0 s MESH ltac:(lia) ltac:(lia)).
    - exact (mesh_single _ _ _ _ _ _ s MESH ltac:(lia)). }
  destruct S1 as (s1 & -> & S1). cbn [bind].
  assert (FLAT : forall dd m k0 ks kg mac ii (l : list endpoint) s0, star_net l dd n m ks kg mac -> (n = 0 \/ m = 0)%nat ->
     exists s', arp_install l (assigned ip k0 ii) s0 = Ok s' /\ forall c y, s' c y = s0 c y).
  { intros dd m k0 ks kg mac ii l s0 [LEN NET] [Z0|Z0].
    - apply (arp_same_kind l _ s0 Gnd); [discriminate|]. intros e He. apply In_nth_error in He as (i & Hi). rewrite (NET i e Hi), Z0. split; reflexivity.
    - apply (arp_same_kind l _ s0 Sat); [discriminate|]. intros e He. apply In_nth_error in He as (i & Hi).
      assert (i < n)%nat by (rewrite Z0, Nat.add_0_r in LEN; rewrite <- LEN; apply nth_error_Some; congruence).
      rewrite (NET i e Hi). cbn [e_kind e_interface]. replace (i <? n)%nat with true by lia. split; reflexivity. }
  set (e1 := if (2 <=? n)%nat then _ else s) in S1.
  assert (S2 : exists s2, arp_install (endpoints w' (d + n) A1) (assigned ip n (n + g)) s1 = Ok s2 /\ forall k x, s2 k x =
     (if (0 <? n)%nat && (0 <? g)%nat then primed (primed e1 (d + n) n (ip n) (id + 1 + Z.of_nat (n + n + g - 1))) (d + n + n) g (ip (n + 1)%nat) (id + 1 + Z.of_nat (n + n - 1)) else e1) k x).
  { destruct ((0 <? n)%nat && (0 <? g)%nat) eqn:B.
    - destruct (star_arp _ _ _ _ _ _ _ ip n s1 GW) as (s2 & R2 & P2); try lia. exists s2. split; [exact R2|]. intros k x. rewrite P2, Nat.add_0_r.
      replace (n + (n + g - 1))%nat with (n + n + g - 1)%nat by lia. replace (n + (n - 1))%nat with (n + n - 1)%nat by lia.
      apply primed_ext. intros k1 x1. apply primed_ext. exact S1.
    - destruct (FLAT _ _ n _ _ _ (n + g)%nat _ s1 GW) as (s2 & R2 & P2); [lia|]. exists s2. split; [exact R2|]. intros k x. rewrite P2. apply S1. }
  destruct S2 as (s2 & -> & S2). cbn [bind].
  set (e2 := if _ && _ then _ else e1) in S2.
  split.
  - intros [N1 U1]. rewrite N1, U1 in UT |- *. rewrite (pair_arp _ _ _ _ _ ip _ s2 UT) by lia. reflexivity.
  - intros NB.
    assert (S3 : exists s3, arp_install (endpoints w' (d + n + n + g) A2) (assigned ip (n + n + g) (n + u)) s2 = Ok s3 /\
       forall k x, s3 k x = expected d id ip n g u s k x).
    { unfold expected. fold e1. fold e2. destruct ((0 <? n)%nat && (0 <? u)%nat) eqn:B.
      - destruct (star_arp _ _ _ _ _ _ _ ip (n + n + g) s2 UT) as (s3 & R3 & P3); try lia. exists s3. split; [exact R3|]. intros k x. rewrite P3, Nat.add_0_r.
        replace (n + n + g + (n + u - 1))%nat with (n + n + g + n + u - 1)%nat by lia. replace (n + n + g + (n - 1))%nat with (n + n + g + n - 1)%nat by lia.
        apply primed_ext. intros k1 x1. apply primed_ext. exact S2.
      - destruct (FLAT _ _ (n + n + g)%nat _ _ _ (n + u)%nat _ s2 UT) as (s3 & R3 & P3); [lia|]. exists s3. split; [exact R3|]. intros k x. rewrite P3. apply S2. }
    destruct S3 as (s3 & -> & S3). cbn [bind]. exists w', s3. split; [reflexivity|]. split; [exact NW2|exact S3].
Qed.
Print Assumptions C68_caches.

(** A node that occurs twice, or has a stack already, aborts the installation. *)
Theorem C68_stack_once : forall (N : Num) crc fcs tx_time has_mob pos seconds (calls : list (stack_call N)) h w c d id sats gws uts count has ip s,
  stack_helper_calls (new_stack_helper pos seconds) calls = Ok h -> (forall x, In x calls -> leaves_types x) ->
  vacant w c d id sats gws uts ->
  ~ (NoDup (sats ++ gws ++ uts) /\ forall x, In x (sats ++ gws ++ uts) -> has x = false) ->
  stack_install pos seconds crc fcs tx_time has_mob h c d id count has ip sats gws uts w s = Abort AssertFailed.
Proof.
  intros N crc fcs tx_time has_mob pos seconds calls h w c d id sats gws uts count has ip s E T VA BAD.
  destruct (C67_networks N crc fcs tx_time has_mob pos seconds calls h w c d id sats gws uts E T VA) as (w' & RUN & _).
  unfold stack_install. rewrite RUN. cbn [bind]. rewrite (proj2 (install_stack_spec (sats ++ gws ++ uts) has) BAD). reflexivity.
Qed.
Print Assumptions C68_stack_once.

(** Unless there are exactly two satellites no gateway resolves the address of any
    satellite, and satellites never resolve the address of a gateway. *)
Theorem C68_unresolved : forall (N : Num) crc fcs tx_time has_mob pos seconds (calls : list (stack_call N)) h w c d id sats gws uts count has ip w' s',
  stack_helper_calls (new_stack_helper pos seconds) calls = Ok h -> (forall x, In x calls -> leaves_types x) ->
  vacant w c d id sats gws uts -> bare count has (sats ++ gws ++ uts) ->
  (forall i j, ip i = ip j -> i = j) ->
  stack_install pos seconds crc fcs tx_time has_mob h c d id count has ip sats gws uts w (fun _ _ => None) = Ok (w', s') ->
  let n := length sats in
  forall i j, (i < n)%nat -> (j < length gws)%nat ->
  (* satellite i and gateway j *)
  s' (d + n + i)%nat (ip (n + n + j)%nat) = None /\
  (n <> 2%nat -> s' (d + n + n + j)%nat (ip (n + i)%nat) <> Some (addr_of w' (d + n + i))).
Proof.
  intros N crc fcs tx_time has_mob pos seconds calls h w c d id sats gws uts count has ip w' s' E T VA BA INJ RUN n i j Hi Hj.
  destruct (C68_caches N crc fcs tx_time has_mob pos seconds calls h w c d id sats gws uts count has ip (fun _ _ => None) E T VA BA) as [UBC OKC].
  fold n in UBC, OKC. set (g := length gws) in *. set (u := length uts) in *.
  destruct (Nat.eq_dec n 1) as [N1|N1]; [destruct (Nat.eq_dec u 1) as [U1|U1]; [rewrite UBC in RUN by auto; discriminate|]|].
  all: destruct OKC as (w2 & s2 & R2 & NW & EX); [lia|]; rewrite RUN in R2; injection R2 as <- <-; rewrite !EX.
  all: assert (AD : addr_of w' (d + n + i) = id + 1 + Z.of_nat (n + i)) by
    (destruct NW as (_ & V2 & _); destruct (nth_error sats i) as [node|] eqn:Hn; [|apply nth_error_None in Hn; fold n in Hn; lia];
     destruct (V2 i node Hn) as (_ & Q & _); exact Q).
  all: rewrite AD.
  all: assert (BR : forall f k m a b, (((f <=? m)%nat && (m <? f + k)%nat) && (ip a =? ip b)) = true -> (f <= m < f + k)%nat /\ a = b)
    by (intros f k m a b X; apply andb_prop in X as [X1 X2]; apply Z.eqb_eq, INJ in X2; lia).
  all: unfold expected, primed; split; [|intros N2].
  all: repeat match goal with |- context [if ?b then _ else _] => destruct b eqn:? end.
  all: repeat match goal with X : (_ && (_ =? _)) = true |- _ => apply BR in X end.
  all: try reflexivity; try discriminate; try (exfalso; lia); intros Y; injection Y as Y; lia.
Qed.
Print Assumptions C68_unresolved.

(** Three satellites, two gateways and a terminal. *)
Definition ex_ip (k : nat) : Z := 1000 + Z.of_nat k.
Definition ex_big : world NumZ := initial (fun d => (2 <? d)%nat) (fun c => if (c =? 0)%nat then IslChannel else LeoChannel).
Definition ex_install (sats gws uts : list nat) (s : caches) :=
  bind (stack_helper_calls (new_stack_helper ex_pos ex_seconds) ex_calls) (fun h =>
    stack_install ex_pos ex_seconds ex_crc true ex_tx ex_mob h 0 0 100 (fun _ => O) (fun _ => false) ex_ip sats gws uts ex_big s).
Example ex_C68 : vacant ex_big 0 0 100 [10; 11; 12]%nat [13; 14]%nat [15]%nat /\
  bare (fun _ => O) (fun _ => false) ([10; 11; 12] ++ [13; 14] ++ [15])%nat /\
  (forall i j, ex_ip i = ex_ip j -> i = j) /\
  holds (fun x => map (fun k => snd x k (ex_ip 0)) (seq 0 3) = [Some 103; Some 103; Some 102] /\
                  map (fun k => snd x k (ex_ip 3)) (seq 3 5) = [Some 108; Some 108; Some 108; None; None] /\
                  map (fun k => snd x k (ex_ip 4)) (seq 3 5) = [None; None; None; Some 106; Some 106] /\
                  snd x 11%nat (ex_ip 10) = Some 111)
        (ex_install [10; 11; 12]%nat [13; 14]%nat [15]%nat (fun _ _ => None)).
Proof.
  split; [|split; [|split]].
  - unfold vacant. cbn [length]. repeat split; try lia.
    + intros [|[|[|i]]] Hi; try lia; reflexivity.
    + intros [|[|[|i]]] Hi; try lia. reflexivity.
  - split; [|intros; split; reflexivity]. repeat constructor; cbn; lia.
  - unfold ex_ip. lia.
  - vm_compute. repeat split.
Qed.
Definition ex_small : world NumZ := initial (fun d => (0 <? d)%nat) (fun c => if (c =? 0)%nat then IslChannel else LeoChannel).
Example ex_C68_pair :
  bind (stack_helper_calls (new_stack_helper ex_pos ex_seconds) ex_calls) (fun h =>
    stack_install ex_pos ex_seconds ex_crc true ex_tx ex_mob h 0 0 100 (fun _ => O) (fun _ => false) ex_ip [10]%nat [11]%nat [12]%nat ex_small (fun _ _ => None))
  = UB OutOfRange /\
  bind (stack_helper_calls (new_stack_helper ex_pos ex_seconds) ex_calls) (fun h =>
    stack_install ex_pos ex_seconds ex_crc true ex_tx ex_mob h 0 0 100 (fun _ => O) (fun _ => false) ex_ip [10]%nat [10]%nat [] ex_small (fun _ _ => None))
  = Abort AssertFailed.
Proof. split; vm_compute; reflexivity. Qed.
