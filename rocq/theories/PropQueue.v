(** C89: how long a packet waits at a device, and how much a device can carry. *)
Require Import ZArith List Bool Lia.
Require Import Verif.Base Verif.Num Verif.FrameModel Verif.NetModel Verif.NetSpec Verif.HeardSpec Verif.QueueSpec Verif.NetSteps Verif.NetInv
  Verif.NetTxProofs Verif.NetHeardProofs Verif.QueueProofs Verif.HelperModel Verif.NetExamples Verif.PropTx.
Import ListNotations.
Local Open Scope Z_scope.

(** A device with room for [limit] packets and slots of at most [longest]: an accepted
    packet is transmitted, whole and unchanged, at the latest when [limit] slots have
    passed. [w0] is any state in which nothing was accepted yet. *)
Theorem C89_waiting : forall (N : Num) crc fcs tx_time has_mob (w0 : world N) d admit limit longest ops w new,
  reachable crc fcs tx_time has_mob w0 -> NetSpec.accepted crc fcs d (w_log w0) = [] ->
  d_queue (w_dev w0 d) = Some admit -> holds_at_most limit admit -> 0 <= longest ->
  NetModel.run crc fcs tx_time has_mob w0 ops = Ok w -> w_log w = w_log w0 ++ new ->
  (forall t, ~ In (t, QueueSet d) new) -> (forall x, In x (transmissions d new) -> slot x <= longest) ->
  forall i a f, nth_error (NetSpec.accepted crc fcs d (w_log w)) i = Some (a, f) ->
  match nth_error (transmissions d (w_log w)) i with
  | Some x => sent_frame x = f /\ a <= begins x <= a + Z.of_nat limit * longest
  | None => a <= w_now w <= a + Z.of_nat limit * longest
  end.
Proof. intros. eapply waiting_bound; eassumption. Qed.
Print Assumptions C89_waiting.

(** The bound is reached: two packets wait behind a transmission, the last one for
    the whole of two slots. *)
Example ex_C89_waiting : holds (fun w =>
    map fst (NetSpec.accepted ex_crc true 0 (w_log w)) = [0; 0; 0] /\
    map begins (transmissions 0 (w_log w)) = [0; 64000000; 128000000] /\ map slot (transmissions 0 (w_log w)) = repeat 64000000 3)
  (after true (ex_busy ++ repeat ORun 4)) /\
  holds (fun w0 => NetSpec.accepted ex_crc true 0 (w_log w0) = [] /\ exists admit, d_queue (w_dev w0 0%nat) = Some admit /\ holds_at_most 2 admit /\
    holds (fun w => forall t, ~ In (t, QueueSet 0) (skipn (length (w_log w0)) (w_log w)))
      (NetModel.run ex_crc true ex_tx ex_mob w0 (skipn (length (@isl3 NumZ 0)) ex_busy))) (after true (isl3 0)).
Proof.
  split; [vm_compute; auto|]. 
  apply holds_imp with (P := fun w0 => NetSpec.accepted ex_crc true 0 (w_log w0) = [] /\
    (exists admit, d_queue (w_dev w0 0%nat) = Some admit /\ admit = (fun q _ => (length q <? 2)%nat)) /\
    holds (fun w => forallb (fun x => match snd x with QueueSet 0 => false | _ => true end) (skipn (length (w_log w0)) (w_log w)) = true)
      (NetModel.run ex_crc true ex_tx ex_mob w0 (skipn (length (@isl3 NumZ 0)) ex_busy))).
  { vm_compute. split; [reflexivity|]. split; [eexists; split; reflexivity|reflexivity]. }
  intros w0 (H1 & (admit & H2 & ->) & H3). split; [exact H1|]. eexists. split; [exact H2|]. split.
  - intros q f H. apply PeanoNat.Nat.ltb_lt in H. exact H.
  - eapply holds_imp; [exact H3|]. intros w H t HI. rewrite forallb_forall in H. specialize (H _ HI). discriminate.
Qed.

(** The queues that the helpers install: 100 packets. *)
Theorem C89_default_room : holds_at_most 100 (drop_tail 100) /\ forall n, ~ holds_at_most n (drop_tail (S n)).
Proof.
  split.
  - intros q f H. unfold drop_tail in H. apply PeanoNat.Nat.ltb_lt in H. exact H.
  - intros n H. specialize (H (repeat (mkPkt 0 []) n) (mkPkt 0 [])). unfold drop_tail in H. rewrite repeat_length in H.
    assert (n < n)%nat by (apply H; apply PeanoNat.Nat.ltb_lt; lia). lia.
Qed.
Print Assumptions C89_default_room.

(** Packets that come slowly enough do not wait at all. *)
Theorem C89_no_waiting : forall (N : Num) crc fcs tx_time has_mob (w : world N),
  reachable crc fcs tx_time has_mob w -> forall d, queue_kept crc fcs d (w_log w) ->
  spaced (NetSpec.accepted crc fcs d (w_log w)) (map slot (transmissions d (w_log w))) ->
  map begins (transmissions d (w_log w)) =
  map fst (firstn (length (transmissions d (w_log w))) (NetSpec.accepted crc fcs d (w_log w))).
Proof.
  intros N crc fcs tx_time has_mob w R d K S. pose proof (C36_begin_times N crc fcs tx_time has_mob w R d K) as H.
  unfold begins. rewrite H. change (fun x : Z * pkt * Z => snd x) with slot in *.
  change (map snd (transmissions d (w_log w))) with (map slot (transmissions d (w_log w))).
  rewrite (first_come_spaced _ _ None S I). rewrite map_length. reflexivity.
Qed.
Print Assumptions C89_no_waiting.

Definition ex_slow : list (op NumZ) := isl3 0 ++
  [OSend 0 (packet 7) (Mac 2) 2048; ORun; ORun; OSend 0 (packet 8) (Mac 3) 2048; OAdvance 5; ORun; ORun; OSend 0 (packet 9) (Mac 2) 2048].
Example ex_C89_no_waiting : holds (fun w =>
    spaced (NetSpec.accepted ex_crc true 0 (w_log w)) (map slot (transmissions 0 (w_log w))) /\
    map begins (transmissions 0 (w_log w)) = [0; 64000000; 128000000]) (after true ex_slow).
Proof. vm_compute. intuition discriminate. Qed.

(** ** Capacity *)
(** Transmissions one after the other: between the first and the last there is time for
    all but the last. *)
Theorem C89_slots : forall (N : Num) crc fcs tx_time has_mob (w : world N), reachable crc fcs tx_time has_mob w ->
  forall d l1 x l2 y l3, transmissions d (w_log w) = l1 ++ x :: l2 ++ y :: l3 ->
  total_slots (x :: l2) <= begins y - begins x.
Proof. intros. eapply slots_sum; eassumption. Qed.
Print Assumptions C89_slots.

(** While devices stay as configured, slots are given by the rate and the gap. *)
Lemma traffic_slots : forall (N : Num) crc fcs tx_time has_mob ops (w0 w : world N) new d,
  reachable crc fcs tx_time has_mob w0 -> Forall traffic ops -> NetModel.run crc fcs tx_time has_mob w0 ops = Ok w ->
  w_log w = w_log w0 ++ new -> forall x, In x (transmissions d new) ->
  slot x = tx_time (g_bps (d_cfg (w_dev w0 d))) (Z.of_nat (length (p_bytes (sent_frame x)))) + g_gap (d_cfg (w_dev w0 d)).
Proof.
  intros N crc fcs tx_time has_mob. induction ops as [|o ops IH]; intros w0 w new d R F H LG x HI.
  - injection H as <-. rewrite <- (app_nil_r (w_log w0)) in LG at 1. apply app_inv_head in LG. subst new. destruct HI.
  - inversion F as [|? ? F1 F2]; subst. cbn in H. apply bind_ok in H as (w1 & H1 & H).
    pose proof (reachable_step crc fcs tx_time has_mob w0 o w1 R H1) as R1.
    destruct (C36_durations N crc fcs tx_time has_mob w0 o w1 R H1) as (l1 & L1 & DU).
    destruct (run_extends crc fcs tx_time has_mob ops w1 w R1 H) as (l2 & L2).
    assert (new = l1 ++ l2) as -> by (rewrite L2, L1, <- app_assoc in LG; apply app_inv_head in LG; congruence).
    rewrite transmissions_app in HI. apply in_app_or in HI as [HI|HI].
    + apply in_split in HI as (k1 & k2 & HI). apply transmissions_split in HI as (m1 & m2 & c & dest & tx & gap & -> & S1 & _ & _).
      destruct (DU (begins x) d c (sent_frame x) dest tx gap) as (_ & -> & -> & _); [apply in_or_app; right; left; reflexivity|]. exact S1.
    + destruct (traffic_step crc fcs tx_time has_mob w0 o w1 (proj2 (reachable_transmitter crc fcs tx_time has_mob 0 w0 R)) F1 H1) as [[_ K] _].
      destruct (K d) as [K1 _]. rewrite (IH w1 w l2 d R1 F2 H L2 x HI). rewrite K1. reflexivity.
Qed.

(** From the start of one transmission to the start of a later one, a device sends no
    more bits than its data rate allows, up to the rounding of every transmission time
    to a nanosecond. *)
Theorem C89_throughput : forall (N : Num) crc fcs tx_time has_mob ops (w0 w : world N) new d,
  reachable crc fcs tx_time has_mob w0 -> Forall traffic ops -> NetModel.run crc fcs tx_time has_mob w0 ops = Ok w ->
  w_log w = w_log w0 ++ new -> by_rate tx_time ->
  let g := d_cfg (w_dev w0 d) in 0 < g_bps g ->
  forall l1 x l2 y l3, transmissions d new = l1 ++ x :: l2 ++ y :: l3 ->
  8 * total_bytes (x :: l2) * 1000000000 <=
  g_bps g * (begins y - begins x + Z.of_nat (length (x :: l2)) * (1 - g_gap g)).
Proof.
  intros N crc fcs tx_time has_mob ops w0 w new d R F H LG BR g GP l1 x l2 y l3 HT.
  pose proof (reachable_run crc fcs tx_time has_mob w0 ops w R H) as RW.
  assert (HS : total_slots (x :: l2) <= begins y - begins x).
  { eapply (C89_slots N crc fcs tx_time has_mob w RW d (transmissions d (w_log w0) ++ l1)).
    rewrite LG, transmissions_app, HT, <- app_assoc. reflexivity. }
  assert (HA : forall z, In z (x :: l2) -> slot z = tx_time (g_bps g) (Z.of_nat (length (p_bytes (sent_frame z)))) + g_gap g).
  { intros z Hz. eapply traffic_slots; try eassumption. rewrite HT. apply in_or_app. right.
    change (x :: l2 ++ y :: l3) with ((x :: l2) ++ y :: l3). apply in_or_app. left. exact Hz. }
  assert (G : forall l, (forall z, In z l -> slot z = tx_time (g_bps g) (Z.of_nat (length (p_bytes (sent_frame z)))) + g_gap g) ->
    8 * total_bytes l * 1000000000 <= g_bps g * (total_slots l + Z.of_nat (length l) * (1 - g_gap g))).
  { induction l as [|z l IH]; intros HZ; [cbn; lia|].
    specialize (IH (fun z' Hz => HZ z' (or_intror Hz))). pose proof (HZ z (or_introl eq_refl)) as Z1.
    pose proof (BR (g_bps g) (Z.of_nat (length (p_bytes (sent_frame z)))) GP ltac:(lia)) as B1.
    cbn [total_bytes total_slots fold_right length]. fold (total_bytes l). fold (total_slots l). rewrite Z1. nia. }
  specialize (G _ HA). eapply Z.le_trans; [exact G|]. apply Z.mul_le_mono_nonneg_l; lia.
Qed.
Print Assumptions C89_throughput.

Lemma ex_rate : by_rate ex_tx.
Proof.
  intros bps n H0 Hn. unfold ex_tx. pose proof (Z.mul_succ_div_gt (8 * n * 1000000000) bps H0). unfold Z.succ in *. lia.
Qed.
(** Two frames of 64 bytes in 128 ms at 8 kbit/s: the rate is used to the full. *)
Example ex_C89_throughput : holds (fun w => map begins (transmissions 0 (w_log w)) = [0; 64000000; 128000000] /\
    total_bytes (firstn 2 (transmissions 0 (w_log w))) = 128 /\
    8 * total_bytes (firstn 2 (transmissions 0 (w_log w))) * 1000000000 = 8000 * 128000000 /\ g_bps (d_cfg (w_dev w 0%nat)) = 8000)
  (after true (ex_busy ++ repeat ORun 4)) /\ Forall (@traffic NumZ) (skipn (length (@isl3 NumZ 0)) (ex_busy ++ repeat ORun 4)).
Proof. split; [vm_compute; auto|]. cbn. repeat constructor. Qed.
