(** C72, C73: whole runs. Every network comes to rest, and what is transmitted
    arrives. *)
Require Import ZArith List Bool Lia Permutation.
Require Import Verif.Base Verif.Num Verif.FrameModel Verif.NetModel Verif.DeviceApiModel Verif.NetSpec Verif.NetRunSpec Verif.NetSteps Verif.NetInv
  Verif.NetTxProofs Verif.NetSendProofs Verif.NetChanProofs Verif.NetOrderProofs Verif.NetDrainProofs
  Verif.NetExamples Verif.LossModel Verif.HelperModel Verif.HelperSpec Verif.PropTx Verif.PropChan Verif.PropHelper.
Import ListNotations.
Local Open Scope Z_scope.

(** ** C72: without further calls the simulation ends, with everything done *)
Lemma ended_begun : forall d l, closed (tx_marks d l) -> ended d l = begun d l.
Proof.
  intros d l H.
  assert (B : begun d l = map snd (filter fst (tx_marks d l))).
  { clear H. induction l as [|[t o] r IH]; [reflexivity|]. unfold begun, tx_marks in *. cbn [flat_map snd]. rewrite filter_app, map_app, <- IH.
    destruct o; try reflexivity; destruct (Nat.eqb _ _); reflexivity. }
  assert (E : ended d l = map snd (filter (fun x => negb (fst x)) (tx_marks d l))).
  { clear H B. induction l as [|[t o] r IH]; [reflexivity|]. unfold ended, tx_marks in *. cbn [flat_map snd]. rewrite filter_app, map_app, <- IH.
    destruct o; try reflexivity; destruct (Nat.eqb _ _); reflexivity. }
  rewrite B, E. clear B E. induction H as [|p m H IH]; [reflexivity|]. cbn. f_equal. exact IH.
Qed.

Theorem C72_comes_to_rest : forall (N : Num) crc fcs tx_time has_mob (w : world N), reachable crc fcs tx_time has_mob w ->
  exists n, (forall m, run crc fcs tx_time has_mob w (repeat ORun (n + m)) = run crc fcs tx_time has_mob w (repeat ORun n)) /\
  forall w', run crc fcs tx_time has_mob w (repeat ORun n) = Ok w' ->
    at_rest w' /\ Permutation (scheduled (w_log w')) (performed (w_log w')) /\
    (forall d, ended d (w_log w') = begun d (w_log w')) /\
    (forall d, queue_kept crc fcs d (w_log w') -> map snd (accepted crc fcs d (w_log w')) = begun d (w_log w')).
Proof.
  intros N crc fcs tx_time has_mob w R. destruct (drain crc fcs tx_time has_mob w R) as (n & D). exists n. split.
  - intros m. rewrite repeat_app, run_app. destruct (run crc fcs tx_time has_mob w (repeat ORun n)) as [w'|e|e]; try reflexivity.
    cbn. apply stays_at_rest, D.
  - intros w' H. rewrite H in D. destruct D as [R' E]. pose proof (resting crc fcs tx_time has_mob w' R' E) as [_ Q].
    split; [split; assumption|]. split; [|split].
    + pose proof (C46_receptions_conserved N crc fcs tx_time has_mob w' R') as [P _]. rewrite E, app_nil_r in P. exact P.
    + intros d. apply ended_begun. destruct (reachable_records crc fcs tx_time has_mob d w' R') as ((M & CM & EM) & _).
      destruct (Q d) as [B _]. rewrite B, app_nil_r in EM. rewrite EM. exact CM.
    + intros d K. rewrite (C35_accepted_in_order N crc fcs tx_time has_mob w' R' d K). destruct (Q d) as [_ ->]. apply app_nil_r.
Qed.
Print Assumptions C72_comes_to_rest.

(** Three packets accepted and one refused: after four events all is done. *)
Example ex_C72 : holds (fun w => w_events w <> []) (after true ex_busy) /\
  holds (fun w => w_events w = [] /\ begun 0 (w_log w) = ended 0 (w_log w) /\ map p_uid (begun 0 (w_log w)) = [7; 8; 9] /\
                  map p_uid (map snd (accepted ex_crc true 0 (w_log w))) = [7; 8; 9] /\ length (performed (w_log w)) = 3%nat)
    (after true (ex_busy ++ repeat ORun 6)).
Proof. vm_compute. repeat split; discriminate. Qed.

(** Networks made by the helpers come to rest without failing. *)
Theorem C72_helpers : forall (N : Num) crc fcs tx_time has_mob pos seconds (l : list (act N)) id,
  (forall bps n, 0 < bps -> 0 <= n -> 0 <= tx_time bps n) ->
  (forall v, v = 299702458 \/ v = 299792458 -> forall a b t, 0 <= constant_speed pos seconds (nZ N v) a b t) ->
  Forall (sane_act pos seconds) l -> 0 <= id -> id + devices l < 2 ^ 48 ->
  exists n w, run crc fcs tx_time has_mob (initial_for l) (program pos seconds 0 0 id l ++ repeat ORun n) = Ok w /\ at_rest w.
Proof.
  intros N crc fcs tx_time has_mob pos seconds l id T V S I1 I2.
  destruct (C53_never_fails N crc fcs tx_time has_mob pos seconds l id T V S I1 I2) as (w & H).
  assert (R : reachable crc fcs tx_time has_mob w) by (eexists _, _, _; exact H).
  destruct (C72_comes_to_rest N crc fcs tx_time has_mob w R) as (n & _ & Q). exists n.
  set (x := repeat (@AOp N ORun) n).
  assert (P : forall c d i, program pos seconds c d i (l ++ x) = program pos seconds c d i l ++ repeat ORun n).
  { clear. induction l as [|a r IH]; intros c d i; cbn.
    - unfold x. clear. revert c d i. induction n as [|n IH]; intros c d i; cbn; [reflexivity|]. f_equal. apply IH.
    - destruct a; cbn; rewrite ?IH, ?app_assoc; reflexivity. }
  assert (DC : device_classes (l ++ x) = device_classes l).
  { clear. induction l as [|a r IH]; cbn; [unfold x; induction n; auto|]. destruct a; rewrite IH; reflexivity. }
  assert (CC : channel_classes (l ++ x) = channel_classes l).
  { clear. induction l as [|a r IH]; cbn; [unfold x; induction n; auto|]. destruct a; rewrite IH; reflexivity. }
  assert (DV : devices (l ++ x) = devices l).
  { clear. induction l as [|a r IH]; cbn; [unfold x; induction n; auto|]. destruct a; rewrite IH; reflexivity. }
  destruct (C53_never_fails N crc fcs tx_time has_mob pos seconds (l ++ x) id T V) as (w' & H'); try assumption.
  - apply Forall_app. split; [exact S|]. unfold x. clear. induction n; constructor; [exact I|assumption].
  - rewrite DV. exact I2.
  - unfold initial_for in H'. rewrite P, DC, CC in H'. fold (initial_for l) in H'. exists w'. split; [exact H'|].
    rewrite run_app, H in H'. cbn in H'. apply Q, H'.
Qed.
Print Assumptions C72_helpers.

(** ** C73: what is transmitted arrives *)
(** A reception that has been scheduled ends in the receive callback of the device,
    unless the power is too low, the error model refuses, or the frame is for
    somebody else. *)
Theorem C73_delivered : forall (N : Num) crc fcs tx_time has_mob (w : world N) ops w' T d src p from to q power,
  reachable crc fcs tx_time has_mob w -> In (T, RxEvent d (frame_of crc fcs p to q from) src power) (w_events w) ->
  src <> d -> (length (p_bytes p) <= 1492)%nat -> 0 <= from < 2 ^ 48 -> 0 <= to < 2 ^ 48 -> 0 <= q < 2 ^ 16 ->
  let g := d_cfg (w_dev w d) in
  nlt N (effective_power g power) (g_thr g) = false ->
  (forall f, g_err g = Some f -> f T (frame_of crc fcs p to q from) = false) ->
  to = 2 ^ 48 - 1 \/ to = g_addr g \/ Z.testbit to 40 = true ->
  Forall (leaves d) ops -> run crc fcs tx_time has_mob w ops = Ok w' -> T < w_now w' \/ w_events w' = [] ->
  In (T, RxCallback d src (p_bytes p) q from to (g_addr g)) (w_log w').
Proof.
  intros N crc fcs tx_time has_mob w ops w' T d src p from to q power R HI NE HL Hf Ht Hq g HP HE HT LV H LATE.
  destruct (pending_callback crc fcs tx_time has_mob ops w w' T d p from to q src power R H HI LV NE HL Hf Ht Hq HP HE HT) as [X|X]; [|exact X].
  exfalso. destruct LATE as [L|E]; [|rewrite E in X; exact X].
  assert (R' : reachable crc fcs tx_time has_mob w').
  { clear - R H. revert w R H. induction ops as [|o r IH]; intros w R H; cbn in H; [injection H as <-; exact R|].
    apply bind_ok in H as (w1 & H1 & H). eapply IH; [|exact H]. eapply reachable_step; eassumption. }
  destruct (reachable_transmitter crc fcs tx_time has_mob 0 w' R') as [_ [_ TM]]. rewrite Forall_forall in TM.
  specialize (TM _ X). cbn in TM. lia.
Qed.
Print Assumptions C73_delivered.

(** A transmission reaches the receive callback of everybody it is for who hears
    it, after the delay of the link. *)
Theorem C73_end_to_end : forall (N : Num) crc fcs tx_time has_mob (w : world N) o w1 new t d c p from to q dest tx gap dst ops w',
  reachable crc fcs tx_time has_mob w -> step crc fcs tx_time has_mob w o = Ok w1 -> w_log w1 = w_log w ++ new ->
  In (t, ToChannel d c (frame_of crc fcs p to q from) dest tx gap) new ->
  recipient w1 c d dest dst -> hears has_mob w1 c d dst = true -> d <> dst ->
  (length (p_bytes p) <= 1492)%nat -> 0 <= from < 2 ^ 48 -> 0 <= to < 2 ^ 48 -> 0 <= q < 2 ^ 16 ->
  let g := d_cfg (w_dev w1 dst) in
  let T := t + delay_to has_mob w1 c d dst tx in
  nlt N (effective_power g (power_at has_mob w1 c d dst)) (g_thr g) = false ->
  (forall f, g_err g = Some f -> f T (frame_of crc fcs p to q from) = false) ->
  to = 2 ^ 48 - 1 \/ to = g_addr g \/ Z.testbit to 40 = true ->
  Forall (leaves dst) ops -> run crc fcs tx_time has_mob w1 ops = Ok w' -> T < w_now w' \/ w_events w' = [] ->
  In (T, RxCallback dst d (p_bytes p) q from to (g_addr g)) (w_log w').
Proof.
  intros N crc fcs tx_time has_mob w o w1 new t d c p from to q dest tx gap dst ops w' R ST EN HN RC HH NE HL Hf Ht Hq g T HP HE HT LV H LATE.
  destruct (step_schedules crc fcs tx_time has_mob w o w1 new t d c _ dest tx gap (reachable_indexed _ _ _ _ _ R) ST EN HN) as [-> SC].
  eapply C73_delivered; try eassumption; [eapply reachable_step; eassumption|]. apply SC; assumption.
Qed.
Print Assumptions C73_end_to_end.

(** A send from device 0 to device 1 over an inter-satellite link between moving
    nodes, over which the signal takes 40 ns and loses 3 dB: the hypotheses hold and
    the payload arrives 40 ns later. *)
Definition ex_link : list (op NumZ) := isl3 10 ++
  [OSetDelay 0 (Some (fun _ _ _ => 40)); @OSetLoss NumZ 0 (Some (fun (power : Z) _ _ _ => power - 3)); OAdvance 100].
Definition ex_sent : res (world NumZ) := after true (ex_link ++ [OSend 0 (packet 7) (Mac 2) 2048]).
Example ex_C73 :
  holds (fun w1 => recipient w1 0 0 2 1 /\ hears ex_mob w1 0 0 1 = true /\ delay_to ex_mob w1 0 0 1 64000000 = 40 /\
      let g := d_cfg (w_dev w1 1%nat) in
      nlt NumZ (effective_power g (power_at ex_mob w1 0 0 1)) (g_thr g) = false /\ g_err g = None /\ g_addr g = 2) ex_sent /\
  holds (fun w => holds (fun w1 => exists new tx, w_log w1 = w_log w ++ new /\
      In (100, ToChannel 0 0 (frame_of ex_crc true (packet 7) 2 2048 1) 2 tx 0) new) ex_sent) (after true ex_link) /\
  holds (fun w => In (140, RxCallback 1 0 (p_bytes (packet 7)) 2048 1 2 2) (w_log w) /\ w_events w = [])
    (after true (ex_link ++ OSend 0 (packet 7) (Mac 2) 2048 :: repeat ORun 2)).
Proof.
  split; [|split].
  - apply holds_imp with (P := fun w1 : world NumZ => (c_kind (w_chan w1 0%nat) = IslChannel /\
      c_link (w_chan w1 0%nat) = [0; 1; 2]%nat /\ addr_of w1 0 = 1 /\ addr_of w1 1 = 2) /\
      hears ex_mob w1 0 0 1 = true /\ delay_to ex_mob w1 0 0 1 64000000 = 40 /\
      let g := d_cfg (w_dev w1 1%nat) in
      nlt NumZ (effective_power g (power_at ex_mob w1 0 0 1)) (g_thr g) = false /\ g_err g = None /\ g_addr g = 2);
      [vm_compute; repeat split|].
    intros w1 ((K & L & A0 & A1) & H). split; [|exact H]. unfold recipient. rewrite K, L. left. exists 1%nat. repeat split; [exact A1|].
    intros [|j] x J E; [|lia]. injection E as <-. rewrite A0. discriminate.
  - vm_compute. do 2 eexists. split; [reflexivity|]. do 5 right. left. reflexivity.
  - vm_compute. tauto.
Qed.

(** ** C74: multicast *)
(** The address is that of the standards only for groups whose low bits are 0, and
    the same for all groups; it is a group address. *)
Theorem C74_group_addresses : forall g,
  (GetMulticast4 g = rfc1112 g <-> g mod 2 ^ 23 = 0) /\ (GetMulticast6 g = rfc2464 g <-> g mod 2 ^ 32 = 0) /\
  (forall g', GetMulticast4 g = GetMulticast4 g' /\ GetMulticast6 g = GetMulticast6 g') /\
  Z.testbit (GetMulticast4 g) 40 = true /\ Z.testbit (GetMulticast6 g) 40 = true /\
  0 <= GetMulticast4 g < 2 ^ 48 - 1 /\ 0 <= GetMulticast6 g < 2 ^ 48 - 1.
Proof. intros g. unfold GetMulticast4, GetMulticast6, rfc1112, rfc2464. repeat split; try lia; intros; auto. Qed.
Print Assumptions C74_group_addresses.

(** Not the mapping of the standards: the groups of OSPF and RIP are one. *)
Theorem C74_group_addresses_refuted : exists g g', rfc1112 g <> rfc1112 g' /\ GetMulticast4 g = GetMulticast4 g'.
Proof. exists (ipv4 224 0 0 5), (ipv4 224 0 0 9). split; [discriminate|reflexivity]. Qed.
Print Assumptions C74_group_addresses_refuted.

(** Over inter-satellite links multicasts are dropped by the sender and reach nobody. *)
Theorem C74_isl_drops : forall (N : Num) tx_time has_mob (w : world N) d c p dest b w' g,
  dest = GetMulticast4 g \/ dest = GetMulticast6 g ->
  d_chan (w_dev w d) = Some c -> c_kind (w_chan w c) = IslChannel ->
  (forall x, In x (c_link (w_chan w c)) -> addr_of w x <> dest) ->
  TransmitStart tx_time has_mob w d p dest = Ok (b, w') ->
  b = false /\ waiting (w_events w') = waiting (w_events w) /\ exists tx gap, w_log w' = w_log w ++
    [(w_now w, PhyTxBegin d p); (w_now w, ToChannel d c p dest tx gap); (w_now w, PhyTxDrop d p)].
Proof.
  intros N tx_time has_mob w d c p dest b w' g HG HC HK HU H.
  assert (NB : dest <> 2 ^ 48 - 1) by (destruct HG as [->| ->]; discriminate).
  unfold TransmitStart in H. destruct (d_busy (w_dev w d)); [discriminate|].
  apply bind_ok in H as (w2 & H1 & H). apply schedule_ok in H1 as [H0 ->]. rewrite HC in H.
  apply bind_ok in H as ([result w4] & H1 & H). unfold ChannelTransmitStart in H1.
  match type of H1 with match c_kind (w_chan ?x c) with _ => _ end = _ => set (w3 := x) in H1 end.
  change (c_kind (w_chan w3 c)) with (c_kind (w_chan w c)) in H1. rewrite HK in H1.
  rewrite C45_isl_unknown in H1; [|unfold w3|exact NB].
  - injection H1 as <- <-. injection H as <- <-. split; [reflexivity|]. split.
    + assert (G : forall t dest' (l : list (Z * ev N)), waiting (insert_event (t, TxComplete d dest') l) = waiting l).
      { intros t dest'. induction l as [|[t' e] r IH]; [reflexivity|]. cbn [insert_event fst]. destruct (Z.leb t' t); [|reflexivity].
        unfold waiting in *. cbn [flat_map]. rewrite IH. reflexivity. }
      apply G.
    + eexists _, _. cbn. rewrite <- !app_assoc. reflexivity.
  - intros x HI. cbn in HI |- *. unfold addr_of, upd. cbn. specialize (HU x HI). unfold addr_of in HU.
    destruct (Nat.eqb x d) eqn:E; [|exact HU]. apply Nat.eqb_eq in E. subst x. exact HU.
Qed.
Print Assumptions C74_isl_drops.

(** Between satellites and ground a multicast is handed up by everybody on the other
    side who hears it, whatever the group. *)
Theorem C74_leo_floods : forall (N : Num) crc fcs tx_time has_mob (w : world N) o w1 new t d c p from to q tx gap dst ops w' group,
  reachable crc fcs tx_time has_mob w -> step crc fcs tx_time has_mob w o = Ok w1 -> w_log w1 = w_log w ++ new ->
  to = GetMulticast4 group \/ to = GetMulticast6 group ->
  In (t, ToChannel d c (frame_of crc fcs p to q from) to tx gap) new ->
  c_kind (w_chan w1 c) = LeoChannel ->
  (let on m := exists x, In (addr_of w1 d, x) m in
   let ch := w_chan w1 c in
   (on (c_gnd ch) /\ ~ on (c_sat ch) /\ In dst (map snd (c_sat ch))) \/ (on (c_sat ch) /\ ~ on (c_gnd ch) /\ In dst (map snd (c_gnd ch)))) ->
  hears has_mob w1 c d dst = true -> d <> dst -> (length (p_bytes p) <= 1492)%nat -> 0 <= from < 2 ^ 48 -> 0 <= q < 2 ^ 16 ->
  let g := d_cfg (w_dev w1 dst) in
  let T := t + delay_to has_mob w1 c d dst tx in
  nlt N (effective_power g (power_at has_mob w1 c d dst)) (g_thr g) = false -> g_err g = None ->
  Forall (leaves dst) ops -> run crc fcs tx_time has_mob w1 ops = Ok w' -> T < w_now w' \/ w_events w' = [] ->
  In (T, RxCallback dst d (p_bytes p) q from to (g_addr g)) (w_log w').
Proof.
  intros N crc fcs tx_time has_mob w o w1 new t d c p from to q tx gap dst ops w' group R ST EN HG HN HK RC HH NE HL Hf Hq g T HP HE LV H LATE.
  destruct (C74_group_addresses group) as (_ & _ & _ & B4 & B6 & R4 & R6).
  eapply C73_end_to_end; try eassumption.
  - unfold recipient. rewrite HK. exact RC.
  - destruct HG as [->| ->]; lia.
  - intros f Hf'. unfold g in HE. congruence.
  - right. right. destruct HG as [->| ->]; assumption.
Qed.
Print Assumptions C74_leo_floods.

(** Device 0 (ground) multicasts to 224.0.0.5: both satellites hand the packet up; on
    an inter-satellite link nobody does. *)
Example ex_C74 :
  holds (fun w => map brief (filter (fun x => match snd x with RxCallback _ _ _ _ _ _ _ => true | _ => false end) (w_log w)) =
      [(0, [15; 1; 0; 2048; 1; 1101088686080; 2]); (0, [15; 3; 0; 2048; 1; 1101088686080; 4])])
    (after true (leo4 10 ++ OSend 0 (packet 7) (Mac (GetMulticast4 (ipv4 224 0 0 5))) 2048 :: repeat ORun 3)) /\
  holds (fun w => map brief (filter (fun x => match snd x with RxCallback _ _ _ _ _ _ _ | PhyTxDrop _ _ => true | _ => false end) (w_log w)) =
      [(0, [5; 0; 7])])
    (after true (isl3 10 ++ OSend 0 (packet 7) (Mac (GetMulticast4 (ipv4 224 0 0 5))) 2048 :: repeat ORun 3)).
Proof. vm_compute. auto. Qed.
