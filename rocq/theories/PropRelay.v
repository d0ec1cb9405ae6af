(** C91: packets relayed over static routes. *)
Require Import ZArith List Bool Lia Permutation.
Require Import Verif.Base Verif.Num Verif.FrameModel Verif.NetModel Verif.NetSpec Verif.NetRunSpec Verif.NetSteps Verif.NetTxProofs
  Verif.ReactModel Verif.ReactSpec Verif.RelaySpec Verif.RelayProofs Verif.NetExamples.
Import ListNotations.
Local Open Scope Z_scope.

(** A packet that is sent into a network at rest goes along the routed path, over ground
    links and inter-satellite links, whatever else gets the signals: it is handed to the
    protocols at the end of every hop once, at the time that the delays of the hops before
    add up to, nowhere else, and then the network is at rest again. *)
Theorem C91_relay : forall (N : Num) crc fcs tx_time has_mob next payload q uid (w : world N) h rest,
  (length payload <= 1492)%nat -> 0 <= q < 2 ^ 16 ->
  w_events w = [] ->
  routed w next (h :: rest) -> passable crc fcs tx_time has_mob w payload q uid (w_now w) (h :: rest) ->
  NoDup (map h_from (h :: rest)) ->
  Forall (fun x => d_busy (w_dev w (h_from x)) = false /\ d_q (w_dev w (h_from x)) = []) (h :: rest) ->
  exists k w',
    runR crc fcs tx_time has_mob (route next uid) w
      (OSend (h_from h) (mkPkt uid payload) (Mac (addr_of w (h_to h))) q :: repeat ORun k) = Ok w' /\
    w_events w' = [] /\
    handed (w_log w') = handed (w_log w) ++ arrivals crc fcs tx_time has_mob w payload q uid (w_now w) (h :: rest).
Proof. intros N crc fcs tx_time has_mob next payload q uid w h rest S P EV RT PA ND RD. eapply relay; eassumption. Qed.
Print Assumptions C91_relay.

(** Time at which a signal that leaves at time t arrives at the end of the path, if only
    the delays of the channels count. *)
Fixpoint flight_time {N : Num} (w : world N) (t : Z) (path : list hop) : Z :=
  match path with
  | [] => t
  | h :: r =>
      flight_time w (t + match c_delay (w_chan w (h_over h)), node_of w (h_from h), node_of w (h_to h) with
                         | Some f, Some m, Some n => f m n t
                         | _, _, _ => 0 end) r
  end.

(** Between nodes that have mobility models the packet arrives after the propagation delays
    alone: neither its length nor the data rates count, on no hop. *)
Theorem C91_latency : forall (N : Num) crc fcs tx_time has_mob payload q uid (w : world N) path t,
  path <> [] ->
  (forall x n, In x path -> node_of w (h_from x) = Some n \/ node_of w (h_to x) = Some n -> has_mob n = true) ->
  exists l o, arrivals crc fcs tx_time has_mob w payload q uid t path = l ++ [(flight_time w t path, o)].
Proof.
  intros N crc fcs tx_time has_mob payload q uid w path t NE M. revert t. induction path as [|h r IH]; intros t; [congruence|].
  assert (E : hop_delay crc fcs tx_time has_mob w payload q uid t h =
    match c_delay (w_chan w (h_over h)), node_of w (h_from h), node_of w (h_to h) with Some f, Some m, Some n => f m n t | _, _, _ => 0 end).
  { unfold hop_delay, delay_to. change (node_of (set_now w t)) with (node_of w).
    pose proof (M h) as MF. destruct (node_of w (h_from h)) as [m|]; [|destruct (c_delay (w_chan w (h_over h))); reflexivity].
    destruct (node_of w (h_to h)) as [n|]; [|destruct (c_delay (w_chan w (h_over h))); reflexivity].
    unfold link_delay. rewrite (MF m), (MF n) by (cbn; auto). cbn. destruct (c_delay (w_chan w (h_over h))); reflexivity. }
  cbn [arrivals flight_time]. cbv zeta. rewrite <- E.
  destruct r as [|h2 r]; [exists []; eexists; reflexivity|].
  destruct IH with (t := t + hop_delay crc fcs tx_time has_mob w payload q uid t h) as (l & o & EL); [discriminate|intros x n Hx; apply M; right; exact Hx|].
  rewrite EL. eexists (_ :: l), o. reflexivity.
Qed.
Print Assumptions C91_latency.

(** Ground station - satellite - satellite - ground station. On LEO channel 1: ground devices
    0 and 5, satellite devices 1 and 4. On inter-satellite channel 0: devices 2 and 3. Devices
    1 and 2 are on node 11, devices 3 and 4 on node 14. Delays grow with time. *)
Definition ex_bent : list (op NumZ) :=
  setup 10 1 0 ++ OSet 1 (CType true) :: setup 10 1 1 ++ setup 9 0 2 ++ setup 11 0 3 ++ OSet 4 (CType true) :: setup 10 1 4 ++ setup 10 1 5.
Definition ex_up (a b : nat) (t : Z) : Z := 2000000 + Z.of_nat (a + b) + t / 1000.
Definition ex_across (a b : nat) (t : Z) : Z := 20000000 + t / 100.
Definition ex_delays : list (op NumZ) := [OSetDelay 1 (Some ex_up); OSetDelay 0 (Some ex_across)].
Definition ex_path : list hop := [mkHop 0 1 1; mkHop 2 0 3; mkHop 4 1 5].
Definition ex_next (d : nat) : option (nat * Z) :=
  match d with 1%nat => Some (2%nat, 4) | 3%nat => Some (4%nat, 6) | _ => None end.
(** What matters of a device. *)
Definition ex_card (w : world NumZ) (h : hop) :=
  let a := w_dev w (h_from h) in let b := w_dev w (h_to h) in
  ((d_chan a, d_id a, d_up a, d_busy a, d_q a, g_bps (d_cfg a), g_gap (d_cfg a)),
   match d_queue a with Some f => f [] (hop_frame ex_crc true w [1; 2; 3] 2048 7 h) | None => false end,
   (addr_of w (h_from h), addr_of w (h_to h), node_of w (h_from h), node_of w (h_to h)),
   (g_rxcb (d_cfg b), match g_err (d_cfg b) with Some _ => true | None => false end,
    nlt NumZ (effective_power (d_cfg b) (g_txp (d_cfg a))) (g_thr (d_cfg b)))).
Definition ex_chan (w : world NumZ) (c : nat) :=
  let ch := w_chan w c in (c_kind ch, c_link ch, c_gnd ch, c_sat ch, match c_loss ch with Some _ => true | None => false end).
Lemma ex_hop : forall (w : world NumZ) t h kind link gnd sat from to m n,
  c_delay (w_chan w 0) = Some ex_across -> c_delay (w_chan w 1) = Some ex_up -> 0 <= t -> (h_over h <= 1)%nat ->
  h_from h <> h_to h ->
  ex_card w h = ((Some (h_over h), d_id (w_dev w (h_from h)), true, false, [], 8000, 0), true, (from, to, Some m, Some n), (true, false, false)) ->
  ex_chan w (h_over h) = (kind, link, gnd, sat, false) ->
  nth_error link (d_id (w_dev w (h_from h))) = Some (h_from h) ->
  (0 <= from < 2 ^ 48 /\ 0 <= to < 2 ^ 48 /\ to <> 2 ^ 48 - 1 /\ Z.testbit to 40 = false) ->
  recipient w (h_over h) (h_from h) to (h_to h) ->
  (forall x, recipient w (h_over h) (h_from h) to x -> node_of w x <> None /\ (x = h_to h \/ addr_of w x <> to)) ->
  NoDup (map snd gnd) -> NoDup (map snd sat) ->
  usable ex_crc true ex_tx ex_mob w [1; 2; 3] 2048 7 t h /\
  0 <= t + hop_delay ex_crc true ex_tx ex_mob w [1; 2; 3] 2048 7 t h.
Proof.
  intros w t [a c b] kind link gnd sat from to m n C0 C1 T C NE CARD CHAN LK AD RC RX N1 N2. cbn [h_from h_to h_over] in *.
  unfold ex_card in CARD. cbv zeta in CARD. cbn [h_from h_to h_over] in CARD. injection CARD as E1 E2 E3 E4 E5 E6 E7 E8 E9 E10 E11 E12 E13 E14.
  unfold ex_chan in CHAN. cbv zeta in CHAN. injection CHAN as F1 F2 F3 F4 F5.
  assert (TX : 0 <= hop_tx ex_crc true ex_tx w [1; 2; 3] 2048 7 (mkHop a c b)).
  { unfold hop_tx, ex_tx. cbn [h_from]. rewrite E5. clear. apply Z.div_pos; lia. }
  assert (D : forall x y tx, 0 <= tx -> 0 <= delay_to ex_mob (set_now w t) c x y tx).
  { clear - T C C0 C1. intros x y tx X. unfold delay_to. destruct (node_of _ x) as [i|]; [|lia]. destruct (node_of _ y) as [j|]; [|lia].
    unfold link_delay. destruct (_ && _); [|exact X]. pose proof (Z.div_pos t 1000). pose proof (Z.div_pos t 100). cbn [set_now w_chan w_now].
    destruct c as [|[|c]]; [rewrite C0; unfold ex_across; lia|rewrite C1; unfold ex_up; lia|lia]. }
  assert (L : c_loss (w_chan w c) = None) by (destruct (c_loss (w_chan w c)); [discriminate|reflexivity]).
  assert (P : hears ex_mob (set_now w t) c a b = true /\ power_at ex_mob (set_now w t) c a b = g_txp (d_cfg (w_dev w a))).
  { unfold hears, power_at. change (node_of (set_now w t)) with (node_of w). rewrite E10, E11. unfold cut_off, link_power. cbn [set_now w_chan w_dev]. rewrite L.
    split; [reflexivity|]. destruct (_ && _); reflexivity. }
  split; [|assert (0 <= hop_delay ex_crc true ex_tx ex_mob w [1; 2; 3] 2048 7 t (mkHop a c b)) by (apply D; exact TX); clear - T H; lia].
  unfold usable. cbv zeta. cbn [h_from h_to h_over]. split; [exact NE|]. split; [rewrite F2; auto|].
  split; [destruct (d_queue (w_dev w a)) as [f|]; [eauto|discriminate]|]. split; [rewrite E6; clear - TX; lia|]. rewrite E8, E9. split; [exact AD|]. split; [exact RC|].
  split. { intros x HX. destruct (RX x HX) as [R1 R2]. split; [exact R1|]. split; [exact R2|apply D; exact TX]. }
  split; [rewrite F3, F4; auto|]. split; [apply P|]. split; [rewrite (proj2 P); exact E14|]. split; [|exact E12].
  intros f HF. rewrite HF in E13. discriminate.
Qed.

Definition ex_facts (w : world NumZ) : Prop := 
      ex_card w (mkHop 0 1 1) = ((Some 1%nat, 0%nat, true, false, [], 8000, 0), true, (1, 2, Some 10%nat, Some 11%nat), (true, false, false)) /\
      ex_card w (mkHop 2 0 3) = ((Some 0%nat, 0%nat, true, false, [], 8000, 0), true, (3, 4, Some 11%nat, Some 14%nat), (true, false, false)) /\
      ex_card w (mkHop 4 1 5) = ((Some 1%nat, 2%nat, true, false, [], 8000, 0), true, (5, 6, Some 14%nat, Some 15%nat), (true, false, false)) /\
    ex_chan w 0 = (IslChannel, [2; 3]%nat, [], [], false) /\ ex_chan w 1 = (LeoChannel, [0; 1; 4; 5]%nat, [(1, 0%nat); (6, 5%nat)], [(2, 1%nat); (5, 4%nat)], false) /\
    w_now w = 0 /\ w_events w = [].
Lemma ex_base : holds ex_facts (after true ex_bent).
Proof. vm_compute. repeat split. Qed.
Lemma after_app : forall o1 o2, after true (o1 ++ o2) = bind (after true o1) (fun w => NetModel.run ex_crc true ex_tx ex_mob w o2).
Proof. intros. apply run_app. Qed.
Lemma ex_setup : forall u, after true ex_bent = Ok u ->
  after true (ex_bent ++ ex_delays) = Ok (SetPropagationDelay (SetPropagationDelay u 1 (Some ex_up)) 0 (Some ex_across)).
Proof. intros u EU. rewrite after_app, EU. reflexivity. Qed.

(** The two satellites hear the first station, and both stations hear the second satellite. *)
Example ex_C91 : exists w, after true (ex_bent ++ ex_delays) = Ok w /\ w_events w = [] /\ routed w ex_next ex_path /\
  passable ex_crc true ex_tx ex_mob w [1; 2; 3] 2048 7 (w_now w) ex_path /\ NoDup (map h_from ex_path) /\
  Forall (fun x => d_busy (w_dev w (h_from x)) = false /\ d_q (w_dev w (h_from x)) = []) ex_path.
Proof.
  destruct (holds_ok _ _ _ ex_base) as (u & EU & X1 & X2 & X3 & C0 & C1 & NOW & EV). 
  exists (SetPropagationDelay (SetPropagationDelay u 1 (Some ex_up)) 0 (Some ex_across)). split.
  { apply ex_setup. exact EU. }
  set (w := SetPropagationDelay (SetPropagationDelay u 1 (Some ex_up)) 0 (Some ex_across)).
  assert (K1 : ex_card w = ex_card u) by reflexivity. assert (K2 : ex_chan w 0 = ex_chan u 0) by reflexivity. assert (K3 : ex_chan w 1 = ex_chan u 1) by reflexivity.
  assert (K4 : c_delay (w_chan w 0) = Some ex_across) by reflexivity. assert (K5 : c_delay (w_chan w 1) = Some ex_up) by reflexivity.
  change (w_now w) with (w_now u). change (w_events w) with (w_events u). rewrite <- K1 in X1, X2, X3. clear K1. rewrite C0 in K2. rewrite C1 in K3. rewrite NOW. clearbody w. clear EU C0 C1.
  assert (ID : d_id (w_dev w 0) = 0%nat /\ d_id (w_dev w 2) = 0%nat /\ d_id (w_dev w 4) = 2%nat) by (unfold ex_card in X1, X2, X3; cbn [h_from h_to] in *; repeat split; congruence).
  assert (AD : addr_of w 0 = 1 /\ addr_of w 1 = 2 /\ addr_of w 2 = 3 /\ addr_of w 3 = 4 /\ addr_of w 4 = 5 /\ addr_of w 5 = 6) by (unfold ex_card in X1, X2, X3; cbn [h_from h_to] in *; repeat split; congruence).
  assert (NO : node_of w 0 = Some 10%nat /\ node_of w 1 = Some 11%nat /\ node_of w 3 = Some 14%nat /\ node_of w 4 = Some 14%nat /\ node_of w 5 = Some 15%nat)
    by (unfold ex_card in X1, X2, X3; cbn [h_from h_to] in *; repeat split; congruence).
  assert (IDLE : Forall (fun x => d_busy (w_dev w (h_from x)) = false /\ d_q (w_dev w (h_from x)) = []) ex_path)
    by (unfold ex_card in X1, X2, X3; cbn [h_from h_to] in *; repeat constructor; cbn [h_from]; congruence).
  destruct ID as (I0 & I2 & I4). destruct AD as (A0 & A1 & A2 & A3 & A4 & A5). destruct NO as (N0 & N1 & N3 & N4 & N5).
  assert (KK : c_kind (w_chan w 0) = IslChannel /\ c_link (w_chan w 0) = [2; 3]%nat /\ c_kind (w_chan w 1) = LeoChannel /\ c_gnd (w_chan w 1) = [(1, 0%nat); (6, 5%nat)] /\ c_sat (w_chan w 1) = [(2, 1%nat); (5, 4%nat)])
    by (unfold ex_chan in K2, K3; cbv zeta in K2, K3; repeat split; congruence).
  destruct KK as (Q1 & Q2 & Q3 & Q4 & Q5).
  assert (R1 : forall x, recipient w 1 0 2 x <-> x = 1%nat \/ x = 4%nat).
  { intros x. unfold recipient. cbv zeta. rewrite Q3, Q4, Q5, A0. cbn [map snd In]. split.
    - intros [(_ & _ & [->|[->|[]]])|((y & [E|[E|[]]]) & _)]; auto; discriminate E.
    - intros [->| ->]; left; (split; [exists 0%nat; auto|split; [intros (y & [E|[E|[]]]); discriminate E|auto]]). }
  assert (R2 : forall x, recipient w 0 2 4 x <-> x = 3%nat).
  { intros x. unfold recipient. cbv zeta. rewrite Q1, Q2. split.
    - intros [(k & HK & HA & _)|(_ & HK & _)]; [|discriminate HK]. destruct k as [|[|[|k]]]; try discriminate HK; injection HK as <-; [congruence|reflexivity].
    - intros ->. left. exists 1%nat. split; [reflexivity|]. split; [exact A3|]. intros [|j] x Hj Hx; [injection Hx as <-; rewrite A2; discriminate|exfalso; clear - Hj; lia]. }
  assert (R3 : forall x, recipient w 1 4 6 x <-> x = 0%nat \/ x = 5%nat).
  { intros x. unfold recipient. cbv zeta. rewrite Q3, Q4, Q5, A4. cbn [map snd In]. split.
    - intros [((y & [E|[E|[]]]) & _)|(_ & _ & [->|[->|[]]])]; auto; discriminate E.
    - intros [->| ->]; right; (split; [exists 4%nat; auto|split; [intros (y & [E|[E|[]]]); discriminate E|auto]]). }
  split; [exact EV|]. split; [cbn; rewrite A3, A5; auto|]. split; [|split; [repeat constructor; cbn; intuition discriminate|exact IDLE]].
  assert (Y1 : ex_card w (mkHop 0 1 1) = ((Some 1%nat, d_id (w_dev w 0), true, false, [], 8000, 0), true, (1, 2, Some 10%nat, Some 11%nat), (true, false, false))) by (rewrite I0; exact X1).
  assert (Y2 : ex_card w (mkHop 2 0 3) = ((Some 0%nat, d_id (w_dev w 2), true, false, [], 8000, 0), true, (3, 4, Some 11%nat, Some 14%nat), (true, false, false))) by (rewrite I2; exact X2).
  assert (Y3 : ex_card w (mkHop 4 1 5) = ((Some 1%nat, d_id (w_dev w 4), true, false, [], 8000, 0), true, (5, 6, Some 14%nat, Some 15%nat), (true, false, false))) by (rewrite I4; exact X3).
  cbn [passable ex_path].
  destruct (fun t T => ex_hop w t (mkHop 0 1 1) _ _ _ _ _ _ _ _ K4 K5 T (le_n 1) ltac:(discriminate) Y1 K3) with (t := 0) as [U1 T1];
    [apply Z.le_refl|cbn [h_from]; rewrite I0; reflexivity|repeat split; discriminate|apply R1; auto|intros x Hx; apply R1 in Hx as [->| ->]; (split; [congruence|cbn [h_to]; first [left; reflexivity|right; rewrite A4; discriminate]])|repeat constructor; cbn; intuition discriminate..|].
  split; [exact U1|]. revert T1. generalize (0 + hop_delay ex_crc true ex_tx ex_mob w [1; 2; 3] 2048 7 0 (mkHop 0 1 1)). intros t1 T1.
  destruct (fun t T => ex_hop w t (mkHop 2 0 3) _ _ _ _ _ _ _ _ K4 K5 T (le_S _ _ (le_n 0)) ltac:(discriminate) Y2 K2) with (t := t1) as [U2 T2];
    [exact T1|cbn [h_from]; rewrite I2; reflexivity|repeat split; discriminate|apply R2; auto|intros x Hx; apply R2 in Hx as ->; (split; [congruence|left; reflexivity])|repeat constructor; cbn; intuition discriminate..|].
  split; [exact U2|]. revert T2. generalize (t1 + hop_delay ex_crc true ex_tx ex_mob w [1; 2; 3] 2048 7 t1 (mkHop 2 0 3)). intros t2 T2.
  destruct (fun t T => ex_hop w t (mkHop 4 1 5) _ _ _ _ _ _ _ _ K4 K5 T (le_n 1) ltac:(discriminate) Y3 K3) with (t := t2) as [U3 T3];
    [exact T2|cbn [h_from]; rewrite I4; reflexivity|repeat split; discriminate|apply R3; auto|intros x Hx; apply R3 in Hx as [->| ->]; (split; [congruence|cbn [h_to]; first [left; reflexivity|right; rewrite A0; discriminate]])|repeat constructor; cbn; intuition discriminate..|].
  split; [exact U3|exact I].
Qed.
(** The packet is handed over three times, at 2 ms, 22 ms and 24 ms. Transmitters do not
    store and forward: the packet has arrived behind the third hop before the first
    transmission, which takes 64 ms, is over. *)
Theorem C91_store_and_forward_refuted : holds (fun w =>
    map brief (handed (w_log w)) =
      [(2000021, [15; 1; 0; 2048; 1; 2; 2]); (22020021, [15; 3; 2; 2048; 3; 4; 4]); (24042070, [15; 5; 4; 2048; 5; 6; 6])] /\
    map brief (filter (fun x => match snd x with PhyTxEnd _ _ => true | _ => false end) (w_log w)) =
      [(64000000, [4; 0; 7]); (66000021, [4; 2; 7]); (86020021, [4; 4; 7])] /\ w_events w = [])
  (bind (after true (ex_bent ++ ex_delays)) (fun w => runR ex_crc true ex_tx ex_mob (route ex_next 7) w (OSend 0 (mkPkt 7 [1; 2; 3]) (Mac 2) 2048 :: repeat ORun 9))).
Proof. vm_compute. repeat split. Qed.
Print Assumptions C91_store_and_forward_refuted.
