(** C88: the order in which frames arrive over a link. *)
Require Import ZArith Reals Lra Lia List Bool Sorted.
Require Import Verif.Base Verif.Num Verif.NumR Verif.Vec Verif.OrbitModel Verif.MobilityModel Verif.AllocModel
  Verif.LossModel Verif.FrameModel Verif.NetModel Verif.HelperModel
  Verif.GeomSpec Verif.OrbitSpec Verif.AllocSpec Verif.LossSpec Verif.NetSpec Verif.NetRunSpec Verif.HeardSpec Verif.ConstellationSpec Verif.OrderSpec
  Verif.LossProofs Verif.LossApiProofs Verif.OrbitProofs Verif.AllocProofs Verif.ConstellationProofs Verif.NetExamples Verif.NetDrainProofs Verif.HelperSafeProofs Verif.NetSteps Verif.NetHeardProofs Verif.OrderProofs
  Verif.Leo64Proofs Verif.LeoLossProofs Verif.PropChan Verif.PropRun Verif.PropConstellation Verif.TracingProofs Verif.OrbitApiProofs.
Import ListNotations.
Local Open Scope R_scope.

(** ** C88 *)

(** In any execution, what passes from src to dst is received in the order of departure exactly if no
    frame is due before one that departed earlier; receptions take place in the order of their times. *)
Theorem C88_order : forall (N : Num) crc fcs tx_time has_mob (w0 : world N) ops w new src dst,
  reachable crc fcs tx_time has_mob w0 -> w_events w0 = [] -> run crc fcs tx_time has_mob w0 ops = Ok w -> w_log w = w_log w0 ++ new ->
  let received := between src dst (performed new ++ waiting (w_events w)) in
  StronglySorted (fun x y => (fst x <= fst y)%Z) received /\
  (received = map (fun x => (arrival x, frame x)) (crossings src dst new) <->
   StronglySorted (fun x y => (arrival x <= arrival y)%Z) (crossings src dst new)).
Proof.
  intros N crc fcs tx_time has_mob w0 ops w new src dst R E H LG. cbv zeta. rewrite <- between_scheduled.
  exact (order_iff crc fcs tx_time has_mob w0 ops w new src dst R E H LG).
Qed.
Print Assumptions C88_order.

Lemma sec_le : forall a b, (a <= b)%Z -> sec a <= sec b.
Proof. intros a b H. unfold sec. apply IZR_le in H. lra. Qed.
Lemma sec_plus : forall a b, sec (a + b) = sec a + sec b.
Proof. intros a b. unfold sec. rewrite plus_IZR. field. Qed.

Lemma drift_delay : forall from (pa pb : Z -> point) sa sb lag seconds v t t' k, rounding seconds -> 0 < v ->
  drifts from pa sa lag -> drifts from pb sb lag -> (from <= t <= t')%Z ->
  (sa + sb) * sec (t' - t + lag) <= v * sec (t' - t + k) ->
  (t + seconds (distance (pa t) (pb t) / v)%R <= t' + seconds (distance (pa t') (pb t') / v)%R + k)%Z.
Proof.
  intros from pa pb sa sb lag seconds v t t' k RD Hv DA DB Ht HS.
  specialize (DA t t' Ht). specialize (DB t t' Ht).
  pose proof (distance_triangle (pa t) (pa t') (pb t)) as T1. pose proof (distance_triangle (pa t') (pb t') (pb t)) as T2.
  rewrite (distance_sym (pb t') (pb t)) in T2.
  assert (X : distance (pa t) (pb t) / v <= distance (pa t') (pb t') / v + sec (t' - t + k)).
  { apply (Rmult_le_reg_l v); [exact Hv|]. rewrite Rmult_plus_distr_l. replace (v * (distance (pa t) (pb t) / v)) with (distance (pa t) (pb t)) by (field; lra).
    replace (v * (distance (pa t') (pb t') / v)) with (distance (pa t') (pb t')) by (field; lra). lra. }
  apply RD in X. lia.
Qed.

Lemma sorted_pairs : forall A (P : A -> A -> Prop) l l1 x l2 y l3, StronglySorted P l -> l = l1 ++ x :: l2 ++ y :: l3 -> P x y.
Proof.
  intros A P l l1 x l2 y l3 S ->. induction l1 as [|z r IH]; cbn in S; inversion S as [|? ? S1 F]; subst; [|auto].
  rewrite Forall_forall in F. apply F, in_or_app. right. left. reflexivity.
Qed.
Lemma pairs_sorted : forall A (P : A -> A -> Prop) l, (forall l1 x l2 y l3, l = l1 ++ x :: l2 ++ y :: l3 -> P x y) -> StronglySorted P l.
Proof.
  intros A P. induction l as [|x r IH]; intros H; constructor.
  - apply IH. intros l1 y l2 z l3 ->. apply (H (x :: l1) y l2 z l3). reflexivity.
  - apply Forall_forall. intros y HY. apply in_split in HY as (l2 & l3 & ->). apply (H [] x l2 y l3). reflexivity.
Qed.

(** Between nodes that move: a frame overtakes an earlier one by no more than what they and the lag of
    their reported positions account for. *)
Theorem C88_overtaking : forall crc fcs tx_time has_mob (w0 : world NumR) ops w new src dst c a b pos seconds v sa sb lag,
  reachable crc fcs tx_time has_mob w0 -> Forall traffic ops -> run crc fcs tx_time has_mob w0 ops = Ok w -> w_log w = w_log w0 ++ new ->
  d_chan (w_dev w0 src) = Some c -> node_of w0 src = Some a -> node_of w0 dst = Some b -> has_mob a = true -> has_mob b = true ->
  c_delay (w_chan w0 c) = Some (@constant_speed NumR pos seconds v) -> rounding seconds -> 0 < v ->
  drifts (w_now w0) (pos a) sa lag -> drifts (w_now w0) (pos b) sb lag ->
  forall l1 x l2 y l3 k, crossings src dst new = l1 ++ x :: l2 ++ y :: l3 ->
  (departure x <= departure y)%Z /\
  ((sa + sb) * sec (departure y - departure x + lag) <= v * sec (departure y - departure x + k) -> (arrival x <= arrival y + k)%Z).
Proof.
  intros crc fcs tx_time has_mob w0 ops w new src dst c a b pos seconds v sa sb lag R F H LG HC Na Nb Ma Mb HD RD Hv DA DB l1 x l2 y l3 k E.
  destruct (traffic_crossings crc fcs tx_time has_mob ops w0 w new src dst c a b _ R F H LG HC Na Nb Ma Mb HD) as [S FA].
  pose proof (sorted_pairs _ _ _ l1 x l2 y l3 S E) as ST. cbn beta in ST. split; [exact ST|]. intros HS.
  rewrite Forall_forall in FA.
  destruct (FA x) as [Tx Ax]; [rewrite E; apply in_or_app; right; left; reflexivity|].
  destruct (FA y) as [Ty Ay]; [rewrite E; apply in_or_app; right; right; apply in_or_app; right; left; reflexivity|].
  rewrite Ax, Ay. unfold constant_speed.
  exact (drift_delay (w_now w0) (pos a) (pos b) sa sb lag seconds v (departure x) (departure y) k RD Hv DA DB ltac:(lia) HS).
Qed.
Print Assumptions C88_overtaking.

(** Without lag, and slower than the signal, nothing is overtaken. *)
Theorem C88_in_order : forall crc fcs tx_time has_mob (w0 : world NumR) ops w new src dst c a b pos seconds v sa sb,
  reachable crc fcs tx_time has_mob w0 -> w_events w0 = [] -> Forall traffic ops -> run crc fcs tx_time has_mob w0 ops = Ok w -> w_log w = w_log w0 ++ new ->
  d_chan (w_dev w0 src) = Some c -> node_of w0 src = Some a -> node_of w0 dst = Some b -> has_mob a = true -> has_mob b = true ->
  c_delay (w_chan w0 c) = Some (@constant_speed NumR pos seconds v) -> rounding seconds -> 0 < v ->
  drifts (w_now w0) (pos a) sa 0 -> drifts (w_now w0) (pos b) sb 0 -> sa + sb <= v ->
  between src dst (performed new ++ waiting (w_events w)) = map (fun x => (arrival x, frame x)) (crossings src dst new).
Proof.
  intros crc fcs tx_time has_mob w0 ops w new src dst c a b pos seconds v sa sb R E0 F H LG HC Na Nb Ma Mb HD RD Hv DA DB SV.
  apply (C88_order NumR crc fcs tx_time has_mob w0 ops w new src dst R E0 H LG). apply pairs_sorted. intros l1 x l2 y l3 E.
  destruct (C88_overtaking crc fcs tx_time has_mob w0 ops w new src dst c a b pos seconds v sa sb 0 R F H LG HC Na Nb Ma Mb HD RD Hv DA DB l1 x l2 y l3 0 E) as [L X].
  rewrite !Z.add_0_r in X. apply X. apply Rmult_le_compat_r; [|exact SV].
  replace 0 with (sec 0) by (unfold sec; lra). apply sec_le. lia.
Qed.
Print Assumptions C88_in_order.

Lemma rate_abs : forall r i, Rabs (angular_rate r i) = circular_speed r / (1000 * earth_radius_km).
Proof.
  intros r i. unfold angular_rate.
  assert (P : 0 <= circular_speed r) by (unfold circular_speed; pose proof (sqrt_pos (39.8600436 / r)); lra).
  assert (Q : 0 < / (1000 * earth_radius_km)) by (unfold earth_radius_km; lra).
  unfold Rdiv. destruct (Rlt_dec _ _).
  - replace (-1 * circular_speed r * / (1000 * earth_radius_km)) with (- (circular_speed r * / (1000 * earth_radius_km))) by ring.
    rewrite Rabs_Ropp. apply Rabs_pos_eq, Rmult_le_pos; lra.
  - rewrite Rmult_1_l. apply Rabs_pos_eq, Rmult_le_pos; lra.
Qed.

(** Satellites drift no faster than C80's bound, up to the precision; below 40000 km that is less than
    26 km/s. *)
Theorem C88_satellite_drifts : forall (junk : point) precision os path o ps,
  Forall (fun o : leoorbit NumR => u16 (lo_planes o) /\ u16 (lo_sats o)) os ->
  satellite junk precision os path o ps -> 0 <= earth_radius_km + lo_alt o ->
  drifts 0 path (ground_speed (earth_radius_km + lo_alt o) (lo_inc o * PI / 180)) (Z.max 0 precision) /\
  (0 <= lo_alt o <= 40000 -> ground_speed (earth_radius_km + lo_alt o) (lo_inc o * PI / 180) <= 26000).
Proof.
  intros junk p os path o ps Hu S Hr. split.
  - intros t t' Ht. destruct (satellite_position _ _ _ _ _ _ t Hu S ltac:(lia)) as (tau & R & ->). destruct (satellite_position _ _ _ _ _ _ t' Hu S ltac:(lia)) as (tau' & R' & ->).
    unfold sat_path. eapply Rle_trans; [apply trajectory_distance; exact Hr|]. apply Rmult_le_compat_l.
    + unfold ground_speed. apply Rmult_le_pos; [lra|]. unfold earth_rate. pose proof (Rabs_pos (angular_rate (earth_radius_km + lo_alt o) (lo_inc o * PI / 180))). pose proof PI_RGT_0. lra.
    + replace (sec tau' - sec tau) with (IZR (tau' - tau) / 1000000000) by (unfold sec; rewrite minus_IZR; field). unfold sec, Rdiv.
      rewrite Rabs_mult, (Rabs_pos_eq (/ 1000000000)) by lra. apply Rmult_le_compat_r; [lra|]. rewrite <- abs_IZR. apply IZR_le.
      destruct R as [(P1 & k & K1 & -> & K2)|[(-> & ->)|(P1 & ->)]], R' as [(P2 & k' & K1' & -> & K2')|[(P2 & ->)|(P2 & ->)]]; lia.
  - intros HA. unfold ground_speed. set (r := earth_radius_km + lo_alt o) in *. assert (HR : 6371 <= r <= 46372) by (unfold r, earth_radius_km; change (num NumR) with R in *; lra).
    pose proof (rate_abs r (lo_inc o * PI / 180)) as A.
    rewrite A. assert (Q : r * circular_speed r <= 136000000).
    { unfold circular_speed. replace (r * (100000 * sqrt (39.8600436 / r))) with (100000 * (r * sqrt (39.8600436 / r))) by ring.
      assert (E : r * sqrt (39.8600436 / r) = sqrt (39.8600436 * r)).
      { rewrite <- (sqrt_square r) at 1 by lra. rewrite <- sqrt_mult_alt by nra. f_equal. field. lra. }
      rewrite E. assert (sqrt (39.8600436 * r) <= sqrt (1360 * 1360)) by (apply sqrt_le_1_alt; lra). rewrite sqrt_square in H by lra. lra. }
    assert (ER : earth_rate <= 8 / 86400) by (unfold earth_rate; pose proof PI_4; lra).
    assert (ER0 : 0 <= earth_rate) by (unfold earth_rate; pose proof PI_RGT_0; lra).
    replace (1000 * r * (circular_speed r / (1000 * earth_radius_km) + earth_rate)) with (r * circular_speed r / earth_radius_km + 1000 * (r * earth_rate)) by (field; unfold earth_radius_km; lra).
    assert (X1 : r * circular_speed r / earth_radius_km <= 136000000 / 6371) by (unfold earth_radius_km; lra).
    assert (X2 : r * earth_rate <= 46372 * (8 / 86400)) by (apply Rmult_le_compat; lra). lra.
Qed.
Print Assumptions C88_satellite_drifts.

Lemma end_drifts : forall (junk : point) precision os path from,
  Forall (fun o : leoorbit NumR => u16 (lo_planes o) /\ u16 (lo_sats o)) os -> (0 <= from)%Z -> link_end junk precision os path ->
  drifts from path 26000 (Z.max 0 precision).
Proof.
  intros junk p os path from Hu Hf [(o & ps & S & A)|(g & G)] t t' Ht.
  - assert (Hr : 0 <= earth_radius_km + lo_alt o) by (unfold earth_radius_km; change (num NumR) with R in *; lra).
    destruct (C88_satellite_drifts junk p os path o ps Hu S Hr) as [D B]. specialize (D t t' ltac:(lia)). eapply Rle_trans; [exact D|].
    apply Rmult_le_compat_r; [|apply B, A]. replace 0 with (sec 0) by (unfold sec; lra). apply sec_le. lia.
  - rewrite !G. replace (distance g g) with 0.
    + apply Rmult_le_pos; [lra|]. replace 0 with (sec 0) by (unfold sec; lra). apply sec_le. lia.
    + unfold distance, norm. replace (inner (minus g g) (minus g g)) with 0; [symmetry; apply sqrt_0|]. unfold inner, minus, pt, px, py, pz. cbn [vx vy vz]. ring.
Qed.

(** Over the links of an installed constellation a frame overtakes another by at most a 5000th of the
    precision, and only if it departed less than a 4999th after it. *)
Theorem C88_constellation : forall (junk : point) precision os crc fcs tx_time has_mob (w0 : world NumR) ops w new src dst c a b pos seconds v,
  Forall (fun o : leoorbit NumR => u16 (lo_planes o) /\ u16 (lo_sats o)) os ->
  link_end junk precision os (pos a) -> link_end junk precision os (pos b) ->
  reachable crc fcs tx_time has_mob w0 -> (0 <= w_now w0)%Z ->
  Forall traffic ops -> run crc fcs tx_time has_mob w0 ops = Ok w -> w_log w = w_log w0 ++ new ->
  d_chan (w_dev w0 src) = Some c -> node_of w0 src = Some a -> node_of w0 dst = Some b -> has_mob a = true -> has_mob b = true ->
  c_delay (w_chan w0 c) = Some (@constant_speed NumR pos seconds v) -> rounding seconds -> 260000000 <= v ->
  forall l1 x l2 y l3, crossings src dst new = l1 ++ x :: l2 ++ y :: l3 ->
  (departure x <= departure y)%Z /\
  (forall k, (0 <= k)%Z -> (precision <= 5000 * k)%Z -> (arrival x <= arrival y + k)%Z) /\
  ((precision <= 4999 * (departure y - departure x))%Z -> (arrival x <= arrival y)%Z).
Proof.
  intros junk p os crc fcs tx_time has_mob w0 ops w new src dst c a b pos seconds v Hu La Lb R T0 F H LG HC Na Nb Ma Mb HD RD Hv l1 x l2 y l3 E.
  pose proof (end_drifts junk p os _ (w_now w0) Hu T0 La) as DA. pose proof (end_drifts junk p os _ (w_now w0) Hu T0 Lb) as DB.
  pose proof (fun k => C88_overtaking crc fcs tx_time has_mob w0 ops w new src dst c a b pos seconds v 26000 26000 (Z.max 0 p) R F H LG HC Na Nb Ma Mb HD RD ltac:(lra) DA DB l1 x l2 y l3 k E) as O.
  destruct (O 0%Z) as [L _].
  assert (X : forall k, (0 <= k)%Z -> (Z.max 0 p <= 4999 * (departure y - departure x) + 5000 * k)%Z -> (arrival x <= arrival y + k)%Z).
  { intros k Hk HP. destruct (O k) as [_ O']. apply O'. unfold sec.
    assert (B : IZR (departure y - departure x + Z.max 0 p) <= 5000 * IZR (departure y - departure x + k)) by (rewrite <- mult_IZR; apply IZR_le; lia).
    assert (B0 : 0 <= IZR (departure y - departure x + k)) by (apply IZR_le; lia).
    assert (260000000 * IZR (departure y - departure x + k) <= v * IZR (departure y - departure x + k)) by (apply Rmult_le_compat_r; assumption). lra. }
  split; [exact L|]. split.
  - intros k Hk HP. apply X; lia.
  - intros HP. specialize (X 0%Z). lia.
Qed.
Print Assumptions C88_constellation.

(** With precision 0 (or negative) frames arrive in the order of departure. *)
Theorem C88_constellation_in_order : forall (junk : point) precision os crc fcs tx_time has_mob (w0 : world NumR) ops w new src dst c a b pos seconds v,
  Forall (fun o : leoorbit NumR => u16 (lo_planes o) /\ u16 (lo_sats o)) os ->
  link_end junk precision os (pos a) -> link_end junk precision os (pos b) ->
  reachable crc fcs tx_time has_mob w0 -> w_events w0 = [] -> (0 <= w_now w0)%Z ->
  Forall traffic ops -> run crc fcs tx_time has_mob w0 ops = Ok w -> w_log w = w_log w0 ++ new ->
  d_chan (w_dev w0 src) = Some c -> node_of w0 src = Some a -> node_of w0 dst = Some b -> has_mob a = true -> has_mob b = true ->
  c_delay (w_chan w0 c) = Some (@constant_speed NumR pos seconds v) -> rounding seconds -> 260000000 <= v ->
  (precision <= 0)%Z \/ tx_spaced precision src dst new ->
  between src dst (performed new ++ waiting (w_events w)) = map (fun x => (arrival x, frame x)) (crossings src dst new).
Proof.
  intros junk p os crc fcs tx_time has_mob w0 ops w new src dst c a b pos seconds v Hu La Lb R E0 T0 F H LG HC Na Nb Ma Mb HD RD Hv HP.
  apply (C88_order NumR crc fcs tx_time has_mob w0 ops w new src dst R E0 H LG). apply pairs_sorted. intros l1 x l2 y l3 E.
  destruct (C88_constellation junk p os crc fcs tx_time has_mob w0 ops w new src dst c a b pos seconds v Hu La Lb R T0 F H LG HC Na Nb Ma Mb HD RD Hv l1 x l2 y l3 E) as (L & _ & X).
  apply X. destruct HP as [HP|HP]; [lia|]. exact (HP l1 x l2 y l3 E).
Qed.
Print Assumptions C88_constellation_in_order.

(** Between two refreshes the time on the way does not change. *)
Theorem C88_same_period : forall (junk : point) precision os crc fcs tx_time has_mob (w0 : world NumR) ops w new src dst c a b pos seconds v,
  Forall (fun o : leoorbit NumR => u16 (lo_planes o) /\ u16 (lo_sats o)) os -> (0 < precision)%Z ->
  link_end junk precision os (pos a) -> link_end junk precision os (pos b) ->
  reachable crc fcs tx_time has_mob w0 -> (0 <= w_now w0)%Z ->
  Forall traffic ops -> run crc fcs tx_time has_mob w0 ops = Ok w -> w_log w = w_log w0 ++ new ->
  d_chan (w_dev w0 src) = Some c -> node_of w0 src = Some a -> node_of w0 dst = Some b -> has_mob a = true -> has_mob b = true ->
  c_delay (w_chan w0 c) = Some (@constant_speed NumR pos seconds v) ->
  forall x y n, In x (crossings src dst new) -> In y (crossings src dst new) ->
  (n * precision < departure x < (n + 1) * precision)%Z -> (n * precision < departure y < (n + 1) * precision)%Z ->
  (arrival y - arrival x = departure y - departure x)%Z.
Proof.
  intros junk p os crc fcs tx_time has_mob w0 ops w new src dst c a b pos seconds v Hu Hp La Lb R T0 F H LG HC Na Nb Ma Mb HD x y n Ix Iy Px Py.
  destruct (traffic_crossings crc fcs tx_time has_mob ops w0 w new src dst c a b _ R F H LG HC Na Nb Ma Mb HD) as [_ FA]. rewrite Forall_forall in FA.
  destruct (FA x Ix) as [Tx Ax]. destruct (FA y Iy) as [Ty Ay]. rewrite Ax, Ay. unfold constant_speed.
  assert (S : forall path, link_end junk p os path -> path (departure x) = path (departure y)).
  { intros path [(o & ps & S & A)|(g & G)]; [|rewrite !G; reflexivity].
    destruct (satellite_position _ _ _ _ _ _ (departure x) Hu S ltac:(lia)) as (tau & Q & ->). destruct (satellite_position _ _ _ _ _ _ (departure y) Hu S ltac:(lia)) as (tau' & Q' & ->).
    f_equal. destruct Q as [(_ & k & K1 & -> & K2)|[(Q & _)|(Q & _)]], Q' as [(_ & k' & K1' & -> & K2')|[(Q' & _)|(Q' & _)]]; try lia.
    assert (k = n) by nia. assert (k' = n) by nia. congruence. }
  rewrite (S _ La), (S _ Lb). lia.
Qed.
Print Assumptions C88_same_period.

(** ** Examples: two satellites 1200 km high, 60 degrees inclined, in neighbouring planes; nodes 10 and
    11, devices 0 and 1. Packet 7 departs 2 us before the first second is over, packet 8 2 us after. *)
Local Open Scope Z_scope.
Definition us (_ _ : Z) : Z := 1000.
Definition two_ops {N : Num} : list (op N) :=
  [OAdvance 999998000; OSend 0%nat (packet 7) (Mac 2) 2048; ORun; OAdvance 1000002000; OSend 0%nat (packet 8) (Mac 2) 2048].
(** Decide the comparisons of times and powers an execution depends on. *)
Ltac decide_all :=
  lazy -[nlt nZ nopp nadd nsub Z.add Z.leb Z.ltb frame_of AddHeader];
  repeat (match goal with
  | |- context [Z.ltb ?a ?b] => first [replace (Z.ltb a b) with true by (symmetry; apply Z.ltb_lt; lia) | replace (Z.ltb a b) with false by (symmetry; apply Z.ltb_ge; lia)]
  | |- context [Z.leb ?a ?b] => first [replace (Z.leb a b) with true by (symmetry; apply Z.leb_le; lia) | replace (Z.leb a b) with false by (symmetry; apply Z.leb_gt; lia)]
  | H : nlt _ _ _ = _ |- _ => rewrite H
  end; lazy -[nlt nZ nopp nadd nsub Z.add Z.leb Z.ltb frame_of AddHeader]).
Lemma pass_run : forall (N : Num) loss f,
  nlt N (loss (nZ N 1) 10%nat 11%nat 999998000) (nZ N (-900)) = false ->
  nlt N (loss (nZ N 1) 10%nat 11%nat 1000002000) (nZ N (-900)) = false ->
  let f1 := f 10%nat 11%nat 999998000 in let f2 := f 10%nat 11%nat 1000002000 in
  10000 <= f1 -> 10000 <= f2 -> 1000002000 + f2 < 999998000 + f1 ->
  exists (w0 w : world N) (new : trace), reachable ex_crc true us ex_mob w0 /\ w_events w0 = [] /\ w_now w0 = 0 /\ d_chan (w_dev w0 0%nat) = Some 0%nat /\ node_of w0 0 = Some 10%nat /\ node_of w0 1 = Some 11%nat /\
    c_delay (w_chan w0 0%nat) = Some f /\
    run ex_crc true us ex_mob w0 two_ops = Ok w /\ w_log w = w_log w0 ++ new /\
    crossings 0 1 new = [(999998000, frame_of ex_crc true (packet 7) 2 2048 1, f1); (1000002000, frame_of ex_crc true (packet 8) 2 2048 1, f2)] /\
    performed new = [] /\
    waiting (w_events w) = [(1000002000 + f2, frame_of ex_crc true (packet 8) 2 2048 1, 0%nat, 1%nat); (999998000 + f1, frame_of ex_crc true (packet 7) 2 2048 1, 0%nat, 1%nat)].
Proof.
  intros N loss f H1 H2 f1 f2 B1 B2 B3.
  assert (A : exists w, run ex_crc true us ex_mob (@start N) (ring_ops loss f) = Ok w) by (eexists; lazy -[nlt nZ nopp nadd nsub]; reflexivity).
  destruct A as [w0 E]. exists w0. pose proof E as E'. lazy -[nlt nZ nopp nadd nsub] in E'. injection E' as E'.
  assert (A : match run ex_crc true us ex_mob w0 two_ops with
              | Ok w => w_log w = w_log w0 ++ skipn (length (w_log w0)) (w_log w) /\
                  crossings 0 1 (skipn (length (w_log w0)) (w_log w)) =
                    [(999998000, frame_of ex_crc true (packet 7) 2 2048 1, f1); (1000002000, frame_of ex_crc true (packet 8) 2 2048 1, f2)] /\
                  performed (skipn (length (w_log w0)) (w_log w)) = [] /\
                  waiting (w_events w) = [(1000002000 + f2, frame_of ex_crc true (packet 8) 2 2048 1, 0%nat, 1%nat); (999998000 + f1, frame_of ex_crc true (packet 7) 2 2048 1, 0%nat, 1%nat)]
              | _ => False end).
  { rewrite <- E'. clear E' E w0. unfold f1, f2 in *. clear f1 f2. unfold two_ops.
    decide_all. repeat split. }
  assert (A0 : w_events w0 = [] /\ w_now w0 = 0 /\ d_chan (w_dev w0 0%nat) = Some 0%nat /\ node_of w0 0 = Some 10%nat /\ node_of w0 1 = Some 11%nat /\ c_delay (w_chan w0 0%nat) = Some f)
    by (rewrite <- E'; repeat split).
  clear E'. destruct (run ex_crc true us ex_mob w0 two_ops) as [w | |]; [| contradiction | contradiction].
  exists w, (skipn (length (w_log w0)) (w_log w)). split; [exists (fun _ => true), ex_kinds; eexists; exact E|].
  destruct A0 as (A1 & A2 & A3 & A4 & A5 & A6). repeat (split; [assumption || reflexivity|]). exact A.
Qed.
Lemma pass_run_in_order : forall (N : Num) loss f,
  nlt N (loss (nZ N 1) 10%nat 11%nat 999998000) (nZ N (-900)) = false ->
  nlt N (loss (nZ N 1) 10%nat 11%nat 1000002000) (nZ N (-900)) = false ->
  let f1 := f 10%nat 11%nat 999998000 in let f2 := f 10%nat 11%nat 1000002000 in
  10000 <= f1 -> 10000 <= f2 -> 999998000 + f1 <= 1000002000 + f2 ->
  exists (w0 w : world N) (new : trace), reachable ex_crc true us ex_mob w0 /\ w_events w0 = [] /\ w_now w0 = 0 /\ d_chan (w_dev w0 0%nat) = Some 0%nat /\ node_of w0 0 = Some 10%nat /\ node_of w0 1 = Some 11%nat /\
    c_delay (w_chan w0 0%nat) = Some f /\
    run ex_crc true us ex_mob w0 two_ops = Ok w /\ w_log w = w_log w0 ++ new /\
    crossings 0 1 new = [(999998000, frame_of ex_crc true (packet 7) 2 2048 1, f1); (1000002000, frame_of ex_crc true (packet 8) 2 2048 1, f2)] /\
    performed new = [] /\
    waiting (w_events w) = [(999998000 + f1, frame_of ex_crc true (packet 7) 2 2048 1, 0%nat, 1%nat); (1000002000 + f2, frame_of ex_crc true (packet 8) 2 2048 1, 0%nat, 1%nat)].
Proof.
  intros N loss f H1 H2 f1 f2 B1 B2 B3.
  assert (A : exists w, run ex_crc true us ex_mob (@start N) (ring_ops loss f) = Ok w) by (eexists; lazy -[nlt nZ nopp nadd nsub]; reflexivity).
  destruct A as [w0 E]. exists w0. pose proof E as E'. lazy -[nlt nZ nopp nadd nsub] in E'. injection E' as E'.
  assert (A : match run ex_crc true us ex_mob w0 two_ops with
              | Ok w => w_log w = w_log w0 ++ skipn (length (w_log w0)) (w_log w) /\
                  crossings 0 1 (skipn (length (w_log w0)) (w_log w)) =
                    [(999998000, frame_of ex_crc true (packet 7) 2 2048 1, f1); (1000002000, frame_of ex_crc true (packet 8) 2 2048 1, f2)] /\
                  performed (skipn (length (w_log w0)) (w_log w)) = [] /\
                  waiting (w_events w) = [(999998000 + f1, frame_of ex_crc true (packet 7) 2 2048 1, 0%nat, 1%nat); (1000002000 + f2, frame_of ex_crc true (packet 8) 2 2048 1, 0%nat, 1%nat)]
              | _ => False end).
  { rewrite <- E'. clear E' E w0. unfold f1, f2 in *. clear f1 f2. unfold two_ops.
    decide_all. repeat split. }
  assert (A0 : w_events w0 = [] /\ w_now w0 = 0 /\ d_chan (w_dev w0 0%nat) = Some 0%nat /\ node_of w0 0 = Some 10%nat /\ node_of w0 1 = Some 11%nat /\ c_delay (w_chan w0 0%nat) = Some f)
    by (rewrite <- E'; repeat split).
  clear E'. destruct (run ex_crc true us ex_mob w0 two_ops) as [w | |]; [| contradiction | contradiction].
  exists w, (skipn (length (w_log w0)) (w_log w)). split; [exists (fun _ => true), ex_kinds; eexists; exact E|].
  destruct A0 as (A1 & A2 & A3 & A4 & A5 & A6). repeat (split; [assumption || reflexivity|]). exact A.
Qed.

Local Open Scope R_scope.
Definition ex_cross : leoorbit NumR := @mkLeoOrbit NumR 1200 60 6 8.
Definition cross_sq (tau : Z) : R := 5 / 8 - 3 / 8 * sin (2 * (angular_rate (6371009 / 1000 + 1200) (PI / 3) * sec tau)).

Lemma turn_inner : forall r i lam lam' th,
  inner (minus (circle_point r i lam' th) (circle_point r i lam th)) (minus (circle_point r i lam' th) (circle_point r i lam th))
    = (r * r) * ((cos th * cos i) * (cos th * cos i) + sin th * sin th) * (2 - 2 * cos (lam' - lam)).
Proof.
  intros r i lam lam' th. rewrite cos_minus. unfold inner, minus, circle_point, pt, px, py, pz. cbn [vx vy vz]. pose proof (sc1 lam). pose proof (sc1 lam').
  set (a := cos lam) in *. set (b := sin lam) in *. set (a' := cos lam') in *. set (b' := sin lam') in *.
  transitivity ((r * r) * ((cos th * cos i) * (cos th * cos i) + sin th * sin th) * ((a' * a' + b' * b') + (a * a + b * b) - 2 * (a' * a + b' * b))); [ring|].
  replace (a' * a' + b' * b') with 1 by lra. replace (a * a + b * b) with 1 by lra. ring.
Qed.

Lemma cross_inner : forall tau, inner (minus (sat_path ex_cross (1, 3)%Z tau) (sat_path ex_cross (0, 3)%Z tau)) (minus (sat_path ex_cross (1, 3)%Z tau) (sat_path ex_cross (0, 3)%Z tau))
  = 7571009 * 7571009 * cross_sq tau.
Proof.
  intros tau. unfold sat_path, trajectory, cross_sq, ex_cross, earth_radius_km. cbn [fst snd lo_alt lo_inc lo_planes lo_sats].
  replace (60 * PI / 180) with (PI / 3) by field. set (x := angular_rate (6371009 / 1000 + 1200) (PI / 3) * sec tau). set (e := earth_rate * sec tau).
  replace (1000 * (6371009 / 1000 + 1200)) with 7571009 by field. unfold turn.
  replace (2 * PI * (IZR 3 / IZR 8)) with (3 * (PI / 4)) by field.
  replace (2 * PI * (IZR 0 / IZR 6) + e) with e by field. replace (2 * PI * (IZR 1 / IZR 6) + e) with (PI / 3 + e) by field.
  set (th := x + 3 * (PI / 4)).
  assert (T : cos th * cos th = (1 + sin (2 * x)) / 2).
  { assert (C : cos (2 * th) = sin (2 * x)).
    { unfold th. replace (2 * (x + 3 * (PI / 4))) with (2 * x + 3 * (PI / 2)) by field. rewrite cos_plus, cos_3PI2, sin_3PI2. ring. }
    rewrite cos_2a_cos in C. lra. }
  assert (S1 : sin th * sin th = 1 - cos th * cos th) by (pose proof (sc1 th); lra).
  rewrite turn_inner. replace (PI / 3 + e - e) with (PI / 3) by ring.
  rewrite cos_PI3, S1. replace (cos th * (1 / 2) * (cos th * (1 / 2))) with (cos th * cos th * / 4) by field. rewrite T. field.
Qed.

Lemma cross_sq_bounds : forall tau, / 4 <= cross_sq tau <= 1.
Proof. intros tau. unfold cross_sq. pose proof (SIN_bound (2 * (angular_rate (6371009 / 1000 + 1200) (PI / 3) * sec tau))). lra. Qed.

Lemma cross_distance : forall tau, distance (sat_path ex_cross (0, 3)%Z tau) (sat_path ex_cross (1, 3)%Z tau) = 7571009 * sqrt (cross_sq tau).
Proof.
  intros tau. unfold distance, norm. rewrite cross_inner, sqrt_mult_alt by lra. rewrite sqrt_square by lra. reflexivity.
Qed.

Lemma cross_rx : forall pos t t' tau tau', pos 10%nat t = sat_path ex_cross (0, 3)%Z tau -> pos 11%nat t' = sat_path ex_cross (1, 3)%Z tau' -> t = t' -> tau = tau' -> isl_loss pos 1 10%nat 11%nat t = 1.
Proof.
  intros pos t t' tau tau' E1 E2 <- <-. unfold isl_loss. rewrite E1, E2. pose proof (cross_sq_bounds tau) as B. pose proof (cross_inner tau) as I.
  assert (NP : forall ps, inner (sat_path ex_cross ps tau) (sat_path ex_cross ps tau) = 7571009 * 7571009).
  { intros ps. rewrite <- norm_sq, sat_path_norm; unfold ex_cross, earth_radius_km; cbn [lo_alt]; [field|lra]. }
  pose proof (NP (0, 3)%Z) as NP0. pose proof (NP (1, 3)%Z) as NP1.
  assert (NM : norm (sat_path ex_cross (0, 3)%Z tau) = 7571009) by (rewrite sat_path_norm; unfold ex_cross, earth_radius_km; cbn [lo_alt]; [field|lra]).
  set (P := sat_path ex_cross (0, 3)%Z tau) in *. set (Q := sat_path ex_cross (1, 3)%Z tau) in *. clearbody P Q. clear NP E1 E2.
  apply isl_rx_geometry.
  - intros ->. unfold inner, minus, pt, px, py, pz in I. cbn [vx vy vz] in I. change (num NumR) with R in *. nra.
  - left. rewrite NM. unfold isl_earth_radius. lra.
  - intros x Hx. apply norm_lt_sq; [unfold isl_earth_radius; lra|].
    assert (S : inner (on_segment P Q x) (on_segment P Q x) = (1 - x) * inner P P + x * inner Q Q - x * (1 - x) * inner (minus Q P) (minus Q P)).
    { unfold on_segment, plus, GeomSpec.scale, minus, inner, pt, px, py, pz; cbn [vx vy vz]. change (num NumR) with R in *. ring. }
    rewrite S, NP0, NP1, I. unfold isl_earth_radius.
    assert (x * (1 - x) <= / 4) by (pose proof (Rle_0_sqr (x - 1 / 2)) as SQ; unfold Rsqr in SQ; lra).
    assert (0 <= x * (1 - x)) by (apply Rmult_le_pos; lra).
    assert (x * (1 - x) * cross_sq tau <= / 4 * 1) by (apply Rmult_le_compat; lra). lra.
Qed.

(** Whole nanoseconds, rounded down. *)
Definition nanoseconds (x : R) : Z := (up (x * 1000000000) - 1)%Z.
Lemma nanoseconds_rounding : rounding nanoseconds.
Proof.
  intros x y k H. unfold nanoseconds. destruct (archimed (x * 1000000000)) as [A1 A2]. destruct (archimed (y * 1000000000)) as [B1 B2].
  unfold sec in H. apply Z.lt_succ_r. apply lt_IZR. unfold Z.succ. rewrite ?plus_IZR, ?minus_IZR. lra.
Qed.

Definition cross_path (precision : Z) (ps : Z * Z) (t : Z) : point := CalcPosition (sat_orbit (ex_cross, ps)) (latest precision t) (latest precision t).
Definition cross_pos (precision : Z) (n : nat) : Z -> point := cross_path precision (if Nat.eqb n 10 then (0, 3)%Z else (1, 3)%Z).

Lemma cross_satellite : forall (junk : point) precision ps, ps = (0, 3)%Z \/ ps = (1, 3)%Z -> satellite junk precision [ex_cross] (cross_path precision ps) ex_cross ps.
Proof.
  intros junk p ps HP.
  assert (A : Forall (fun o : leoorbit NumR => u16 (lo_planes o) /\ u16 (lo_sats o)) [ex_cross]) by (repeat constructor; cbn; lia).
  assert (B : Forall installable [ex_cross]) by (apply Forall_cons; [split; [cbn; lia|right; cbn; apply Reqb_false; lra]|apply Forall_nil]).
  destruct HP as [-> | ->]; [apply (installed_satellite NumR p junk [ex_cross] 3 ex_cross (0, 3)%Z A B eq_refl)|apply (installed_satellite NumR p junk [ex_cross] 11 ex_cross (1, 3)%Z A B eq_refl)].
Qed.

Lemma cross_delay : forall precision t, let f := @constant_speed NumR (cross_pos precision) nanoseconds 299792458 in
  f 10%nat 11%nat t = nanoseconds (7571009 * sqrt (cross_sq (latest precision t)) / 299792458) /\ (10000 <= f 10%nat 11%nat t)%Z /\ isl_loss (cross_pos precision) 1 10%nat 11%nat t = 1.
Proof.
  intros p t f. unfold f, constant_speed, cross_pos, cross_path. cbn [Nat.eqb]. rewrite !sat_orbit_R. rewrite cross_distance. split; [reflexivity|]. split.
  - unfold nanoseconds. destruct (archimed (7571009 * sqrt (cross_sq (latest p t)) / 299792458 * 1000000000)) as [A _].
    pose proof (cross_sq_bounds (latest p t)) as [B _]. apply sqrt_le_1_alt in B. replace (/ 4) with (/ 2 * / 2) in B by lra. rewrite sqrt_square in B by lra.
    change (ndiv NumR) with Rdiv. apply Z.lt_le_incl, lt_IZR. rewrite minus_IZR. lra.
  - apply (cross_rx _ t t (latest p t) (latest p t)); try reflexivity; unfold cross_pos, cross_path; cbn [Nat.eqb]; apply sat_orbit_R.
Qed.

Lemma cross_rate : 0.0011 <= angular_rate (6371009 / 1000 + 1200) (PI / 3) <= 0.0012.
Proof.
  unfold angular_rate. destruct (Rlt_dec _ _) as [L|_]; [pose proof PI_RGT_0; lra|]. unfold circular_speed, earth_radius_km.
  assert (A : sqrt (0.071 * 0.071) <= sqrt (39.8600436 / (6371009 / 1000 + 1200)) <= sqrt (0.076 * 0.076)) by (split; apply sqrt_le_1_alt; lra).
  rewrite !sqrt_square in A by lra. lra.
Qed.

(** After one second the satellites are almost 4 km closer. *)
Lemma cross_closer : (1000002000 + nanoseconds (7571009 * sqrt (cross_sq 1000000000) / 299792458) < 999998000 + nanoseconds (7571009 * sqrt (cross_sq 0) / 299792458))%Z.
Proof.
  pose proof (cross_sq_bounds 0) as [L0 U0]. pose proof (cross_sq_bounds 1000000000) as [L1 U1].
  assert (D : cross_sq 1000000000 <= cross_sq 0 - 0.0008).
  { unfold cross_sq, sec. replace (2 * (angular_rate (6371009 / 1000 + 1200) (PI / 3) * (IZR 0 / 1000000000))) with 0 by field. rewrite sin_0.
    replace (1000000000 / 1000000000) with 1 by field. rewrite Rmult_1_r. pose proof cross_rate as B. set (x := 2 * angular_rate _ _). assert (X : 0.0022 <= x <= 0.0024) by (unfold x; lra).
    assert (S : x - x * x * x / 6 <= sin x) by (apply sin_cubic; lra). assert (x * x <= 0.0024 * 0.0024) by (apply Rmult_le_compat; lra). assert (0 <= x * x) by (apply Rmult_le_pos; lra). assert (x * x * x <= 0.0024 * 0.0024 * 0.0024) by (apply Rmult_le_compat; lra). clearbody x. lra. }
  assert (E0 : cross_sq 0 = 5 / 8) by (unfold cross_sq, sec; replace (2 * (angular_rate (6371009 / 1000 + 1200) (PI / 3) * (IZR 0 / 1000000000))) with 0 by field; rewrite sin_0; lra).
  assert (G : sqrt (cross_sq 1000000000) + 0.0005 <= sqrt (cross_sq 0)).
  { pose proof (sqrt_pos (cross_sq 1000000000)). pose proof (sqrt_pos (cross_sq 0)).
    assert (Q0 : sqrt (cross_sq 0) * sqrt (cross_sq 0) = cross_sq 0) by (apply sqrt_sqrt; lra).
    assert (Q1 : sqrt (cross_sq 1000000000) * sqrt (cross_sq 1000000000) = cross_sq 1000000000) by (apply sqrt_sqrt; lra).
    assert (sqrt (cross_sq 0) <= 0.791) by (assert (K : sqrt (cross_sq 0) <= sqrt (0.791 * 0.791)) by (apply sqrt_le_1_alt; lra); rewrite sqrt_square in K by lra; exact K).
    assert (sqrt (cross_sq 1000000000) <= sqrt (cross_sq 0)) by (apply sqrt_le_1_alt; lra).
    set (a := sqrt (cross_sq 0)) in *. set (b := sqrt (cross_sq 1000000000)) in *. destruct (Rle_or_lt (b + 0.0005) a) as [|K]; [assumption|].
    assert ((a - b) * (a + b) <= 0.0005 * 1.582) by (apply Rmult_le_compat; lra). lra. }
  unfold nanoseconds. destruct (archimed (7571009 * sqrt (cross_sq 1000000000) / 299792458 * 1000000000)) as [A1 A2]. destruct (archimed (7571009 * sqrt (cross_sq 0) / 299792458 * 1000000000)) as [B1 B2].
  apply lt_IZR. rewrite !plus_IZR, !minus_IZR. lra.
Qed.

Lemma loss_ok : forall x : R, x = 1 -> nlt NumR x (nZ NumR (-900)) = false.
Proof. intros x ->. change (nlt NumR) with Rltb. change (nZ NumR (-900)) with (-900). apply Rltb_false. lra. Qed.

(** Frames do not always arrive in the order of departure, although they follow the same link, between
    satellites far below 40000 km and refreshed every second. *)
Theorem C88_order_refuted : forall junk : point, exists pos os o ps ps' (w0 : world NumR) ops w new t7 t8,
  satellite junk 1000000000 os (pos 10%nat) o ps /\ satellite junk 1000000000 os (pos 11%nat) o ps' /\ 0 <= lo_alt o <= 40000 /\
  reachable ex_crc true us ex_mob w0 /\ w_events w0 = [] /\ w_now w0 = 0%Z /\ Forall traffic ops /\
  run ex_crc true us ex_mob w0 ops = Ok w /\ w_log w = w_log w0 ++ new /\
  d_chan (w_dev w0 0%nat) = Some 0%nat /\ node_of w0 0 = Some 10%nat /\ node_of w0 1 = Some 11%nat /\
  c_delay (w_chan w0 0%nat) = Some (@constant_speed NumR pos nanoseconds 299792458) /\
  map (fun x => (departure x, frame x)) (crossings 0 1 new) =
    [(999998000%Z, frame_of ex_crc true (packet 7) 2 2048 1); (1000002000%Z, frame_of ex_crc true (packet 8) 2 2048 1)] /\
  between 0 1 (performed new ++ waiting (w_events w)) =
    [(t8, frame_of ex_crc true (packet 8) 2 2048 1); (t7, frame_of ex_crc true (packet 7) 2 2048 1)] /\ (t8 < t7)%Z.
Proof.
  intros junk. exists (cross_pos 1000000000), [ex_cross], ex_cross, (0, 3)%Z, (1, 3)%Z.
  destruct (cross_delay 1000000000 999998000) as (E1 & B1 & H1). destruct (cross_delay 1000000000 1000002000) as (E2 & B2 & H2).
  change (latest 1000000000 999998000) with 0%Z in E1. change (latest 1000000000 1000002000) with 1000000000%Z in E2.
  destruct (pass_run NumR (isl_loss (cross_pos 1000000000)) (@constant_speed NumR (cross_pos 1000000000) nanoseconds 299792458)
    (loss_ok _ H1) (loss_ok _ H2) B1 B2 ltac:(rewrite E1, E2; exact cross_closer)) as (w0 & w & new & R & EV & NW & DC & N0 & N1 & CD & H & LG & CR & PF & WT).
  exists w0, two_ops, w, new, (999998000 + @constant_speed NumR (cross_pos 1000000000) nanoseconds 299792458%R 10%nat 11%nat 999998000)%Z, (1000002000 + @constant_speed NumR (cross_pos 1000000000) nanoseconds 299792458%R 10%nat 11%nat 1000002000)%Z.
  split; [apply (cross_satellite junk 1000000000 (0, 3)%Z); left; reflexivity|]. split; [apply (cross_satellite junk 1000000000 (1, 3)%Z); right; reflexivity|].
  split; [unfold ex_cross; cbn [lo_alt]; lra|]. split; [exact R|]. split; [exact EV|]. split; [exact NW|].
  split; [repeat constructor|]. split; [exact H|]. split; [exact LG|]. split; [exact DC|]. split; [exact N0|]. split; [exact N1|]. split; [exact CD|].
  split; [rewrite CR; reflexivity|]. split; [rewrite PF, WT; reflexivity|]. rewrite E1, E2. exact cross_closer.
Qed.
Print Assumptions C88_order_refuted.

(** The same satellites with precision 0, and the hypotheses of C88_constellation_in_order. *)
Example ex_C88 : forall junk : point, exists pos (w0 : world NumR) ops w new t7 t8,
  Forall (fun o : leoorbit NumR => u16 (lo_planes o) /\ u16 (lo_sats o)) [ex_cross] /\
  link_end junk 0 [ex_cross] (pos 10%nat) /\ link_end junk 0 [ex_cross] (pos 11%nat) /\ rounding nanoseconds /\
  reachable ex_crc true us ex_mob w0 /\ w_events w0 = [] /\ w_now w0 = 0%Z /\ Forall traffic ops /\
  run ex_crc true us ex_mob w0 ops = Ok w /\ w_log w = w_log w0 ++ new /\
  d_chan (w_dev w0 0%nat) = Some 0%nat /\ node_of w0 0 = Some 10%nat /\ node_of w0 1 = Some 11%nat /\
  c_delay (w_chan w0 0%nat) = Some (@constant_speed NumR pos nanoseconds 299792458) /\
  between 0 1 (performed new ++ waiting (w_events w)) =
    [(t7, frame_of ex_crc true (packet 7) 2 2048 1); (t8, frame_of ex_crc true (packet 8) 2 2048 1)] /\ (t7 <= t8)%Z.
Proof.
  intros junk. exists (cross_pos 0).
  assert (Hu : Forall (fun o : leoorbit NumR => u16 (lo_planes o) /\ u16 (lo_sats o)) [ex_cross]) by (repeat constructor; cbn; lia).
  assert (LA : link_end junk 0 [ex_cross] (cross_pos 0 10)) by (left; exists ex_cross, (0, 3)%Z; split; [apply (cross_satellite junk 0 (0, 3)%Z); left; reflexivity|unfold ex_cross; cbn [lo_alt]; lra]).
  assert (LB : link_end junk 0 [ex_cross] (cross_pos 0 11)) by (left; exists ex_cross, (1, 3)%Z; split; [apply (cross_satellite junk 0 (1, 3)%Z); right; reflexivity|unfold ex_cross; cbn [lo_alt]; lra]).
  destruct (cross_delay 0 999998000) as (E1 & B1 & H1). destruct (cross_delay 0 1000002000) as (E2 & B2 & H2).
  assert (O : (999998000 + @constant_speed NumR (cross_pos 0) nanoseconds 299792458%R 10%nat 11%nat 999998000 <=
               1000002000 + @constant_speed NumR (cross_pos 0) nanoseconds 299792458%R 10%nat 11%nat 1000002000)%Z).
  { rewrite <- (Z.add_0_r (1000002000 + _)%Z).
    apply (drift_delay 0 (cross_pos 0 10) (cross_pos 0 11) 26000 26000 0 nanoseconds 299792458 999998000 1000002000 0 nanoseconds_rounding); try lra; try lia.
    - exact (end_drifts junk 0 _ _ 0 Hu (Z.le_refl 0) LA).
    - exact (end_drifts junk 0 _ _ 0 Hu (Z.le_refl 0) LB).
    - change (1000002000 - 999998000 + 0)%Z with 4000%Z. unfold sec. lra. }
  destruct (pass_run_in_order NumR (isl_loss (cross_pos 0)) (@constant_speed NumR (cross_pos 0) nanoseconds 299792458)
    (loss_ok _ H1) (loss_ok _ H2) B1 B2 O) as (w0 & w & new & R & EV & NW & DC & N0 & N1 & CD & H & LG & CR & PF & WT).
  exists w0, two_ops, w, new, (999998000 + @constant_speed NumR (cross_pos 0) nanoseconds 299792458%R 10%nat 11%nat 999998000)%Z, (1000002000 + @constant_speed NumR (cross_pos 0) nanoseconds 299792458%R 10%nat 11%nat 1000002000)%Z.
  split; [exact Hu|]. split; [exact LA|]. split; [exact LB|]. split; [exact nanoseconds_rounding|].
  split; [exact R|]. split; [exact EV|]. split; [exact NW|].
  split; [repeat constructor|]. split; [exact H|]. split; [exact LG|]. split; [exact DC|]. split; [exact N0|]. split; [exact N1|]. split; [exact CD|].
  split; [rewrite PF, WT; reflexivity|]. exact O.
Qed.
