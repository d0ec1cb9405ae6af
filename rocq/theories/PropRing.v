(** C92: satellites that follow each other in one orbital plane. *)
Require Import ZArith Reals Lra Lia List Bool.
Require Import Verif.Base Verif.Num Verif.NumR Verif.Vec Verif.OrbitModel Verif.MobilityModel Verif.AllocModel
  Verif.LossModel Verif.FrameModel Verif.NetModel Verif.HelperModel Verif.ReactModel
  Verif.GeomSpec Verif.OrbitSpec Verif.AllocSpec Verif.LossSpec Verif.NetSpec Verif.NetRunSpec Verif.ConstellationSpec Verif.RelaySpec Verif.RingSpec
  Verif.LossProofs Verif.LeoLossProofs Verif.OrbitProofs Verif.ConstellationProofs Verif.RelayProofs Verif.RingProofs Verif.PropConstellation Verif.PropRelay.
Import ListNotations.
Local Open Scope R_scope.

(** Two satellites of a plane keep their distance, and the line between them stays equally
    far from the Earth, whatever the inclination, the plane and the time. *)
Theorem C92_plane : forall (o : leoorbit NumR) p j k tau, 0 <= earth_radius_km + lo_alt o -> (0 < lo_sats o)%Z ->
  distance (sat_path o (p, j) tau) (sat_path o (p, k) tau) = 2 * radius o * Rabs (sin (half_gap (lo_sats o) j k)) /\
  (unobstructed isl_earth_radius (sat_path o (p, j) tau) (sat_path o (p, k) tau) <->
   isl_earth_radius < radius o * Rabs (cos (half_gap (lo_sats o) j k))).
Proof. exact plane_facts. Qed.
Print Assumptions C92_plane.

(** So links within a plane are there always or never, with a fixed delay: unless an update
    is due at the very moment, devices hear each other exactly if the middle of the line
    between them is outside the Earth. *)
Theorem C92_links : forall (junk : point) precision os pos has_mob seconds v (w : world NumR) c d dst a b o p j k,
  Forall (fun o : leoorbit NumR => u16 (lo_planes o) /\ u16 (lo_sats o)) os ->
  satellite junk precision os (pos a) o (p, j) -> satellite junk precision os (pos b) o (p, k) -> j <> k -> 0 <= lo_alt o ->
  node_of w d = Some a -> node_of w dst = Some b -> has_mob a = true -> has_mob b = true ->
  c_loss (w_chan w c) = Some (isl_loss pos) -> c_delay (w_chan w c) = Some (constant_speed pos seconds v) ->
  -900 <= g_txp (d_cfg (w_dev w d)) -> (0 <= w_now w)%Z -> one_instant precision (w_now w) ->
  (hears has_mob w c d dst = true <-> isl_earth_radius < radius o * Rabs (cos (half_gap (lo_sats o) j k))) /\
  (hears has_mob w c d dst = true -> power_at has_mob w c d dst = g_txp (d_cfg (w_dev w d))) /\
  forall tx, delay_to has_mob w c d dst tx = seconds (2 * radius o * Rabs (sin (half_gap (lo_sats o) j k)) / v).
Proof.
  intros junk precision os pos has_mob seconds v w c d dst a b o p j k Hu Sa Sb JK A Na Nb Ma Mb HL HD HP Ht ONE.
  pose proof (place_bounds _ _ _ _ _ _ _ Hu Sa) as J. pose proof (place_bounds _ _ _ _ _ _ _ Hu Sb) as K.
  destruct (C80_isl_hears junk precision os pos has_mob seconds v w c d dst a b _ _ _ _ Hu Sa Sb A A Na Nb Ma Mb HL HD HP Ht) as (ta & tb & Ra & Rb & DL & HH).
  assert (tb = ta) by (eapply one_refreshed; eassumption). subst tb. clear Rb. cbv zeta in *.
  assert (A' : 0 <= earth_radius_km + lo_alt o) by (unfold earth_radius_km; lra).
  destruct (plane_facts o p j k ta A' ltac:(lia)) as [F1 F2]. rewrite F1 in DL.
  assert (NE : sat_path o (p, j) ta <> sat_path o (p, k) ta).
  { intros E. rewrite E in F1. assert (Z0 : distance (sat_path o (p, k) ta) (sat_path o (p, k) ta) = 0).
    { unfold distance, norm. replace (inner _ _) with 0; [apply sqrt_0|]. unfold inner, minus, pt, px, py, pz. cbn [vx vy vz]. change (num NumR) with R. ring. }
    rewrite Z0 in F1. pose proof (gap_apart _ _ _ J K JK) as G. assert (0 < 2 * radius o) by (unfold radius, earth_radius_km; lra).
    assert (0 < 2 * radius o * Rabs (sin (half_gap (lo_sats o) j k))) by (apply Rmult_lt_0_compat; assumption). lra. }
  destruct (HH NE) as [H1 H2]. split; [rewrite H1; exact F2|]. split; [exact H2|exact DL].
Qed.
Print Assumptions C92_links.

(** A packet sent around the ring: with neighbours in sight of each other, it takes the same
    time for every hop. *)
Theorem C92_relay : forall (junk : point) precision os pos crc fcs tx_time has_mob seconds v next payload q uid (w : world NumR) c (o : leoorbit NumR) pl j dev n,
  Forall (fun o : leoorbit NumR => u16 (lo_planes o) /\ u16 (lo_sats o)) os -> 0 <= lo_alt o ->
  isl_earth_radius < radius o * cos (PI / IZR (lo_sats o)) ->
  (1 <= n)%nat -> (Z.of_nat n < lo_sats o)%Z ->
  c_kind (w_chan w c) = IslChannel -> NoDup (map (addr_of w) (c_link (w_chan w c))) ->
  c_loss (w_chan w c) = Some (isl_loss pos) -> c_delay (w_chan w c) = Some (constant_speed pos seconds v) ->
  (forall x, 0 <= x -> (0 <= seconds x)%Z) -> 0 < v ->
  (forall i, (i <= n)%nat -> ring_device junk precision os pos has_mob tx_time w c o pl j dev i) ->
  routed w next (ring_path c dev n) -> w_events w = [] -> (0 <= w_now w)%Z -> (length payload <= 1492)%nat -> (0 <= q < 2 ^ 16)%Z ->
  let D := seconds (2 * radius o * sin (PI / IZR (lo_sats o)) / v) in
  (forall i, (i < n)%nat -> one_instant precision (w_now w + Z.of_nat i * D)) ->
  exists k w',
    runR crc fcs tx_time has_mob (route next uid) w (OSend (dev 0%nat) (mkPkt uid payload) (Mac (addr_of w (dev 1%nat))) q :: repeat ORun k) = Ok w' /\
    w_events w' = [] /\
    handed (w_log w') = handed (w_log w) ++
      map (fun i => ((w_now w + Z.of_nat (S i) * D)%Z,
                     RxCallback (dev (S i)) (dev i) payload q (addr_of w (dev i)) (addr_of w (dev (S i))) (addr_of w (dev (S i))))) (seq 0 n).
Proof.
  intros junk precision os pos crc fcs tx_time has_mob seconds v next payload q uid w c o pl j dev n Hu A VIS N1 NS KI ND HL HD SEC V RD RT EV T0 PL Q D ONE.
  assert (S2 : (1 < lo_sats o)%Z) by lia.
  assert (INJ : forall i i', (i <= n)%nat -> (i' <= n)%nat -> dev i = dev i' -> i = i').
  { intros i i' Hi Hi' E. destruct (RD i Hi) as ((a & N & _ & SA) & _). destruct (RD i' Hi') as ((b & M & _ & SB) & _). rewrite E, M in N. injection N as <-.
    pose proof (same_place _ _ _ _ _ _ _ _ Hu A SA SB) as PE. pose proof (Z.div_mod (j + Z.of_nat i) (lo_sats o) ltac:(lia)) as M1. pose proof (Z.div_mod (j + Z.of_nat i') (lo_sats o) ltac:(lia)) as M2. rewrite PE in M1.
    revert M1 M2. generalize ((j + Z.of_nat i) / lo_sats o)%Z ((j + Z.of_nat i') / lo_sats o)%Z ((j + Z.of_nat i') mod lo_sats o)%Z. intros x y z M1 M2.
    assert (X : (Z.of_nat i - Z.of_nat i' = lo_sats o * (x - y))%Z) by lia.
    assert (XY : (x - y = 0)%Z) by (destruct (Z_lt_ge_dec 0 (x - y)); [nia|]; destruct (Z_lt_ge_dec (x - y) 0); [nia|lia]).
    rewrite XY in X. lia. }
  assert (D0 : (0 <= D)%Z).
  { apply SEC. assert (0 <= sin (PI / IZR (lo_sats o))) by (destruct (gap_next (lo_sats o) j (j + 1) ltac:(lia) eq_refl S2) as [<- _]; apply Rabs_pos).
    apply Rmult_le_pos; [apply Rmult_le_pos; [unfold radius, earth_radius_km; lra|assumption]|left; apply Rinv_0_lt_compat; exact V]. }
  assert (LINK : forall i t, (i < n)%nat -> (0 <= t)%Z -> one_instant precision t ->
    hears has_mob (set_now w t) c (dev i) (dev (S i)) = true /\ power_at has_mob (set_now w t) c (dev i) (dev (S i)) = g_txp (d_cfg (w_dev w (dev i))) /\
    forall tx, delay_to has_mob (set_now w t) c (dev i) (dev (S i)) tx = D).
  { intros i t Hi Ht HO. destruct (RD i ltac:(lia)) as ((a & Na & Ma & Sa) & _ & _ & _ & _ & _ & _ & _ & _ & TXP & _). destruct (RD (S i) ltac:(lia)) as ((b & Nb & Mb & Sb) & _).
    replace (j + Z.of_nat (S i))%Z with (j + Z.of_nat i + 1)%Z in Sb by lia.
    destruct (gap_next (lo_sats o) (j + Z.of_nat i) _ ltac:(lia) eq_refl S2) as [GS GC].
    assert (JK : ((j + Z.of_nat i) mod lo_sats o <> (j + Z.of_nat i + 1) mod lo_sats o)%Z).
    { intros E. rewrite E in GC. unfold half_gap in GC. rewrite Z.sub_diag in GC. replace (PI * 0 / IZR (lo_sats o)) with 0 in GC by (field; apply not_0_IZR; lia). rewrite cos_0, Rabs_R1 in GC.
      assert (GS' : Rabs (sin (half_gap (lo_sats o) ((j + Z.of_nat i) mod lo_sats o) ((j + Z.of_nat i + 1) mod lo_sats o))) = 0).
      { rewrite E. unfold half_gap. rewrite Z.sub_diag. replace (PI * 0 / IZR (lo_sats o)) with 0 by (field; apply not_0_IZR; lia). rewrite sin_0. apply Rabs_R0. }
      rewrite GS in GS'. assert (P : 0 < sin (PI / IZR (lo_sats o))).
      { pose proof PI_RGT_0. assert (2 <= IZR (lo_sats o)) by (apply IZR_le; lia). apply sin_gt_0; [apply Rdiv_lt_0_compat; lra|].
        apply Rmult_lt_reg_r with (IZR (lo_sats o)); [lra|]. replace (PI / IZR (lo_sats o) * IZR (lo_sats o)) with PI by (field; lra). nra. }
      lra. }
    destruct (C92_links junk precision os pos has_mob seconds v (set_now w t) c (dev i) (dev (S i)) a b o pl _ _ Hu Sa Sb JK A Na Nb Ma Mb HL HD TXP Ht HO) as (L1 & L2 & L3).
    rewrite GS in L3. rewrite GC in L1. apply L1 in VIS. split; [exact VIS|]. split; [apply L2; exact VIS|exact L3]. }
  assert (HD' : forall i t, (i < n)%nat -> (0 <= t)%Z -> one_instant precision t -> hop_delay crc fcs tx_time has_mob w payload q uid t (mkHop (dev i) c (dev (S i))) = D).
  { intros i t Hi Ht HO. apply (LINK i t Hi Ht HO). }
  assert (US : forall i t, (i < n)%nat -> (0 <= t)%Z -> one_instant precision t -> usable crc fcs tx_time has_mob w payload q uid t (mkHop (dev i) c (dev (S i)))).
  { intros i t Hi Ht HO. destruct (LINK i t Hi Ht HO) as (L1 & L2 & L3).
    destruct (RD i ltac:(lia)) as ((a & Na & Ma & Sa) & CH & LK & UP & BU & QE & (admit & QU & QA) & TX & AD & TXP & ER & CB & THR).
    destruct (RD (S i) ltac:(lia)) as ((b & Nb & Mb & Sb) & CH' & LK' & UP' & _ & _ & _ & _ & AD' & _ & ER' & CB' & THR').
    assert (RX : forall x, recipient w c (dev i) (addr_of w (dev (S i))) x <-> x = dev (S i)).
    { intros x. unfold recipient. cbv zeta. rewrite KI. split.
      - intros [(k & K1 & K2 & _)|(_ & B & _)]; [|exfalso; unfold addr_of in B; tauto].
        assert (E : k = d_id (w_dev w (dev (S i)))).
        { eapply (proj1 (NoDup_nth_error _) ND).
          - rewrite map_length. apply nth_error_Some. rewrite K1. discriminate.
          - rewrite !nth_error_map, K1, LK'. cbn. f_equal. exact K2. }
        subst k. congruence.
      - intros ->. left. eexists. split; [exact LK'|]. split; [reflexivity|]. intros k x HK HX E.
        assert (EK : k = d_id (w_dev w (dev (S i)))).
        { eapply (proj1 (NoDup_nth_error _) ND).
          - rewrite map_length. apply nth_error_Some. rewrite HX. discriminate.
          - rewrite !nth_error_map, HX, LK'. cbn. f_equal. exact E. }
        lia. }
    unfold usable. cbv zeta. cbn [h_from h_to h_over].
    split; [intros E; apply INJ in E; lia|]. split; [auto|]. split; [exists admit; split; [exact QU|apply QA]|]. split; [apply TX|].
    unfold addr_of in *. split; [tauto|]. split; [apply RX; reflexivity|].
    split. { intros x HX. apply RX in HX as ->. split; [unfold node_of; rewrite Nb; discriminate|]. split; [left; reflexivity|]. rewrite L3. exact D0. }
    split; [rewrite KI; discriminate|]. split; [exact L1|]. split; [rewrite L2; apply Rltb_false, THR'|].
    split; [rewrite ER'; discriminate|exact CB']. }
  assert (PASS : forall m i, (i + m <= n)%nat -> passable crc fcs tx_time has_mob w payload q uid (w_now w + Z.of_nat i * D) (map (fun i => mkHop (dev i) c (dev (S i))) (seq i m)) /\
    arrivals crc fcs tx_time has_mob w payload q uid (w_now w + Z.of_nat i * D) (map (fun i => mkHop (dev i) c (dev (S i))) (seq i m)) =
    map (fun i => ((w_now w + Z.of_nat (S i) * D)%Z, RxCallback (dev (S i)) (dev i) payload q (addr_of w (dev i)) (addr_of w (dev (S i))) (addr_of w (dev (S i))))) (seq i m)).
  { induction m as [|m IH]; intros i Hi; [split; [exact I|reflexivity]|]. cbn [seq map passable arrivals]. cbv zeta. cbn [h_from h_to].
    rewrite HD' by (try apply ONE; lia). replace (w_now w + Z.of_nat i * D + D)%Z with (w_now w + Z.of_nat (S i) * D)%Z by lia.
    destruct (IH (S i) ltac:(lia)) as [I1 I2]. split; [split; [apply US; try apply ONE; lia|exact I1]|]. f_equal. exact I2. }
  destruct (PASS n 0%nat ltac:(lia)) as [P1 P2]. change (Z.of_nat 0) with 0%Z in P1, P2. rewrite Z.mul_0_l, Z.add_0_r in P1, P2.
  destruct n as [|n]; [lia|]. unfold ring_path in RT. rewrite <- P2. cbn [seq map] in RT, P1 |- *.
  apply (C91_relay NumR crc fcs tx_time has_mob next payload q uid w (mkHop (dev 0%nat) c (dev 1%nat)) _ PL Q EV RT P1).
  - change (mkHop (dev 0%nat) c (dev 1%nat) :: map (fun i => mkHop (dev i) c (dev (S i))) (seq 1 n)) with (map (fun i => mkHop (dev i) c (dev (S i))) (seq 0 (S n))).
    rewrite map_map. cbn [h_from]. apply NoDup_map_on; [apply seq_NoDup|]. intros x y Hx Hy E. apply in_seq in Hx, Hy. apply INJ; [lia|lia|exact E].
  - change (mkHop (dev 0%nat) c (dev 1%nat) :: map (fun i => mkHop (dev i) c (dev (S i))) (seq 1 n)) with (map (fun i => mkHop (dev i) c (dev (S i))) (seq 0 (S n))).
    apply Forall_forall. intros x Hx. apply in_map_iff in Hx. destruct Hx as (i & <- & Hi). apply in_seq in Hi. cbn [h_from]. destruct (RD i ltac:(lia)) as (_ & _ & _ & _ & BU & QE & _). auto.
Qed.
Print Assumptions C92_relay.

(** Four satellites 3000 km over one meridian, refreshed every second, hear their neighbours but not
    the one opposite; a packet goes three quarters around the ring. *)
Definition ring_world (pos : nat -> Z -> point) : world NumR := set_now (ex_ring_world pos) 1.
Definition ring_next (d : nat) : option (nat * Z) :=
  match d with 1%nat => Some (1%nat, 3%Z) | 2%nat => Some (2%nat, 4%Z) | _ => None end.
Example ex_C92_links : isl_earth_radius < radius (@mkLeoOrbit NumR 3000 90 1 4) * Rabs (cos (half_gap 4 0 1)) /\
  ~ isl_earth_radius < radius (@mkLeoOrbit NumR 3000 90 1 4) * Rabs (cos (half_gap 4 2 0)).
Proof.
  unfold half_gap, radius, isl_earth_radius, earth_radius_km. cbn [lo_alt]. split.
  - replace (PI * IZR (0 - 1) / 4) with (- (PI / 4)) by (cbn; field). rewrite cos_neg, cos_PI4. pose proof Rlt_sqrt2_0 as P. rewrite Rabs_pos_eq by (left; apply Rdiv_lt_0_compat; lra).
    assert (Q : sqrt 2 <= 14 / 10 + 2 / 100) by (rewrite <- (sqrt_square (14 / 10 + 2 / 100)) by lra; apply sqrt_le_1_alt; lra).
    apply Rmult_lt_reg_r with (sqrt 2); [exact P|]. replace (1000 * (6371009 / 1000 + 3000) * (1 / sqrt 2) * sqrt 2) with 9371009 by (field; lra). lra.
  - replace (PI * IZR (2 - 0) / 4) with (PI / 2) by (cbn; field). rewrite cos_PI2, Rabs_R0. lra.
Qed.
Example ex_C92 : forall junk : point, exists pos,
  (forall k, (k < 4)%nat -> satellite junk 1000000000 ex_ring (pos k) (@mkLeoOrbit NumR 3000 90 1 4) (0%Z, Z.of_nat k)) /\
  let D := up (2 * 9371009 * (1 / sqrt 2) / 299792458 * 1000000000) in
  exists k w', runR (fun _ => 0%Z) true (fun _ _ => 64000000%Z) (fun _ => true) (route ring_next 7) (ring_world pos)
      (OSend 0%nat (mkPkt 7 [1; 2; 3]%Z) (Mac 2) 2048 :: repeat ORun k) = Ok w' /\ w_events w' = [] /\
    handed (w_log w') = [((1 + D)%Z, RxCallback 1 0 [1; 2; 3]%Z 2048 1 2 2); ((1 + 2 * D)%Z, RxCallback 2 1 [1; 2; 3]%Z 2048 2 3 3);
                         ((1 + 3 * D)%Z, RxCallback 3 2 [1; 2; 3]%Z 2048 3 4 4)].
Proof.
  intros junk. destruct (ex_ring_satellite junk) as (pos & SA). destruct ex_ring_ok as (Hu & _). exists pos. split; [exact SA|]. intros D.
  set (o := @mkLeoOrbit NumR 3000 90 1 4). pose proof Rlt_sqrt2_0 as P2.
  assert (ED : (fun x => up (x * 1000000000)) (2 * radius o * sin (PI / IZR (lo_sats o)) / 299792458) = D).
  { unfold D. cbn [lo_sats o]. rewrite sin_PI4. cbv beta. f_equal. unfold radius, earth_radius_km. cbn [lo_alt o]. field. lra. }
  assert (BD : (0 <= D <= 100000000)%Z).
  { unfold D. set (x := 2 * 9371009 * (1 / sqrt 2) / 299792458 * 1000000000). destruct (archimed x) as [U1 U2].
    assert (X : 0 <= x <= 90000000).
    { unfold x. assert (I1 : 0 < 1 / sqrt 2 <= 1). { split; [apply Rdiv_lt_0_compat; lra|]. apply Rmult_le_reg_r with (sqrt 2); [exact P2|]. replace (1 / sqrt 2 * sqrt 2) with 1 by (field; lra). assert (S1 : sqrt 1 <= sqrt 2) by (apply sqrt_le_1_alt; lra). rewrite sqrt_1 in S1. lra. }
      lra. }
    split; apply le_IZR; lra. }
  destruct (C92_relay junk 1000000000 ex_ring pos (fun _ => 0%Z) true (fun _ _ => 64000000%Z) (fun _ => true) (fun x => up (x * 1000000000)) 299792458 ring_next [1; 2; 3]%Z 2048 7
    (ring_world pos) 0%nat o 0 0 (fun i => i) 3 Hu) as (k & w' & H1 & H2 & H3); try reflexivity.
  - cbn. lra.
  - destruct ex_C92_links as [V _]. fold o in V. replace (PI / IZR (lo_sats o)) with (PI / 4) by reflexivity.
    replace (half_gap 4 0 1) with (- (PI / 4)) in V by (unfold half_gap; cbn; field). rewrite cos_neg, Rabs_pos_eq in V; [exact V|]. rewrite cos_PI4. left. apply Rdiv_lt_0_compat; lra.
  - lia.
  - cbn. repeat constructor; cbn; intuition discriminate.
  - intros x Hx. apply le_IZR. destruct (archimed (x * 1000000000)) as [U _]. lra.
  - lra.
  - intros i Hi. unfold ring_device. cbv zeta. split.
    { exists i. split; [reflexivity|]. split; [reflexivity|]. rewrite Z.add_0_l, Z.mod_small by (cbn; lia). apply SA. lia. }
    split; [reflexivity|]. split; [destruct i as [|[|[|[|i]]]]; try reflexivity; lia|]. split; [reflexivity|]. split; [reflexivity|]. split; [reflexivity|].
    split; [eexists; split; [reflexivity|intros f; reflexivity]|]. split; [intros n; cbn; lia|].
    split; [destruct i as [|[|[|[|i]]]]; try lia; cbn; repeat split; lia|]. cbn. repeat split; lra.
  - cbn. auto.
  - cbn. lia.
  - cbn. lia.
  - lia.
  - cbv zeta. rewrite ED. intros i Hi. right. cbn [ring_world set_now w_now]. clearbody D. destruct i as [|[|[|i]]]; [..|lia]; rewrite Z.mod_small; lia.
  - exists k, w'. split; [exact H1|]. split; [exact H2|]. rewrite H3, ED. clear. clearbody D. cbn. destruct D; reflexivity.
Qed.
