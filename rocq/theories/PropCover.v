(** C93: which stations the satellites of a constellation reach. *)
Require Import ZArith Reals Lra Lia List Bool.
Require Import Verif.Base Verif.Num Verif.NumR Verif.Vec Verif.OrbitModel Verif.MobilityModel Verif.AllocModel
  Verif.LossModel Verif.FrameModel Verif.NetModel Verif.HelperModel
  Verif.GeomSpec Verif.OrbitSpec Verif.AllocSpec Verif.LossSpec Verif.NetSpec Verif.NetRunSpec Verif.ConstellationSpec Verif.RingSpec Verif.CoverSpec
  Verif.LossProofs Verif.LeoLossProofs Verif.OrbitProofs Verif.ConstellationProofs Verif.RingProofs Verif.CoverProofs Verif.OrbitApiProofs Verif.TracingProofs Verif.PropConstellation.
Import ListNotations.
Local Open Scope R_scope.

(** The satellites of a plane and a point [g]: with enough of them one is always within [D],
    and if the plane is too far away none ever is. *)
Theorem C93_plane : forall (o : leoorbit NumR) p tau g D, 0 <= earth_radius_km + lo_alt o -> (0 < lo_sats o)%Z -> 0 <= D ->
  (law_of_cosines (radius o) D g <= radius o * in_plane g (orbit_normal o p tau) * cos (PI / IZR (lo_sats o)) ->
   exists j, (0 <= j < lo_sats o)%Z /\ distance g (sat_path o (p, j) tau) <= D) /\
  (radius o * in_plane g (orbit_normal o p tau) < law_of_cosines (radius o) D g -> forall j, D < distance g (sat_path o (p, j) tau)).
Proof.
  intros o p tau g D H S D0. assert (R0 : 0 <= radius o) by (unfold radius; lra). destruct (plane_reach o p tau g R0 S) as [(j & J & C) U]. split.
  - intros L. exists j. split; [exact J|]. apply (distance_law g _ (radius o) D D0 (sat_inner_self o (p, j) tau)). eapply Rle_trans; eassumption.
  - intros L k. apply Rnot_le_lt. intros N. apply (distance_law g _ (radius o) D D0 (sat_inner_self o (p, k) tau)) in N. specialize (U k). lra.
Qed.
Print Assumptions C93_plane.

(** The satellites of a polar orbit and a point anywhere. *)
Theorem C93_polar : forall (o : leoorbit NumR) tau g D, lo_inc o = 90 -> 0 <= earth_radius_km + lo_alt o -> (2 <= lo_planes o)%Z -> (2 <= lo_sats o)%Z -> 0 <= D ->
  law_of_cosines (radius o) D g <= radius o * norm g * cos (PI / IZR (lo_planes o)) * cos (PI / IZR (lo_sats o)) ->
  exists p j, (0 <= p < lo_planes o)%Z /\ (0 <= j < lo_sats o)%Z /\ distance g (sat_path o (p, j) tau) <= D.
Proof.
  intros o tau g D I H P S D0 L. assert (R0 : 0 <= radius o) by (unfold radius; lra). destruct (polar_plane o tau g I P) as (p & HP & C).
  destruct (C93_plane o p tau g D H ltac:(lia) D0) as [E _]. destruct E as (j & J & E); [|exists p, j; auto].
  eapply Rle_trans; [exact L|]. rewrite !Rmult_assoc. apply Rmult_le_compat_l; [exact R0|]. rewrite <- Rmult_assoc. apply Rmult_le_compat_r; [|exact C].
  pose proof PI_RGT_0. assert (2 <= IZR (lo_sats o)) by (apply IZR_le; lia). destruct (pi_part (lo_sats o) ltac:(lia)) as [Q1 Q2].
  assert (PI / IZR (lo_sats o) <= PI / 2) by (apply Rmult_le_compat_l; [lra|]; apply Rinv_le_contravar; lra). apply cos_ge_0; lra.
Qed.
Print Assumptions C93_polar.

Lemma slant_nonneg : forall R h e, 0 <= R -> R < h -> 0 <= slant_range R h e.
Proof.
  intros R h e R0 H. unfold slant_range. assert (X : h * sin e <= sqrt (h * sin e * (h * sin e) + h * h - R * R)); [|lra].
  destruct (Rle_dec 0 (h * sin e)) as [P|P]; [|apply Rle_trans with 0; [lra|apply sqrt_pos]].
  rewrite <- (sqrt_square (h * sin e)) at 1 by exact P. apply sqrt_le_1_alt. assert (R * R <= h * h) by (apply Rmult_le_compat; lra). lra.
Qed.

(** They hear each other both ways or not at all. *)
Lemma fleet_hears : forall (junk : point) precision os pos has_mob seconds v e atm fspl margin (w : world NumR) c d g (o : leoorbit NumR) dev (planes : Z -> Prop),
  Forall (fun o : leoorbit NumR => u16 (lo_planes o) /\ u16 (lo_sats o)) os ->
  station_and_fleet junk precision os pos has_mob e atm fspl margin w c d g o dev planes ->
  c_delay (w_chan w c) = Some (constant_speed pos seconds v) ->
  leo_earth_radius < radius o -> 0 < norm g <= leo_earth_radius -> 0 <= e < 90 -> (0 <= w_now w)%Z -> one_instant precision (w_now w) ->
  forall tau, refreshed precision (w_now w) tau ->
  forall p j, planes p -> (0 <= j < lo_sats o)%Z ->
  let near := distance g (sat_path o (p, j) tau) <= slant_range leo_earth_radius (radius o) (radians e) in
  (hears has_mob w c d (dev p j) = true <-> near) /\ (hears has_mob w c (dev p j) d = true <-> near).
Proof.
  intros junk precision os pos has_mob seconds v e atm fspl margin w c d g o dev planes Hu ((b & Nb & Mb & G) & SD & FL & HL) HD HR HG He T ONE tau RF p j HP HJ near.
  destruct (FL p j HP HJ) as (SJ & a & Na & Ma & SA).
  destruct (C80_ground_hears junk precision os pos has_mob seconds v e atm fspl margin w c d (dev p j) b a a o (p, j) g Hu SA HR HG (or_intror (conj eq_refl G)) Nb Na Mb Ma HL HD He SD T) as (t1 & R1 & _ & H1 & _).
  destruct (C80_ground_hears junk precision os pos has_mob seconds v e atm fspl margin w c (dev p j) d a b a o (p, j) g Hu SA HR HG (or_introl (conj eq_refl G)) Na Nb Ma Mb HL HD He SJ T) as (t2 & R2 & _ & H2 & _).
  assert (t1 = tau) by (eapply one_refreshed; eassumption). assert (t2 = tau) by (eapply one_refreshed; eassumption). subst. split; assumption.
Qed.

(** So a station is in touch with a plane as long as the plane is near enough, and out of touch
    while it is too far. *)
Theorem C93_station : forall (junk : point) precision os pos has_mob seconds v e atm fspl margin (w : world NumR) c d g (o : leoorbit NumR) dev p,
  Forall (fun o : leoorbit NumR => u16 (lo_planes o) /\ u16 (lo_sats o)) os -> (0 < lo_sats o)%Z ->
  station_and_fleet junk precision os pos has_mob e atm fspl margin w c d g o dev (fun x => x = p) ->
  c_delay (w_chan w c) = Some (constant_speed pos seconds v) ->
  leo_earth_radius < radius o -> 0 < norm g <= leo_earth_radius -> 0 <= e < 90 -> (0 <= w_now w)%Z -> one_instant precision (w_now w) ->
  let L := law_of_cosines (radius o) (slant_range leo_earth_radius (radius o) (radians e)) g in
  exists tau, refreshed precision (w_now w) tau /\
    (L <= radius o * in_plane g (orbit_normal o p tau) * cos (PI / IZR (lo_sats o)) ->
     exists j, (0 <= j < lo_sats o)%Z /\ hears has_mob w c d (dev p j) = true /\ hears has_mob w c (dev p j) d = true) /\
    (radius o * in_plane g (orbit_normal o p tau) < L ->
     forall j, (0 <= j < lo_sats o)%Z -> hears has_mob w c d (dev p j) = false /\ hears has_mob w c (dev p j) d = false).
Proof.
  intros junk precision os pos has_mob seconds v e atm fspl margin w c d g o dev p Hu S F HD HR HG He T ONE L.
  assert (RF : exists tau, refreshed precision (w_now w) tau).
  { destruct F as (_ & _ & FL & _). destruct (FL p 0%Z eq_refl ltac:(lia)) as (_ & a & _ & _ & SA). destruct (satellite_position _ _ _ _ _ _ _ Hu SA T) as (tau & RF & _). eauto. }
  destruct RF as (tau & RF). exists tau. split; [exact RF|].
  pose proof (fleet_hears _ _ _ _ _ _ _ _ _ _ _ _ _ _ _ _ _ _ Hu F HD HR HG He T ONE tau RF p) as FH.
  assert (H0 : 0 <= earth_radius_km + lo_alt o) by (unfold radius, leo_earth_radius in HR; lra).
  destruct (C93_plane o p tau g (slant_range leo_earth_radius (radius o) (radians e)) H0 S (slant_nonneg leo_earth_radius _ _ ltac:(unfold leo_earth_radius; lra) HR)) as [A B]. fold L in A, B. split.
  - intros X. destruct (A X) as (j & J & N). exists j. split; [exact J|]. destruct (FH j eq_refl J) as [F1 F2]. split; [apply F1|apply F2]; exact N.
  - intros X j J. specialize (B X j). destruct (FH j eq_refl J) as [F1 F2]. split; apply not_true_is_false; intros Y; [apply F1 in Y|apply F2 in Y]; lra.
Qed.
Print Assumptions C93_station.

(** With enough satellites on a polar orbit, every station on Earth is in touch with one of them at all
    times. *)
Theorem C93_global : forall (junk : point) precision os pos has_mob seconds v e atm fspl margin (w : world NumR) c d g (o : leoorbit NumR) dev,
  Forall (fun o : leoorbit NumR => u16 (lo_planes o) /\ u16 (lo_sats o)) os -> lo_inc o = 90 -> (2 <= lo_planes o)%Z -> (2 <= lo_sats o)%Z ->
  station_and_fleet junk precision os pos has_mob e atm fspl margin w c d g o dev (fun p => (0 <= p < lo_planes o)%Z) ->
  c_delay (w_chan w c) = Some (constant_speed pos seconds v) ->
  leo_earth_radius < radius o -> 0 < norm g <= leo_earth_radius -> 0 <= e < 90 -> (0 <= w_now w)%Z -> one_instant precision (w_now w) ->
  law_of_cosines (radius o) (slant_range leo_earth_radius (radius o) (radians e)) g <= radius o * norm g * cos (PI / IZR (lo_planes o)) * cos (PI / IZR (lo_sats o)) ->
  exists p j, (0 <= p < lo_planes o)%Z /\ (0 <= j < lo_sats o)%Z /\ hears has_mob w c d (dev p j) = true /\ hears has_mob w c (dev p j) d = true.
Proof.
  intros junk precision os pos has_mob seconds v e atm fspl margin w c d g o dev Hu I P S F HD HR HG He T ONE L.
  assert (RF : exists tau, refreshed precision (w_now w) tau).
  { destruct F as (_ & _ & FL & _). destruct (FL 0%Z 0%Z ltac:(lia) ltac:(lia)) as (_ & a & _ & _ & SA). destruct (satellite_position _ _ _ _ _ _ _ Hu SA T) as (tau & RF & _). eauto. }
  destruct RF as (tau & RF).
  assert (H0 : 0 <= earth_radius_km + lo_alt o) by (unfold radius, leo_earth_radius in HR; lra).
  destruct (C93_polar o tau g _ I H0 P S (slant_nonneg leo_earth_radius _ (radians e) ltac:(unfold leo_earth_radius; lra) HR) L) as (p & j & HP & HJ & N).
  exists p, j. split; [exact HP|]. split; [exact HJ|].
  destruct (fleet_hears _ _ _ _ _ _ _ _ _ _ _ _ _ _ _ _ _ _ Hu F HD HR HG He T ONE tau RF p j HP HJ) as [F1 F2]. split; [apply F1|apply F2]; exact N.
Qed.
Print Assumptions C93_global.

(** Stations at latitudes that no satellite comes near ([m]: highest latitude of the orbit) are out of touch
    with all of them, at all times. *)
Theorem C93_high_latitude : forall (junk : point) precision os pos has_mob seconds v e atm fspl margin (w : world NumR) c d g (o : leoorbit NumR) dev (planes : Z -> Prop) phi m,
  Forall (fun o : leoorbit NumR => u16 (lo_planes o) /\ u16 (lo_sats o)) os ->
  station_and_fleet junk precision os pos has_mob e atm fspl margin w c d g o dev planes ->
  c_delay (w_chan w c) = Some (constant_speed pos seconds v) ->
  leo_earth_radius < radius o -> 0 < norm g <= leo_earth_radius -> 0 <= e < 90 -> (0 <= w_now w)%Z ->
  0 <= m <= phi -> phi <= PI / 2 -> Rabs (sin (radians (lo_inc o))) = sin m -> Rabs (pz g) = norm g * sin phi ->
  radius o * norm g * cos (phi - m) < law_of_cosines (radius o) (slant_range leo_earth_radius (radius o) (radians e)) g ->
  forall p j, planes p -> (0 <= j < lo_sats o)%Z -> hears has_mob w c d (dev p j) = false /\ hears has_mob w c (dev p j) d = false.
Proof.
  intros junk precision os pos has_mob seconds v e atm fspl margin w c d g o dev planes phi m Hu ((b & Nb & Mb & G) & SD & FL & HL) HD HR HG He T M PH SM GZ L p j HP HJ.
  destruct (FL p j HP HJ) as (SJ & a & Na & Ma & SA).
  assert (FAR : forall tau, slant_range leo_earth_radius (radius o) (radians e) < distance g (sat_path o (p, j) tau)).
  { intros tau. assert (R0 : 0 <= radius o) by (unfold leo_earth_radius in HR; lra).
    pose proof (high_latitude o (p, j) tau g phi m R0 M PH SM GZ) as B. apply Rnot_le_lt. intros N.
    apply (distance_law g _ (radius o) _ (slant_nonneg leo_earth_radius _ (radians e) ltac:(unfold leo_earth_radius; lra) HR) (sat_inner_self o (p, j) tau)) in N. lra. }
  destruct (C80_ground_hears junk precision os pos has_mob seconds v e atm fspl margin w c d (dev p j) b a a o (p, j) g Hu SA HR HG (or_intror (conj eq_refl G)) Nb Na Mb Ma HL HD He SD T) as (t1 & R1 & _ & H1 & _).
  destruct (C80_ground_hears junk precision os pos has_mob seconds v e atm fspl margin w c (dev p j) d a b a o (p, j) g Hu SA HR HG (or_introl (conj eq_refl G)) Na Nb Ma Mb HL HD He SJ T) as (t2 & R2 & _ & H2 & _).
  split; apply not_true_is_false; intros Y; [apply H1 in Y; specialize (FAR t1)|apply H2 in Y; specialize (FAR t2)]; unfold radius in FAR; lra.
Qed.
Print Assumptions C93_high_latitude.

(** The planes of an orbit are not shifted against each other: satellites in the same place of different
    planes are always equally far north, and on a polar orbit all those in place 0 start at the
    same point. *)
Theorem C93_distinct_positions_refuted : forall (o : leoorbit NumR) p p' j tau,
  pz (sat_path o (p, j) tau) = pz (sat_path o (p', j) tau) /\
  (lo_inc o = 90 -> sat_path o (p, 0%Z) 0 = sat_path o (p', 0%Z) 0 /\ sat_path o (p, 0%Z) 0 = pt 0 0 (radius o)).
Proof.
  intros o p p' j tau. split; [reflexivity|]. intros I.
  assert (E : forall p, sat_path o (p, 0%Z) 0 = pt 0 0 (radius o)); [|rewrite !E; auto].
  intros x. unfold sat_path, trajectory, circle_point, sec. cbn [fst snd]. rewrite I. replace (90 * PI / 180) with (PI / 2) by field.
  assert (T0 : turn 0 (lo_sats o) = 0) by (unfold turn, Rdiv; ring). rewrite T0.
  replace (angular_rate (earth_radius_km + lo_alt o) (PI / 2) * (IZR 0 / 1000000000) + 0) with 0 by field. rewrite sin_0, cos_0, cos_PI2, sin_PI2. unfold radius. f_equal; change (num NumR) with R; ring.
Qed.
Print Assumptions C93_distinct_positions_refuted.

(** ** Example: 36 satellites on a polar orbit 3000 km high, in six planes of six, see the whole Earth (mask
    angle 0). The satellite in place j of plane p is node 6 p + j + 1 and has the device of the same
    number; the station is node 0. *)
Definition ex_shell : leoorbit NumR := @mkLeoOrbit NumR 3000 90 6 6.
Definition ex_shell_world (pos : nat -> Z -> point) (t : Z) : world NumR :=
  mkWorld t (fun d => @mkDev NumR (@mkCfg NumR (if Nat.eqb d 0 then Gnd else Sat) (Some d) (Z.of_nat d + 1) 8000 0 (-1000)%R 30%R 0%R 0%R None true false)
                        (Some (drop_tail 100)) [] false None (Some 0%nat) d true)
          (fun c => @mkChan NumR LeoChannel (seq 0 37) [(1%Z, 0%nat)] (map (fun d => (Z.of_nat d + 1, d)%Z) (seq 1 36))
             (Some (leo_loss pos (leo_model 0 5 160 3))) (Some (constant_speed pos (fun x => up (x * 1000000000)) 299792458))) [] [].
Example ex_C93 : forall (junk g : point) t, norm g = ground_radius -> (0 <= t)%Z -> (t mod 1000000000 <> 0)%Z ->
  exists pos, (forall t', pos 0%nat t' = g) /\
    (forall p j, (0 <= p < 6)%Z -> (0 <= j < 6)%Z -> satellite junk 1000000000 [ex_shell] (pos (Z.to_nat (p * 6 + j + 1))) ex_shell (p, j)) /\
    exists p j, (0 <= p < 6)%Z /\ (0 <= j < 6)%Z /\ let s := Z.to_nat (p * 6 + j + 1) in
      hears (fun _ => true) (ex_shell_world pos t) 0 0 s = true /\ hears (fun _ => true) (ex_shell_world pos t) 0 s 0 = true.
Proof.
  intros junk g t G T M.
  assert (Hu : Forall (fun o : leoorbit NumR => u16 (lo_planes o) /\ u16 (lo_sats o)) [ex_shell]) by (repeat constructor; cbn; lia).
  assert (Hi : Forall installable [ex_shell]).
  { constructor; [|constructor]. split; [cbn; lia|]. right. unfold ex_shell. cbn [lo_inc]. apply Reqb_false. change (nZ NumR 0) with 0. lra. }
  set (place := fun k => (Z.of_nat k / 6, Z.of_nat k mod 6)%Z).
  exists (fun n t' => match n with O => g | S k => CalcPosition (sat_orbit (ex_shell, place k)) (latest 1000000000 t') (latest 1000000000 t') end).
  set (pos := fun n t' => match n with O => g | S k => _ end). split; [reflexivity|].
  assert (SA : forall p j, (0 <= p < 6)%Z -> (0 <= j < 6)%Z -> satellite junk 1000000000 [ex_shell] (pos (Z.to_nat (p * 6 + j + 1))) ex_shell (p, j)).
  { intros p j P J. replace (Z.to_nat (p * 6 + j + 1)) with (S (Z.to_nat (p * 6 + j))) by lia. unfold pos.
    assert (E : place (Z.to_nat (p * 6 + j)) = (p, j)).
    { unfold place. rewrite Z2Nat.id by lia. f_equal; [rewrite Z.div_add_l, Z.div_small by lia; lia|rewrite Z.add_comm, Z.mod_add, Z.mod_small by lia; lia]. }
    rewrite E. apply (installed_satellite NumR 1000000000 junk [ex_shell] (Z.to_nat (p * 6 + j)) ex_shell (p, j) Hu Hi).
    cbn [map concat]. rewrite app_nil_r. unfold satellites, first_n. rewrite nth_error_map. cbn [lo_planes lo_sats ex_shell].
    assert (N : nth_error (seq 0 (Z.to_nat (6 * 6))) (Z.to_nat (p * 6 + j)) = Some (Z.to_nat (p * 6 + j))).
    { rewrite (nth_error_nth' _ 0%nat) by (rewrite seq_length; lia). f_equal. rewrite seq_nth by lia. reflexivity. }
    rewrite N. cbn [option_map]. fold (place (Z.to_nat (p * 6 + j))). rewrite E. reflexivity. }
  split; [exact SA|].
  destruct (C93_global junk 1000000000 [ex_shell] pos (fun _ => true) (fun x => up (x * 1000000000)) 299792458 0 5 160 3 (ex_shell_world pos t) 0%nat 0%nat g ex_shell
    (fun p j => Z.to_nat (p * 6 + j + 1)) Hu eq_refl) as (p & j & P & J & H1 & H2); cbn [ex_shell lo_planes lo_sats]; try lia; try lra.
  - unfold station_and_fleet. cbv zeta. split; [exists 0%nat; auto|]. split; [cbn; lra|]. split; [|reflexivity].
    intros p j P J. split; [cbn; lra|]. exists (Z.to_nat (p * 6 + j + 1)). split; [reflexivity|]. split; [reflexivity|]. apply SA; assumption.
  - reflexivity.
  - unfold radius, leo_earth_radius, earth_radius_km. cbn. lra.
  - rewrite G. unfold ground_radius, leo_earth_radius. lra.
  - exact T.
  - right. exact M.
  - fold ex_shell. unfold law_of_cosines. rewrite G. rewrite cos_PI6.
    replace (radius ex_shell) with 9371009 by (unfold radius, earth_radius_km; cbn; field).
    unfold slant_range. replace (radians 0) with 0 by (unfold radians; field). rewrite sin_0.
    rewrite !Rmult_0_r, Rplus_0_l, Rminus_0_r, sqrt_sqrt by (unfold leo_earth_radius; lra). unfold ground_radius, leo_earth_radius.
    assert (Q : sqrt 3 * sqrt 3 = 3) by (apply sqrt_sqrt; lra).
    replace (9371009 * 6371000 * (sqrt 3 / 2) * (sqrt 3 / 2)) with (9371009 * 6371000 / 4 * (sqrt 3 * sqrt 3)) by field. rewrite Q. lra.
  - exists p, j. auto.
Qed.

(** The pole is out of reach of the first shell of Starlink (550 km, 53 degrees). *)
Example ex_C93_high_latitude : let o := @mkLeoOrbit NumR 550 53 72 22 in
  let g := pt 0 0 ground_radius in
  Rabs (sin (radians (lo_inc o))) = sin (radians 53) /\ Rabs (pz g) = norm g * sin (PI / 2) /\
  radius o * norm g * cos (PI / 2 - radians 53) < law_of_cosines (radius o) (slant_range leo_earth_radius (radius o) (radians 0)) g.
Proof.
  cbv zeta. pose proof PI_RGT_0 as P. cbn [lo_inc].
  assert (NG : norm (pt 0 0 ground_radius) = ground_radius).
  { unfold norm, inner, pt, px, py, pz. cbn [vx vy vz]. replace (0 * 0 + 0 * 0 + ground_radius * ground_radius) with (ground_radius * ground_radius) by ring. apply sqrt_square. unfold ground_radius. lra. }
  split; [apply Rabs_pos_eq, sin_ge_0; unfold radians; lra|]. split.
  - rewrite NG, sin_PI2. unfold pz, pt. cbn [vz]. rewrite Rabs_pos_eq by (unfold ground_radius; lra). ring.
  - rewrite cos_shift. assert (S : sin (radians 53) <= sqrt 3 / 2).
    { rewrite <- sin_PI3. apply sin_incr_1; unfold radians; lra. }
    assert (S3 : sqrt 3 <= 1733 / 1000). { rewrite <- (sqrt_square (1733 / 1000)) by lra. apply sqrt_le_1_alt. lra. }
    unfold law_of_cosines. rewrite NG. replace (radius _) with 6921009 by (unfold radius, earth_radius_km; cbn; field).
    unfold slant_range. replace (radians 0) with 0 by (unfold radians; field). rewrite sin_0.
    rewrite !Rmult_0_r, Rplus_0_l, Rminus_0_r, sqrt_sqrt by (unfold leo_earth_radius; lra). unfold ground_radius, leo_earth_radius. lra.
Qed.
