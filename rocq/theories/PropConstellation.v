(** C80: a network over an installed constellation follows its orbits. *)
Require Import ZArith Reals Lra Lia List Bool.
From Flocq Require Import Core.Core IEEE754.BinarySingleNaN.
Require Import Verif.Base Verif.Num Verif.NumR Verif.Num64 Verif.Vec Verif.OrbitModel Verif.MobilityModel Verif.AllocModel
  Verif.LossModel Verif.FrameModel Verif.NetModel Verif.HelperModel
  Verif.GeomSpec Verif.OrbitSpec Verif.MobilitySpec Verif.AllocSpec Verif.LossSpec Verif.NetSpec Verif.NetRunSpec Verif.Float64Spec Verif.ConstellationSpec
  Verif.LossProofs Verif.LeoLossProofs Verif.LossApiProofs Verif.OrbitProofs Verif.OrbitApiProofs Verif.MobilityProofs Verif.AllocProofs Verif.AllocApiProofs Verif.Alloc64Proofs
  Verif.Float64Proofs Verif.Orbit64Proofs Verif.Orbit64Api Verif.Read64Proofs Verif.Los64Proofs Verif.TracingProofs Verif.Tracing64Proofs Verif.ConstellationProofs Verif.PropFloat Verif.NetExamples Verif.NetDrainProofs Verif.PropRun.
Import ListNotations.
Local Open Scope R_scope.

(** ** C80 *)

(** Every satellite InstallOrbits leaves behind can be left alone for any time; where it is then
    found is its trajectory at a refreshed instant. *)
Theorem C80_positions : forall (junk : point) precision os nodes i s o ps,
  Forall (fun o : leoorbit NumR => u16 (lo_planes o) /\ u16 (lo_sats o)) os ->
  InstallOrbits precision junk 0 os = Ok nodes -> nth_error nodes i = Some s -> nth_error (concat (map satellites os)) i = Some (o, ps) ->
  (exists path, moves junk s path) /\
  forall path, moves junk s path -> forall t, (0 <= t)%Z -> exists tau, refreshed precision t tau /\ path t = sat_path o ps tau.
Proof.
  intros junk p os nodes i s o ps Hu HI HS HX. split.
  - eexists. apply (moves_latest NumR junk (sat_orbit (o, ps)) p). eapply installed_starts; eassumption.
  - intros path M t Ht. apply (satellite_position junk p os path o ps t Hu); [|exact Ht]. exists nodes, i, s. auto.
Qed.
Print Assumptions C80_positions.

(** How far that is from where it should be. *)
Theorem C80_staleness : forall (junk : point) precision os path o ps t,
  Forall (fun o : leoorbit NumR => u16 (lo_planes o) /\ u16 (lo_sats o)) os ->
  satellite junk precision os path o ps -> 0 <= earth_radius_km + lo_alt o -> (0 <= t)%Z ->
  ((0 <= precision)%Z -> distance (path t) (sat_path o ps t) <= ground_speed (earth_radius_km + lo_alt o) (lo_inc o * PI / 180) * sec precision) /\
  ((precision < 0)%Z -> path t = sat_path o ps 0).
Proof.
  intros junk p os path o ps t Hu S Hr Ht. destruct (satellite_position _ _ _ _ _ _ t Hu S Ht) as (tau & R & ->). split.
  - intros Hp. destruct (stale_distance o ps p t tau Hp R Hr) as [D B]. eapply Rle_trans; [exact D|]. apply Rmult_le_compat_l.
    + unfold ground_speed. apply Rmult_le_pos; [lra|]. unfold earth_rate. pose proof (Rabs_pos (angular_rate (earth_radius_km + lo_alt o) (lo_inc o * PI / 180))). pose proof PI_RGT_0. lra.
    + unfold sec. assert (IZR (t - tau) <= IZR p) by (apply IZR_le; lia). lra.
  - intros Hp. destruct R as [(H & _)|[(-> & _)|(_ & ->)]]; [lia|lia|reflexivity].
Qed.
Print Assumptions C80_staleness.

(** Inter-satellite links: device [d] of a satellite is heard by device [dst] of another exactly if
    the straight line between the reported positions stays clear of the Earth. *)
Theorem C80_isl_hears : forall (junk : point) precision os pos has_mob seconds v (w : world NumR) c d dst a b oa psa ob psb,
  Forall (fun o : leoorbit NumR => u16 (lo_planes o) /\ u16 (lo_sats o)) os ->
  satellite junk precision os (pos a) oa psa -> satellite junk precision os (pos b) ob psb -> 0 <= lo_alt oa -> 0 <= lo_alt ob ->
  node_of w d = Some a -> node_of w dst = Some b -> has_mob a = true -> has_mob b = true ->
  c_loss (w_chan w c) = Some (isl_loss pos) -> c_delay (w_chan w c) = Some (constant_speed pos seconds v) ->
  -900 <= g_txp (d_cfg (w_dev w d)) -> (0 <= w_now w)%Z ->
  exists ta tb, refreshed precision (w_now w) ta /\ refreshed precision (w_now w) tb /\
    let P := sat_path oa psa ta in let Q := sat_path ob psb tb in
    (forall tx, delay_to has_mob w c d dst tx = seconds (distance P Q / v)) /\
    (P <> Q -> (hears has_mob w c d dst = true <-> unobstructed isl_earth_radius P Q) /\
               (hears has_mob w c d dst = true -> power_at has_mob w c d dst = g_txp (d_cfg (w_dev w d)))).
Proof.
  intros junk p os pos has_mob seconds v w c d dst a b oa psa ob psb Hu Sa Sb Aa Ab Na Nb Ma Mb HL HD HP Ht.
  destruct (satellite_position _ _ _ _ _ _ _ Hu Sa Ht) as (ta & Ra & Ea). destruct (satellite_position _ _ _ _ _ _ _ Hu Sb Ht) as (tb & Rb & Eb).
  exists ta, tb. split; [exact Ra|]. split; [exact Rb|]. cbv zeta. rewrite <- Ea, <- Eb. split.
  - intros tx. eapply speed_link; eassumption.
  - intros NE. eapply isl_link; try eassumption. left. rewrite Ea. rewrite sat_path_norm; unfold earth_radius_km, isl_earth_radius; lra.
Qed.
Print Assumptions C80_isl_hears.

(** The same in terms of where the satellites are at that moment: outside a margin about the horizon,
    the distance a satellite covers between updates, the decision is the right one. *)
Theorem C80_isl_true_positions : forall (junk : point) precision os pos has_mob (w : world NumR) c d dst a b oa psa ob psb D,
  Forall (fun o : leoorbit NumR => u16 (lo_planes o) /\ u16 (lo_sats o)) os -> (0 <= precision)%Z ->
  satellite junk precision os (pos a) oa psa -> satellite junk precision os (pos b) ob psb -> 0 <= lo_alt oa -> 0 <= lo_alt ob ->
  node_of w d = Some a -> node_of w dst = Some b -> has_mob a = true -> has_mob b = true ->
  c_loss (w_chan w c) = Some (isl_loss pos) -> -900 <= g_txp (d_cfg (w_dev w d)) -> (0 <= w_now w)%Z ->
  ground_speed (earth_radius_km + lo_alt oa) (lo_inc oa * PI / 180) * sec precision <= D ->
  ground_speed (earth_radius_km + lo_alt ob) (lo_inc ob * PI / 180) * sec precision <= D ->
  let P := sat_path oa psa (w_now w) in let Q := sat_path ob psb (w_now w) in
  2 * D < distance P Q ->
  (unobstructed (isl_earth_radius + D) P Q -> hears has_mob w c d dst = true) /\
  (hears has_mob w c d dst = true -> unobstructed (isl_earth_radius - D) P Q).
Proof.
  intros junk p os pos has_mob w c d dst a b oa psa ob psb D Hu Hp Sa Sb Aa Ab Na Nb Ma Mb HL HP Ht Da Db P Q FAR.
  assert (HA : 0 <= earth_radius_km + lo_alt oa) by (unfold earth_radius_km; lra). assert (HB : 0 <= earth_radius_km + lo_alt ob) by (unfold earth_radius_km; lra).
  pose proof (proj1 (C80_staleness junk p os (pos a) oa psa (w_now w) Hu Sa HA Ht) Hp) as DA.
  pose proof (proj1 (C80_staleness junk p os (pos b) ob psb (w_now w) Hu Sb HB Ht) Hp) as DB. fold P in DA. fold Q in DB.
  destruct (satellite_position _ _ _ _ _ _ _ Hu Sa Ht) as (ta & Ra & Ea).
  set (X := pos a (w_now w) : point) in *. set (Y := pos b (w_now w) : point) in *.
  assert (NE : X <> Y).
  { intros E. pose proof (distance_triangle P X Q) as T. rewrite (distance_sym P X) in T. rewrite E in T at 2. rewrite <- E in DB. rewrite <- E in T. lra. }
  destruct (isl_link has_mob pos w c d dst a b HL Na Nb Ma Mb HP NE) as [L _].
  { left. fold X. rewrite Ea, sat_path_norm by assumption. unfold earth_radius_km, isl_earth_radius. lra. }
  fold X Y in L. split; intros U.
  - apply L. replace isl_earth_radius with (isl_earth_radius + D - D) by ring. apply (unobstructed_close _ P Q); [rewrite distance_sym; lra|rewrite distance_sym; lra|exact U].
  - apply (unobstructed_close _ X Y); [lra|lra|]. apply L. exact U.
Qed.
Print Assumptions C80_isl_true_positions.

(** What is sent over such a link arrives, after the time light takes. *)
Theorem C80_isl_delivery : forall (junk : point) precision os pos crc fcs tx_time has_mob seconds (w : world NumR) o w1 new t d c p from to q dest tx gap dst ops w' a b oa psa ob psb,
  Forall (fun o : leoorbit NumR => u16 (lo_planes o) /\ u16 (lo_sats o)) os ->
  satellite junk precision os (pos a) oa psa -> satellite junk precision os (pos b) ob psb -> 0 <= lo_alt oa -> 0 <= lo_alt ob ->
  reachable crc fcs tx_time has_mob w -> step crc fcs tx_time has_mob w o = Ok w1 -> w_log w1 = w_log w ++ new ->
  In (t, ToChannel d c (frame_of crc fcs p to q from) dest tx gap) new ->
  recipient w1 c d dest dst -> d <> dst ->
  node_of w1 d = Some a -> node_of w1 dst = Some b -> has_mob a = true -> has_mob b = true ->
  c_loss (w_chan w1 c) = Some (isl_loss pos) -> c_delay (w_chan w1 c) = Some (constant_speed pos seconds 299792458) ->
  -900 <= g_txp (d_cfg (w_dev w1 d)) -> (0 <= w_now w1)%Z ->
  (length (p_bytes p) <= 1492)%nat -> (0 <= from < 2 ^ 48)%Z -> (0 <= to < 2 ^ 48)%Z -> (0 <= q < 2 ^ 16)%Z ->
  let g := d_cfg (w_dev w1 dst) in
  g_err g = None -> effective_power g (g_txp (d_cfg (w_dev w1 d))) >= g_thr g ->
  to = (2 ^ 48 - 1)%Z \/ to = g_addr g ->
  Forall (leaves dst) ops -> run crc fcs tx_time has_mob w1 ops = Ok w' -> w_events w' = [] ->
  exists ta tb, refreshed precision (w_now w1) ta /\ refreshed precision (w_now w1) tb /\
    let P := sat_path oa psa ta in let Q := sat_path ob psb tb in
    (P <> Q -> unobstructed isl_earth_radius P Q ->
     In ((t + seconds (distance P Q / 299792458)%R)%Z, RxCallback dst d (p_bytes p) q from to (g_addr g)) (w_log w')).
Proof.
  intros junk prec os pos crc fcs tx_time has_mob seconds w o w1 new t d c p from to q dest tx gap dst ops w' a b oa psa ob psb
    Hu Sa Sb Aa Ab RE ST LG IN RC ND Na Nb Ma Mb HL HD HP Ht HB Hf Hto Hq g HE HG HT LV RUN EV.
  destruct (C80_isl_hears junk prec os pos has_mob seconds 299792458 w1 c d dst a b oa psa ob psb Hu Sa Sb Aa Ab Na Nb Ma Mb HL HD HP Ht)
    as (ta & tb & Ra & Rb & DL & HH).
  exists ta, tb. split; [exact Ra|]. split; [exact Rb|]. cbv zeta. intros NE U. destruct (HH NE) as [H1 H2]. apply H1 in U.
  rewrite <- (DL tx). eapply C73_end_to_end; try eassumption.
  - rewrite (H2 U). fold g. change (nlt NumR) with Rltb. apply Rltb_false. lra.
  - fold g. rewrite HE. discriminate.
  - fold g. tauto.
  - right. exact EV.
Qed.
Print Assumptions C80_isl_delivery.

(** Ground links: up and down, a station not above the model's Earth radius and a satellite hear each
    other exactly up to the slant range at the mask angle, and only above the mask. *)
Theorem C80_ground_hears : forall (junk : point) precision os pos has_mob seconds v e atm fspl margin (w : world NumR) c d dst a b s o ps (g : point),
  Forall (fun o : leoorbit NumR => u16 (lo_planes o) /\ u16 (lo_sats o)) os ->
  satellite junk precision os (pos s) o ps -> leo_earth_radius < 1000 * (earth_radius_km + lo_alt o) ->
  0 < norm g <= leo_earth_radius ->
  (a = s /\ pos b (w_now w) = g) \/ (b = s /\ pos a (w_now w) = g) ->
  node_of w d = Some a -> node_of w dst = Some b -> has_mob a = true -> has_mob b = true ->
  c_loss (w_chan w c) = Some (leo_loss pos (leo_model e atm fspl margin)) -> c_delay (w_chan w c) = Some (constant_speed pos seconds v) ->
  0 <= e < 90 -> -900 <= g_txp (d_cfg (w_dev w d)) - atm - fspl - margin -> (0 <= w_now w)%Z ->
  exists tau, refreshed precision (w_now w) tau /\
    let P := sat_path o ps tau in
    (forall tx, delay_to has_mob w c d dst tx = seconds (distance g P / v)) /\
    (hears has_mob w c d dst = true <-> distance g P <= slant_range leo_earth_radius (1000 * (earth_radius_km + lo_alt o)) (radians e)) /\
    (hears has_mob w c d dst = true -> radians e <= elevation g P /\ power_at has_mob w c d dst = g_txp (d_cfg (w_dev w d)) - atm - fspl - margin).
Proof.
  intros junk p os pos has_mob seconds v e atm fspl margin w c d dst a b s o ps g Hu S HH Hg AB Na Nb Ma Mb HL HD He HP Ht.
  destruct (satellite_position _ _ _ _ _ _ _ Hu S Ht) as (tau & R & E). exists tau. split; [exact R|]. cbv zeta.
  assert (NP : norm (sat_path o ps tau) = 1000 * (earth_radius_km + lo_alt o)) by (apply sat_path_norm; unfold leo_earth_radius in HH; lra).
  assert (GS : (pos a (w_now w) = g /\ pos b (w_now w) = sat_path o ps tau) \/ (pos a (w_now w) = sat_path o ps tau /\ pos b (w_now w) = g)).
  { destruct AB as [[-> G]|[-> G]]; rewrite E, G; auto. }
  split.
  - intros tx. rewrite (speed_link has_mob pos seconds v w c d dst a b tx HD Na Nb Ma Mb). destruct GS as [[-> ->]|[-> ->]]; [reflexivity|]. rewrite distance_sym. reflexivity.
  - rewrite <- NP. eapply ground_link; try eassumption. rewrite NP. exact HH.
Qed.
Print Assumptions C80_ground_hears.

(** In doubles: GetPosition stays within 2 * 10^-12 of the radius per day of the trajectory at the
    refreshed instant. *)
Theorem C80_positions_binary64 : forall fsin fcos ftan, accurate fsin fcos ->
  forall (junk : vec (Num64 fsin fcos ftan)) precision os path (o : leoorbit (Num64 fsin fcos ftan)) ps t (n : R),
  Forall (fun o : leoorbit (Num64 fsin fcos ftan) => u16 (lo_planes o) /\ u16 (lo_sats o)) os ->
  satellite junk precision os path o ps ->
  is_finite (lo_alt o : b64) = true -> 0 <= B2R (lo_alt o) <= 1000000 -> is_finite (lo_inc o : b64) = true -> Rabs (B2R (lo_inc o)) <= 360 ->
  1 <= n <= 100000 -> (0 <= t)%Z -> IZR t <= n * 86400000000000 ->
  let h := earth_radius_km + B2R (lo_alt o) in
  exists tau, refreshed precision t tau /\ finite_vec (path t) /\
    within (1000 * h * n * 2 / 1000000000000) (reals (path t))
      (trajectory h (B2R (lo_inc o) * PI / 180) (turn (fst ps) (lo_planes o)) (turn (snd ps) (lo_sats o)) (sec tau)).
Proof.
  intros fsin fcos ftan ACC junk p os path o ps t n Hu S FA HA FI HI Hn Ht HT h.
  destruct S as (nodes & i & s & I1 & I2 & I3 & M). destruct (M t Ht) as (s' & A & E).
  pose proof (installed_starts _ p junk os nodes i s o ps Hu I1 I2 I3) as ST.
  destruct (alone_position _ junk (sat_orbit (o, ps)) p s t s' ST A) as (tau & RF & EX). exists tau. split; [exact RF|]. rewrite E, EX.
  apply nth_error_In, in_satellites in I3. destruct I3 as [_ I3]. destruct (I3 Hu) as (P1 & P2 & P3 & P4).
  assert (T0 : (0 <= tau <= t)%Z) by (destruct RF as [(H & k & K1 & -> & K2)|[(_ & ->)|(H & ->)]]; nia).
  assert (HT' : Rabs (IZR tau) <= n * 86400000000000).
  { rewrite Rabs_pos_eq by (apply IZR_le; lia). apply Rle_trans with (2 := HT). apply IZR_le. lia. }
  apply (position_64 fsin fcos ftan ACC); assumption.
Qed.
Print Assumptions C80_positions_binary64.

(** ** Examples: four satellites 3000 km over one meridian, a quarter of a turn apart, refreshed every
    second; nodes 0, 1, 2, 3, and a ground station (node 4) at the pole. *)
Definition ex_ring : list (leoorbit NumR) := [@mkLeoOrbit NumR 3000 90 1 4].
Definition ex_place (k : nat) : Z * Z := (0%Z, Z.of_nat k).

Lemma ex_ring_ok : Forall (fun o : leoorbit NumR => u16 (lo_planes o) /\ u16 (lo_sats o)) ex_ring /\ Forall installable ex_ring /\
  concat (map satellites ex_ring) = map (fun k => (@mkLeoOrbit NumR 3000 90 1 4, ex_place k)) (seq 0 4).
Proof.
  split; [repeat constructor; cbn; lia|]. split; [|reflexivity]. constructor; [|constructor]. split; [cbn; lia|]. right.
  cbn. apply Reqb_false. lra.
Qed.

Lemma ex_ring_satellite : forall (junk : point), exists paths : nat -> Z -> point, forall k, (k < 4)%nat ->
  satellite junk 1000000000 ex_ring (paths k) (@mkLeoOrbit NumR 3000 90 1 4) (ex_place k).
Proof.
  intros junk. destruct ex_ring_ok as (Hu & Hi & E).
  exists (fun k t => CalcPosition (sat_orbit (@mkLeoOrbit NumR 3000 90 1 4, ex_place k)) (latest 1000000000 t) (latest 1000000000 t)).
  intros k Hk. apply (installed_satellite NumR 1000000000 junk ex_ring k); try assumption. rewrite E. destruct k as [|[|[|[|k]]]]; try lia; reflexivity.
Qed.

Lemma ex_ring_at : forall k, sat_path (@mkLeoOrbit NumR 3000 90 1 4) (ex_place k) 0 = pt 0 (9371009 * sin (INR k * (PI / 2))) (9371009 * cos (INR k * (PI / 2))).
Proof.
  intros k. unfold sat_path, trajectory, circle_point, turn, ex_place, sec, earth_radius_km. cbn [fst snd lo_alt lo_inc lo_planes lo_sats].
  replace (90 * PI / 180) with (PI / 2) by field. rewrite cos_PI2, sin_PI2.
  replace (2 * PI * (IZR 0 / IZR 1) + earth_rate * (IZR 0 / 1000000000)) with 0 by field. rewrite sin_0, cos_0.
  replace (angular_rate (6371009 / 1000 + 3000) (PI / 2) * (IZR 0 / 1000000000) + 2 * PI * (IZR (Z.of_nat k) / IZR 4)) with (INR k * (PI / 2)) by (rewrite INR_IZR_INZ; field).
  f_equal; change (num NumR) with R; field.
Qed.

Lemma ex_tick0 : forall tau, refreshed 1000000000 0 tau -> tau = 0%Z.
Proof. intros tau [(_ & k & K1 & -> & K2)|[(H & _)|(H & _)]]; lia. Qed.

(** Devices 0 to 4 on the nodes of the same numbers; channel 0 links satellites, channel 1 the station
    (30 degrees mask). *)
Definition ex_ring_world (pos : nat -> Z -> point) : world NumR :=
  mkWorld 0 (fun d => @mkDev NumR (@mkCfg NumR Plain (Some d) (Z.of_nat d + 1) 8000 0 (-1000)%R 1%R 0%R 0%R None true false)
                        (Some (drop_tail 100)) [] false None (Some 0%nat) d true)
          (fun c => @mkChan NumR (if Nat.eqb c 0 then IslChannel else LeoChannel) [0; 1; 2; 3]%nat [] []
             (Some (if Nat.eqb c 0 then isl_loss pos else leo_loss pos (leo_model 30 0 0 0)))
             (Some (constant_speed pos (fun x => up (x * 1000000000)) 299792458))) [] [].

Example ex_C80 : forall junk : point, exists pos,
  (forall k, (k < 4)%nat -> satellite junk 1000000000 ex_ring (pos k) (@mkLeoOrbit NumR 3000 90 1 4) (ex_place k)) /\
  pos 4%nat 0%Z = pt 0 0 6371000 /\
  hears (fun _ => true) (ex_ring_world pos) 0 0 1 = true /\ hears (fun _ => true) (ex_ring_world pos) 0 0 2 = false /\
  hears (fun _ => true) (ex_ring_world pos) 1 0 4 = true /\ hears (fun _ => true) (ex_ring_world pos) 1 4 1 = false.
Proof.
  intros junk. destruct (ex_ring_satellite junk) as (paths & S). destruct ex_ring_ok as (Hu & _).
  exists (fun k => if Nat.eqb k 4 then fun _ => pt 0 0 6371000 else paths k). set (pos := fun k => if Nat.eqb k 4 then _ else _).
  assert (S' : forall k, (k < 4)%nat -> satellite junk 1000000000 ex_ring (pos k) (@mkLeoOrbit NumR 3000 90 1 4) (ex_place k)).
  { intros k Hk. unfold pos. destruct (Nat.eqb_spec k 4); [lia|]. apply S, Hk. }
  assert (TX : -900 <= g_txp (d_cfg (w_dev (ex_ring_world pos) 0)) /\ -900 <= g_txp (d_cfg (w_dev (ex_ring_world pos) 0)) - 0 - 0 - 0 /\
    -900 <= g_txp (d_cfg (w_dev (ex_ring_world pos) 4)) - 0 - 0 - 0) by (cbn; lra).
  destruct TX as (TX & TX0 & TX4).
  assert (P0 : sat_path (@mkLeoOrbit NumR 3000 90 1 4) (ex_place 0) 0 = pt 0 0 9371009).
  { rewrite ex_ring_at. cbn [INR]. rewrite Rmult_0_l, sin_0, cos_0. f_equal; change (num NumR) with R; ring. }
  assert (P1 : sat_path (@mkLeoOrbit NumR 3000 90 1 4) (ex_place 1) 0 = pt 0 9371009 0).
  { rewrite ex_ring_at. cbn [INR]. rewrite Rmult_1_l, sin_PI2, cos_PI2. f_equal; change (num NumR) with R; ring. }
  assert (P2 : sat_path (@mkLeoOrbit NumR 3000 90 1 4) (ex_place 2) 0 = pt 0 0 (-9371009)).
  { rewrite ex_ring_at. cbn [INR]. replace ((1 + 1) * (PI / 2)) with PI by field. rewrite sin_PI, cos_PI. f_equal; change (num NumR) with R; ring. }
  split; [exact S'|]. split; [reflexivity|]. split; [|split; [|split]].
  - destruct (C80_isl_hears junk 1000000000 ex_ring pos (fun _ => true) (fun x => up (x * 1000000000)) 299792458 (ex_ring_world pos) 0 0 1 0 1 _ _ _ _
      Hu (S' 0%nat ltac:(lia)) (S' 1%nat ltac:(lia)) ltac:(cbn; lra) ltac:(cbn; lra) eq_refl eq_refl eq_refl eq_refl eq_refl eq_refl TX (Z.le_refl 0)) as (ta & tb & Ra & Rb & _ & H).
    apply ex_tick0 in Ra, Rb. subst ta tb. rewrite P0, P1 in H. apply H.
    + intros E. injection E. intros. lra.
    + intros t Ht. apply norm_lt_sq; [unfold isl_earth_radius; lra|].
      unfold on_segment, plus, GeomSpec.scale, minus, inner, isl_earth_radius, pt, px, py, pz; cbn.
      pose proof (Rle_0_sqr (t - 1 / 2)) as SQ. unfold Rsqr in SQ. nra.
  - destruct (C80_isl_hears junk 1000000000 ex_ring pos (fun _ => true) (fun x => up (x * 1000000000)) 299792458 (ex_ring_world pos) 0 0 2 0 2 _ _ _ _
      Hu (S' 0%nat ltac:(lia)) (S' 2%nat ltac:(lia)) ltac:(cbn; lra) ltac:(cbn; lra) eq_refl eq_refl eq_refl eq_refl eq_refl eq_refl TX (Z.le_refl 0)) as (ta & tb & Ra & Rb & _ & H).
    apply ex_tick0 in Ra, Rb. subst ta tb. rewrite P0, P2 in H. apply not_true_is_false. intros HH.
    destruct H as [H _]; [intros E; injection E; intros; lra|]. rewrite H in HH.
    specialize (HH (1 / 2) ltac:(lra)). apply norm_lt_sq in HH; [|unfold isl_earth_radius; lra].
    unfold on_segment, plus, GeomSpec.scale, minus, inner, isl_earth_radius, pt, px, py, pz in HH; cbn in HH. lra.
  - destruct (C80_ground_hears junk 1000000000 ex_ring pos (fun _ => true) (fun x => up (x * 1000000000)) 299792458 30 0 0 0 (ex_ring_world pos) 1 0 4 0 4 0 _ _ (pt 0 0 6371000)
      Hu (S' 0%nat ltac:(lia)) ltac:(unfold leo_earth_radius, earth_radius_km; cbn; lra)) as (tau & RF & _ & H & _); try reflexivity; try assumption.
    + unfold norm, inner, pt, px, py, pz. cbn [vx vy vz]. replace (0 * 0 + 0 * 0 + 6371000 * 6371000) with (6371000 * 6371000) by ring. rewrite sqrt_square by lra. unfold leo_earth_radius. lra.
    + left. split; reflexivity.
    + lra.
    + apply ex_tick0 in RF. subst tau. apply H. rewrite P0.
      unfold distance. replace (minus (pt 0 0 9371009) (pt 0 0 6371000)) with (pt 0 0 3000009).
      2:{ unfold minus, pt, px, py, pz; cbn. f_equal; change (num NumR) with R; ring. }
      unfold norm, inner, pt, px, py, pz. cbn [vx vy vz]. replace (0 * 0 + 0 * 0 + 3000009 * 3000009) with (3000009 * 3000009) by ring. rewrite sqrt_square by lra.
      unfold slant_range, earth_radius_km. cbn [lo_alt]. replace (radians 30) with (PI / 6) by (unfold radians; field).
      rewrite sin_PI6. unfold leo_earth_radius.
      match goal with |- _ <= sqrt ?x - _ => assert (SQ : sqrt (8000000 * 8000000) <= sqrt x) by (apply sqrt_le_1_alt; lra) end.
      rewrite sqrt_square in SQ by lra. lra.
  - destruct (C80_ground_hears junk 1000000000 ex_ring pos (fun _ => true) (fun x => up (x * 1000000000)) 299792458 30 0 0 0 (ex_ring_world pos) 1 4 1 4 1 1 _ _ (pt 0 0 6371000)
      Hu (S' 1%nat ltac:(lia)) ltac:(unfold leo_earth_radius, earth_radius_km; cbn; lra)) as (tau & RF & _ & _ & H); try reflexivity; try assumption.
    + unfold norm, inner, pt, px, py, pz. cbn [vx vy vz]. replace (0 * 0 + 0 * 0 + 6371000 * 6371000) with (6371000 * 6371000) by ring. rewrite sqrt_square by lra. unfold leo_earth_radius. lra.
    + right. split; reflexivity.
    + lra.
    + apply ex_tick0 in RF. subst tau. apply not_true_is_false. intros HH. apply H in HH. destruct HH as [HH _]. rewrite P1 in HH.
      assert (NG : norm (pt 0 0 6371000) = 6371000).
      { unfold norm, inner, pt, px, py, pz. cbn [vx vy vz]. replace (0 * 0 + 0 * 0 + 6371000 * 6371000) with (6371000 * 6371000) by ring. apply sqrt_square. lra. }
      destruct (sin_elevation (pt 0 0 6371000) (pt 0 9371009 0)) as [SE EB]; [intros E; injection E; intros; lra|rewrite NG; lra|].
      pose proof PI_RGT_0. assert (SP : 0 <= sin (elevation (pt 0 0 6371000) (pt 0 9371009 0))) by (apply sin_ge_0; [unfold radians in HH; lra|lra]).
      assert (I : inner (minus (pt 0 9371009 0) (pt 0 0 6371000)) (pt 0 0 6371000) < 0) by (unfold inner, minus, pt, px, py, pz; cbn; lra).
      rewrite <- SE in I. assert (0 <= distance (pt 0 0 6371000) (pt 0 9371009 0) * norm (pt 0 0 6371000)) by (apply Rmult_le_pos; apply norm_nonneg).
      assert (0 <= sin (elevation (pt 0 0 6371000) (pt 0 9371009 0)) * (distance (pt 0 0 6371000) (pt 0 9371009 0) * norm (pt 0 0 6371000))) by (apply Rmult_le_pos; assumption). lra.
Qed.

(** Packet 7 from satellite 0 (device 0, node 10) to satellite 1 (device 1, node 11); ns3::Seconds
    is replaced by a constant. *)
Definition ring_ops {N : Num} loss delay : list (op N) := isl3 10 ++ [@OSetDelay N 0%nat (Some delay); @OSetLoss N 0%nat (Some loss)].
Lemma ring_run : forall (N : Num) loss pos v, let delay := @constant_speed N pos (fun _ => 44%Z) v in
  nlt N (loss (nZ N 1) 10%nat 11%nat 0%Z) (nZ N (-900)) = false ->
  nlt N (nadd N (nsub N (loss (nZ N 1) 10%nat 11%nat 0%Z) (nZ N 0)) (nZ N 0)) (nZ N (-1000)) = false ->
  exists w w1 w', run ex_crc true ex_tx ex_mob (@start N) (ring_ops loss delay) = Ok w /\
    step ex_crc true ex_tx ex_mob w (OSend 0%nat (packet 7) (Mac 2) 2048) = Ok w1 /\
    run ex_crc true ex_tx ex_mob w1 [ORun; ORun] = Ok w' /\ w_events w' = [] /\
    let new := skipn (length (w_log w)) (w_log w1) in w_log w1 = w_log w ++ new /\
    In (0%Z, ToChannel 0 0 (frame_of ex_crc true (packet 7) 2 2048 1) 2 64000000 0) new /\ w_now w1 = 0%Z /\
    c_kind (w_chan w1 0%nat) = IslChannel /\ c_link (w_chan w1 0%nat) = [0; 1; 2]%nat /\ addr_of w1 0 = 1%Z /\ addr_of w1 1 = 2%Z /\
    node_of w1 0 = Some 10%nat /\ node_of w1 1 = Some 11%nat /\ c_loss (w_chan w1 0%nat) = Some loss /\ c_delay (w_chan w1 0%nat) = Some delay /\
    d_cfg (w_dev w1 0%nat) = mkCfg Gnd (Some 10%nat) 1 8000 0 (nZ N (-1000)) (nZ N 1) (nZ N 0) (nZ N 0) None true false /\
    d_cfg (w_dev w1 1%nat) = mkCfg Gnd (Some 11%nat) 2 8000 0 (nZ N (-1000)) (nZ N 1) (nZ N 0) (nZ N 0) None true false.
Proof.
  intros N loss pos v delay H1 H2.
  assert (A : exists w, run ex_crc true ex_tx ex_mob (@start N) (ring_ops loss delay) = Ok w) by (eexists; lazy -[nlt nZ nopp nadd nsub]; reflexivity).
  destruct A as [w E]. exists w. pose proof E as E'. lazy -[nlt nZ nopp nadd nsub] in E'. injection E' as E'.
  assert (A : exists w1, step ex_crc true ex_tx ex_mob w (OSend 0%nat (packet 7) (Mac 2) 2048) = Ok w1).
  { rewrite <- E'. eexists. lazy -[nlt nZ nopp nadd nsub]. rewrite H1. reflexivity. }
  destruct A as [w1 E1]. exists w1. pose proof E1 as E1'. rewrite <- E' in E1'. lazy -[nlt nZ nopp nadd nsub] in E1'. rewrite H1 in E1'. injection E1' as E1'.
  assert (A : exists w2, step ex_crc true ex_tx ex_mob w1 ORun = Ok w2).
  { rewrite <- E1'. eexists. lazy -[nlt nZ nopp nadd nsub]. rewrite H2. reflexivity. }
  destruct A as [w2 E2]. pose proof E2 as E2'. rewrite <- E1' in E2'. lazy -[nlt nZ nopp nadd nsub] in E2'. rewrite H2 in E2'. injection E2' as E2'.
  assert (A : exists w3, step ex_crc true ex_tx ex_mob w2 ORun = Ok w3 /\ w_events w3 = []).
  { rewrite <- E2'. eexists. split; [lazy -[nlt nZ nopp nadd nsub]; reflexivity|reflexivity]. }
  destruct A as (w3 & E3 & EV). exists w3. split; [exact E|]. split; [exact E1|].
  split; [cbn [run]; rewrite E2; cbn [bind]; rewrite E3; reflexivity|]. split; [exact EV|].
  rewrite <- E', <- E1'. lazy -[nlt nZ nopp nadd nsub]. repeat split; auto 10.
Qed.

Example ex_C80_delivery : forall junk : point, exists pos,
  (forall k, (k < 4)%nat -> satellite junk 1000000000 ex_ring (pos (10 + k)%nat) (@mkLeoOrbit NumR 3000 90 1 4) (ex_place k)) /\
  holds (fun w => In (44%Z, RxCallback 1 0 (p_bytes (packet 7)) 2048 1 2 2) (w_log w))
    (run ex_crc true ex_tx ex_mob (@start NumR)
       (ring_ops (isl_loss pos) (constant_speed pos (fun _ => 44%Z) 299792458) ++ [OSend 0%nat (packet 7) (Mac 2) 2048; ORun; ORun])).
Proof.
  intros junk. destruct (ex_ring_satellite junk) as (paths & S). destruct ex_ring_ok as (Hu & _).
  exists (fun k => paths (k - 10)%nat). set (pos := fun k => paths (k - 10)%nat).
  assert (S' : forall k, (k < 4)%nat -> satellite junk 1000000000 ex_ring (pos (10 + k)%nat) (@mkLeoOrbit NumR 3000 90 1 4) (ex_place k)).
  { intros k Hk. unfold pos. replace (10 + k - 10)%nat with k by lia. apply S, Hk. }
  split; [exact S'|].
  assert (P0 : sat_path (@mkLeoOrbit NumR 3000 90 1 4) (ex_place 0) 0 = pt 0 0 9371009).
  { rewrite ex_ring_at. cbn [INR]. rewrite Rmult_0_l, sin_0, cos_0. f_equal; change (num NumR) with R; ring. }
  assert (P1 : sat_path (@mkLeoOrbit NumR 3000 90 1 4) (ex_place 1) 0 = pt 0 9371009 0).
  { rewrite ex_ring_at. cbn [INR]. rewrite Rmult_1_l, sin_PI2, cos_PI2. f_equal; change (num NumR) with R; ring. }
  assert (NE : pt 0 0 9371009 <> pt 0 9371009 0) by (intros E; injection E; intros; lra).
  assert (U : unobstructed isl_earth_radius (pt 0 0 9371009) (pt 0 9371009 0)).
  { intros t Ht. apply norm_lt_sq; [unfold isl_earth_radius; lra|].
    unfold on_segment, plus, GeomSpec.scale, minus, inner, isl_earth_radius, pt, px, py, pz; cbn.
    pose proof (Rle_0_sqr (t - 1 / 2)) as SQ. unfold Rsqr in SQ. nra. }
  assert (L : isl_loss pos 1 10%nat 11%nat 0%Z = 1).
  { unfold isl_loss.
    destruct (satellite_position junk 1000000000 ex_ring _ _ _ 0 Hu (S' 0%nat ltac:(lia)) (Z.le_refl 0)) as (ta & Ra & Ea).
    destruct (satellite_position junk 1000000000 ex_ring _ _ _ 0 Hu (S' 1%nat ltac:(lia)) (Z.le_refl 0)) as (tb & Rb & Eb).
    apply ex_tick0 in Ra, Rb. subst ta tb. rewrite P0 in Ea. rewrite P1 in Eb. cbn [Nat.add] in Ea, Eb. rewrite Ea, Eb.
    apply isl_rx_geometry; [exact NE| |exact U]. left. rewrite <- P0. rewrite sat_path_norm; unfold earth_radius_km, isl_earth_radius; cbn; lra. }
  destruct (ring_run NumR (isl_loss pos) pos 299792458) as (w & w1 & w' & E & E1 & E2 & EV & LG & IN & NW & K & CL & A0 & A1 & N0 & N1 & HL & HD & G0 & G1).
  - change (nZ NumR 1) with 1. rewrite L. change (nlt NumR) with Rltb. change (nZ NumR (-900)) with (-900). apply Rltb_false. lra.
  - change (nZ NumR 1) with 1. rewrite L. change (nlt NumR) with Rltb. change (nZ NumR (-1000)) with (-1000). change (nZ NumR 0) with 0.
    change (nadd NumR) with Rplus. change (nsub NumR) with Rminus. apply Rltb_false. lra.
  - rewrite run_app, E. cbn [bind]. change (run ex_crc true ex_tx ex_mob w (OSend 0%nat (packet 7) (Mac 2) 2048 :: [ORun; ORun]))
      with (bind (step ex_crc true ex_tx ex_mob w (OSend 0%nat (packet 7) (Mac 2) 2048)) (fun w1 => run ex_crc true ex_tx ex_mob w1 [ORun; ORun])).
    rewrite E1. cbn [bind]. rewrite E2. cbn [holds].
    assert (RC : reachable ex_crc true ex_tx ex_mob w) by (exists (fun _ => true), ex_kinds; eexists; exact E).
    assert (RP : recipient w1 0 0 2 1).
    { unfold recipient. rewrite K, CL. left. exists 1%nat. split; [reflexivity|]. split; [exact A1|].
      intros [|j] x J X; [|lia]. injection X as <-. rewrite A0. discriminate. }
    destruct (C80_isl_delivery junk 1000000000 ex_ring pos ex_crc true ex_tx ex_mob (fun _ => 44%Z) w (OSend 0%nat (packet 7) (Mac 2) 2048) w1 _ 0 0 0 (packet 7) 1 2 2048 2 64000000 0 1
      [ORun; ORun] w' 10 11 _ _ _ _ Hu (S' 0%nat ltac:(lia)) (S' 1%nat ltac:(lia)) ltac:(cbn; lra) ltac:(cbn; lra) RC E1 LG IN RP ltac:(lia) N0 N1 eq_refl eq_refl HL HD
      ltac:(rewrite G0; cbn; lra) ltac:(lia) ltac:(cbn; lia) ltac:(lia) ltac:(lia) ltac:(lia) ltac:(rewrite G1; reflexivity) ltac:(rewrite G0, G1; cbn; lra) ltac:(right; rewrite G1; reflexivity)
      ltac:(repeat constructor) E2 EV) as (ta & tb & Ra & Rb & H).
    rewrite NW in Ra, Rb. apply ex_tick0 in Ra, Rb. subst ta tb. rewrite P0, P1, G1 in H. apply (H NE U).
Qed.

(** A satellite of the tracing program's constellation, in doubles: after a day it is still within a
    tenth of a millimetre of its trajectory. *)
Example ex_C80_binary64 : forall ftan, let N := Num64 (fun x => fixed_point (sin (B2R x))) (fun x => fixed_point (cos (B2R x))) ftan in
  forall junk : vec N, let o := @mkLeoOrbit N (b64_Z 1200) (b64_Z 20) 32 16 in
  exists path, satellite junk 1000000000 [o] path o (0, 0)%Z /\
    (within (/ 10000) (reals (path 86400000000000%Z)) (trajectory (earth_radius_km + 1200) (20 * PI / 180) (turn 0 32) (turn 0 16) 86400) \/
    within (/ 10000) (reals (path 86400000000000%Z)) (trajectory (earth_radius_km + 1200) (20 * PI / 180) (turn 0 32) (turn 0 16) 86399)).
Proof.
  intros ftan N junk o.
  assert (A : Forall (fun o => u16 (lo_planes o) /\ u16 (lo_sats o)) [o]) by (repeat constructor; cbn; lia).
  assert (B : Forall installable [o]) by (constructor; [|constructor]; split; [cbn; lia|right; vm_compute; reflexivity]).
  eexists. pose proof (installed_satellite N 1000000000 junk [o] 0 o (0, 0)%Z A B eq_refl) as S.
  destruct (Z_exact_64 1200 ltac:(lia)) as [V1 F1]. destruct (Z_exact_64 20 ltac:(lia)) as [V2 F2].
  destruct (C80_positions_binary64 _ _ ftan ex_accurate junk 1000000000 [o] _ o (0, 0)%Z 86400000000000 1 A S) as (tau & R & _ & W); try assumption; try lia; try lra.
  { cbn [lo_alt o]. rewrite V1. lra. }
  { cbn [lo_inc o]. rewrite V2, Rabs_pos_eq; lra. }
  cbn [lo_alt lo_inc lo_planes lo_sats o fst snd] in W. rewrite V1, V2 in W.
  assert (EH : 1000 * (earth_radius_km + 1200) * 1 * 2 / 1000000000000 <= / 10000) by (unfold earth_radius_km; lra).
  assert (T : tau = 86400000000000%Z \/ tau = 86399000000000%Z) by (destruct R as [(_ & k & K1 & -> & K2)|[(H & _)|(H & _)]]; lia).
  apply (within_le _ _ _ _ W) in EH.
  split; [exact S|]. destruct T as [-> | ->]; [left|right]; unfold sec in EH.
  - replace (86400000000000 / 1000000000) with 86400 in EH by field. exact EH.
  - replace (86399000000000 / 1000000000) with 86399 in EH by field. exact EH.
Qed.
