(** C81, C82: ground stations in IEEE-754 doubles, and the links of an installed
    network computed in doubles. *)
Require Import ZArith Reals Lra Lia Psatz List Bool.
From Flocq Require Import Core.Core IEEE754.BinarySingleNaN.
Require Import Verif.Base Verif.Num Verif.NumR Verif.Num64 Verif.Vec Verif.OrbitModel Verif.MobilityModel Verif.AllocModel
  Verif.LossModel Verif.FrameModel Verif.NetModel Verif.HelperModel
  Verif.GeomSpec Verif.OrbitSpec Verif.MobilitySpec Verif.AllocSpec Verif.LossSpec Verif.NetSpec Verif.Float64Spec Verif.ConstellationSpec Verif.Link64Spec
  Verif.LossProofs Verif.LeoLossProofs Verif.LossApiProofs Verif.OrbitProofs Verif.OrbitApiProofs Verif.AllocProofs Verif.AllocApiProofs Verif.Alloc64Proofs
  Verif.Loss64Proofs Verif.Float64Proofs Verif.Orbit64Proofs Verif.Orbit64Api Verif.Read64Proofs Verif.Los64Proofs Verif.Leo64Proofs
  Verif.TracingProofs Verif.Tracing64Proofs Verif.ConstellationProofs Verif.Ground64Proofs Verif.Link64Proofs Verif.PropFloat Verif.PropLos64 Verif.PropLeo64 Verif.PropConstellation.
Import ListNotations.
Local Open Scope R_scope.

Lemma Rabs_div_pos : forall x y, 0 < y -> Rabs (x / y) = Rabs x / y.
Proof. intros x y H. unfold Rdiv. rewrite Rabs_mult, (Rabs_pos_eq (/ y)); [reflexivity|]. apply Rlt_le, Rinv_0_lt_compat, H. Qed.

(** ** C81 *)

(** Any number of calls of the polar allocator. *)
Theorem C81_polar_binary64 : forall fsin fcos ftan, accurate fsin fcos ->
  forall n L M, (0 < L < 4294967295)%Z -> (0 < M < 4294967296)%Z ->
  exists l p, @polar_calls (Num64 fsin fcos ftan) n (polar_new L M) = Ok (l, p) /\ length l = n /\
    forall i g, nth_error l i = Some g -> finite_vec g /\ within (/ 5000000) (reals g) (grid_point L M (grid L M (Z.of_nat i))).
Proof.
  intros fsin fcos ftan ACC n L M HL HM.
  destruct (polar_calls_new (Num64 fsin fcos ftan) n L M) as (p & H); try (unfold max32; lia).
  eexists _, p. split; [exact H|]. split; [unfold first_n; rewrite map_length, seq_length; reflexivity|].
  intros i g Hi. destruct (nth_first_n_inv _ _ _ _ _ Hi) as [-> _].
  set (k := Z.of_nat i). assert (0 <= k)%Z by (unfold k; lia).
  pose proof (Z.mod_pos_bound k (L + 1) ltac:(lia)). pose proof (Z.mod_pos_bound (k / (L + 1)) M ltac:(lia)).
  apply (polar_64 fsin fcos ftan ACC L M (k mod (L + 1)) ((k / (L + 1)) mod M)); lia.
Qed.
Print Assumptions C81_polar_binary64.

(** InstallGrid: the number of stations, and each within 0.2 micrometres of its grid point. *)
Theorem C81_grid_binary64 : forall fsin fcos ftan, accurate fsin fcos ->
  forall L M, (0 < L < 4294967295)%Z -> (0 < M < 4294967296)%Z ->
  exists l, @InstallGrid (Num64 fsin fcos ftan) L M = Ok l /\ Z.of_nat (length l) = ((L * M) mod 4294967296)%Z /\
    forall i g, nth_error l i = Some g -> finite_vec g /\ within (/ 5000000) (reals g) (grid_point L M (grid L M (Z.of_nat i))).
Proof.
  intros fsin fcos ftan ACC L M HL HM.
  destruct (InstallGrid_ok (Num64 fsin fcos ftan) L M) as (l & K1 & K2 & K3 & _); try (unfold max32; lia).
  exists l. split; [exact K1|]. split; [exact K2|]. intros i g Hi.
  destruct (station_64 fsin fcos ftan ACC g (grid_point L M (grid L M (Z.of_nat i)))) as (F & W & _); [|split; assumption].
  left. exists L, M, l, i. auto.
Qed.
Print Assumptions C81_grid_binary64.

(** InstallLocations: one station for each location, in order, within 0.2 micrometres of the point at
    colatitude twice the latitude given. *)
Theorem C81_locations_binary64 : forall fsin fcos ftan, accurate fsin fcos ->
  forall (l : list (latlong (Num64 fsin fcos ftan))),
  length (InstallLocations l) = length l /\
  forall i (lat lon : b64), nth_error l i = Some (mkLatLong (lat : num (Num64 fsin fcos ftan)) lon) ->
    is_finite lat = true -> Rabs (B2R lat) <= 360 -> is_finite lon = true -> Rabs (B2R lon) <= 360 ->
    exists g, nth_error (InstallLocations l) i = Some g /\ finite_vec g /\
      within (/ 5000000) (reals g) (sphere_point (2 * B2R lat * PI / 180) (B2R lon * PI / 180)).
Proof.
  intros fsin fcos ftan ACC l. split.
  - induction l as [|x l IH]; [reflexivity|]. cbn [InstallLocations length]. rewrite IH. reflexivity.
  - intros i lat lon Hi FA HA FO HO.
    exists (@GetEarthPosition (Num64 fsin fcos ftan) (mkLatLong (lat : num (Num64 fsin fcos ftan)) lon)). split.
    + revert l Hi. induction i as [|i IH]; intros [|x l] Hi; try discriminate; cbn in *.
      * injection Hi as ->. reflexivity.
      * apply IH, Hi.
    + apply (earth_64 fsin fcos ftan ACC); assumption.
Qed.
Print Assumptions C81_locations_binary64.

(** No station leaves the ground, so that the elevation masks of the ground links hold for all of
    them: the model of these links has an Earth 10 m larger. *)
Theorem C81_on_the_ground : forall fsin fcos ftan, accurate fsin fcos ->
  forall (g : vec (Num64 fsin fcos ftan)) G, ground_station g G ->
  norm G = ground_radius /\ Rabs (norm (reals g) - ground_radius) <= / 1000000 /\ norm (reals g) < leo_earth_radius.
Proof.
  intros fsin fcos ftan ACC g G S. destruct (station_64 fsin fcos ftan ACC g G S) as (F & W & N). split; [exact N|].
  apply norm_within in W; [|lra]. rewrite N in W. unfold ground_radius, leo_earth_radius. split; [lra|]. apply Rabs_le_inv in W. lra.
Qed.
Print Assumptions C81_on_the_ground.

(** A station given by latitude and longitude is not where it should be: it can be 9000 km off. *)
Theorem C81_latitude_refuted : forall fsin fcos ftan, accurate fsin fcos ->
  exists lat lon : b64, is_finite lat = true /\ is_finite lon = true /\ Rabs (B2R lat) <= 90 /\ Rabs (B2R lon) <= 180 /\
    9000000 <= distance (reals (@GetEarthPosition (Num64 fsin fcos ftan) (mkLatLong (lat : num (Num64 fsin fcos ftan)) lon))) (geographic (B2R lat) (B2R lon)).
Proof.
  intros fsin fcos ftan ACC. exists (b64_Z 0), (b64_Z 0). destruct (Z_exact_64 0 ltac:(lia)) as [E F].
  assert (A0 : forall c, 0 <= c -> Rabs (B2R (b64_Z 0)) <= c) by (intros c H; rewrite E, Rabs_R0; lra).
  split; [exact F|]. split; [exact F|]. split; [apply A0; lra|]. split; [apply A0; lra|].
  destruct (earth_64 fsin fcos ftan ACC (b64_Z 0) (b64_Z 0) F (A0 360 ltac:(lra)) F (A0 360 ltac:(lra))) as [_ W].
  set (g := reals _) in *. rewrite E in *.
  assert (W0 : within 0 (geographic 0 0) (geographic 0 0)) by (repeat split; rewrite Rminus_diag_eq, Rabs_R0 by reflexivity; lra).
  pose proof (distance_near (/ 5000000) 0 _ _ _ _ ltac:(lra) (Rle_refl 0) W W0) as D. apply Rabs_le_inv in D.
  assert (B : 9000001 <= distance (sphere_point (2 * 0 * PI / 180) (0 * PI / 180)) (geographic 0 0)); [|lra].
  unfold geographic, sphere_point, ground_radius.
  replace (2 * 0 * PI / 180) with 0 by field. replace (0 * PI / 180) with 0 by field. replace (PI / 2 - 0) with (PI / 2) by ring.
  rewrite sin_0, cos_0, sin_PI2, cos_PI2. apply norm_le_sq; [lra|].
  unfold inner, minus, pt, px, py, pz. cbn [vx vy vz]. lra.
Qed.
Print Assumptions C81_latitude_refuted.

(** ** C82 *)

(** Satellites of an installed constellation, everything computed in doubles: one hears the other if
    the line between their trajectories at the refreshed instants clears the Earth by [h / 500] metres,
    and does not if it cuts that far into it. The delay is that of a signal of the channel's speed
    over the distance of these points. *)
Theorem C82_isl_hears_binary64 : forall fsin fcos ftan, accurate fsin fcos ->
  forall (junk : vec (Num64 fsin fcos ftan)) precision os pos has_mob seconds v (w : world (Num64 fsin fcos ftan)) c d dst a b oa psa ob psb (n : R),
  Forall (fun o : leoorbit (Num64 fsin fcos ftan) => u16 (lo_planes o) /\ u16 (lo_sats o)) os ->
  satellite junk precision os (pos a) oa psa -> satellite junk precision os (pos b) ob psb -> sane_orbit oa -> sane_orbit ob ->
  / 1000 <= B2R (lo_alt oa : b64) -> / 1000 <= B2R (lo_alt ob : b64) ->
  node_of w d = Some a -> node_of w dst = Some b -> has_mob a = true -> has_mob b = true ->
  c_loss (w_chan w c) = Some (isl_loss pos) -> c_delay (w_chan w c) = Some (constant_speed pos seconds (b64_Z v : num (Num64 fsin fcos ftan))) -> (1 <= v <= 1000000000)%Z ->
  is_finite (g_txp (d_cfg (w_dev w d)) : b64) = true -> -900 <= B2R (g_txp (d_cfg (w_dev w d)) : b64) ->
  1 <= n <= 100000 -> (0 <= w_now w)%Z -> IZR (w_now w) <= n * 86400000000000 ->
  exists ta tb, refreshed precision (w_now w) ta /\ refreshed precision (w_now w) tb /\
    let P := sat_path64 oa psa (sec ta) in let Q := sat_path64 ob psb (sec tb) in
    let h := earth_radius_km + Rmax (B2R (lo_alt oa : b64)) (B2R (lo_alt ob : b64)) in
    h / 500 <= distance P Q ->
    (unobstructed (isl_earth_radius + h / 500) P Q -> hears has_mob w c d dst = true /\ power_at has_mob w c d dst = g_txp (d_cfg (w_dev w d))) /\
    (~ unobstructed (isl_earth_radius - h / 500) P Q -> hears has_mob w c d dst = false) /\
    exists x : b64, (forall tx, delay_to has_mob w c d dst tx = seconds x) /\ is_finite x = true /\
      Rabs (B2R x - distance P Q / IZR v) <= h * n / 100000000 / IZR v.
Proof.
  intros fsin fcos ftan ACC junk prec os pos has_mob seconds v w c d dst a b oa psa ob psb n Hu Sa Sb Oa Ob Aa Ab Na Nb Ma Mb HL HD Hv HF HP Hn Ht HT.
  destruct (reported_64 fsin fcos ftan ACC junk prec os (pos a) oa psa (w_now w) n Hu Sa Oa Hn Ht HT) as (ta & Ra & F1 & E1 & W1).
  destruct (reported_64 fsin fcos ftan ACC junk prec os (pos b) ob psb (w_now w) n Hu Sb Ob Hn Ht HT) as (tb & Rb & F2 & E2 & W2).
  exists ta, tb. split; [exact Ra|]. split; [exact Rb|]. cbv zeta. intros FAR.
  destruct (isl_link_64 fsin fcos ftan has_mob pos w c d dst a b HL Na Nb Ma Mb) as [HH PW].
  pose proof (path_norm fsin fcos ftan oa psa (sec ta) (proj1 (proj1 (proj2 Oa)))) as NP.
  pose proof (path_norm fsin fcos ftan ob psb (sec tb) (proj1 (proj1 (proj2 Ob)))) as NQ.
  set (P := sat_path64 oa psa (sec ta)) in *. set (Q := sat_path64 ob psb (sec tb)) in *.
  set (p1 := pos a (w_now w)) in *. set (p2 := pos b (w_now w)) in *.
  set (h := earth_radius_km + Rmax (B2R (lo_alt oa : b64)) (B2R (lo_alt ob : b64))) in *.
  set (h1 := earth_radius_km + B2R (lo_alt oa : b64)) in *. set (h2 := earth_radius_km + B2R (lo_alt ob : b64)) in *.
  assert (HB : h <= 1006371.009).
  { unfold h, earth_radius_km. destruct Oa as (_ & S1 & _). destruct Ob as (_ & S2 & _). pose proof (Rmax_lub _ _ _ (proj2 S1) (proj2 S2)). lra. }
  assert (H1 : 6371.010 <= h1 <= h) by (unfold h, h1, earth_radius_km; pose proof (Rmax_l (B2R (lo_alt oa : b64)) (B2R (lo_alt ob : b64))); lra).
  assert (H2 : 6371.010 <= h2 <= h) by (unfold h, h2, earth_radius_km; pose proof (Rmax_r (B2R (lo_alt oa : b64)) (B2R (lo_alt ob : b64))); lra).
  assert (DLY : forall tx, delay_to has_mob w c d dst tx = seconds (b64_div (@vdist (Num64 fsin fcos ftan) p1 p2) (b64_Z v)))
    by (intros tx; exact (speed_link_64 fsin fcos ftan has_mob pos seconds (b64_Z v) w c d dst a b tx HD Na Nb Ma Mb)).
  set (tx := g_txp (d_cfg (w_dev w d)) : b64) in *.
  clearbody h1 h2 h p1 p2. clear Aa Ab Oa Ob.
  set (dd := h * n * 2 / 1000000000).
  assert (D1 : forall k, 6371.010 <= k <= h -> 1000 * k * n * 2 / 1000000000000 <= dd).
  { intros k Hk. unfold dd. assert (k * n <= h * n) by (apply Rmult_le_compat_r; lra). lra. }
  assert (HN : 6371 <= h * n <= h * 100000) by (split; [assert (6371 * 1 <= h * n) by (apply Rmult_le_compat; lra); lra|apply Rmult_le_compat_l; lra]).
  assert (D0 : 0 <= dd <= h / 5000) by (unfold dd; lra).
  pose proof (within_le _ _ _ _ W1 (D1 _ H1)) as V1. pose proof (within_le _ _ _ _ W2 (D1 _ H2)) as V2.
  pose proof (distance_near dd dd _ _ _ _ (proj1 D0) (proj1 D0) V1 V2) as DN. apply Rabs_le_inv in E1, E2.
  assert (DN' := DN). apply Rabs_le_inv in DN'.
  assert (DU : distance P Q <= 2000 * h).
  { unfold distance. pose proof (norm_sq (minus Q P)) as E. pose proof (norm_sq Q) as X1. pose proof (norm_sq P) as X2.
    pose proof (norm_nonneg (minus Q P)) as P0. pose proof (cauchy Q P) as CS. apply Rabs_le_inv in CS.
    assert (EX : inner (minus Q P) (minus Q P) = inner Q Q - 2 * inner Q P + inner P P) by (unfold inner, minus, pt, px, py, pz; cbn [vx vy vz]; ring).
    rewrite EX, <- X1, <- X2, NP, NQ in E. rewrite NP, NQ in CS.
    assert (norm (minus Q P) * norm (minus Q P) <= 2000 * h * (2000 * h)).
    { assert (h2 * h2 <= h * h) by (apply Rmult_le_compat; lra). assert (h1 * h1 <= h * h) by (apply Rmult_le_compat; lra).
      assert (h2 * h1 <= h * h) by (apply Rmult_le_compat; lra). lra. }
    apply Rsqr_incr_0_var; [exact H|lra]. }
  destruct (C77_line_of_sight_binary64 fsin fcos ftan p1 p2 tx (1001 * h) F1 F2) as [T F]; try (unfold isl_earth_radius; lra).
  rewrite HH, PW. split; [|split].
  - intros U. destruct T as [_ T].
    + apply (unobstructed_within _ dd _ _ P Q (proj1 D0) V1 V2). intros t Hti. specialize (U t Hti). lra.
    + rewrite T. rewrite minus_900 by assumption. split; reflexivity.
  - intros U. destruct F as [_ F].
    + intros C. apply U. apply (unobstructed_within _ dd _ _ (reals p1) (reals p2) (proj1 D0) (within_sym _ _ _ V1) (within_sym _ _ _ V2)).
      intros t Hti. specialize (C t Hti). lra.
    + rewrite F, minus1000'. reflexivity.
  - destruct (light_64 fsin fcos ftan v p1 p2 Hv F1 F2) as [FX EX]; [lra|].
    assert (V0 : 0 < / IZR v) by (apply Rinv_0_lt_compat, IZR_lt; lia). assert (VN : IZR v <> 0) by (apply not_0_IZR; lia).
    eexists. split; [exact DLY|]. split; [exact FX|].
    match goal with |- Rabs (?x - ?y) <= _ => replace (x - y) with ((x - distance (reals p1) (reals p2) / IZR v) + (distance (reals p1) (reals p2) - distance P Q) / IZR v) by (field; exact VN) end.
    eapply Rle_trans; [apply Rabs_triang|]. rewrite (Rabs_div_pos _ (IZR v)) by (apply IZR_lt; lia).
    apply Rle_trans with ((distance (reals p1) (reals p2) * (20 * u) + Rabs (distance (reals p1) (reals p2) - distance P Q)) * / IZR v); [unfold Rdiv in *; lra|].
    unfold Rdiv at 2. apply Rmult_le_compat_r; [lra|].
    assert (distance (reals p1) (reals p2) * (20 * u) <= 2001 * h * (20 * u)) by (apply Rmult_le_compat_r; [pose proof u_pos; lra|lra]).
    assert (HN1 : h * 1 <= h * n) by (apply Rmult_le_compat_l; lra). unfold dd, u in *. lra.
Qed.
Print Assumptions C82_isl_hears_binary64.

(** The same up and down between a satellite and a ground station: within the slant range of the mask,
    give or take 2 * 10^-8 of the orbit radius (15 cm for low orbits) and 10^-11 for each day. For 100
    days and up to 40000 km nothing is heard below the mask at all. *)
Theorem C82_ground_hears_binary64 : forall fsin fcos ftan, accurate fsin fcos -> accurate_tan ftan ->
  forall (junk : vec (Num64 fsin fcos ftan)) precision os pos has_mob seconds v (w : world (Num64 fsin fcos ftan)) c d dst a b s o ps g G (e atm fspl margin : b64) (n : R),
  Forall (fun o : leoorbit (Num64 fsin fcos ftan) => u16 (lo_planes o) /\ u16 (lo_sats o)) os ->
  satellite junk precision os (pos s) o ps -> sane_orbit o -> 101 <= B2R (lo_alt o : b64) ->
  ground_station g G -> (a = s /\ pos b (w_now w) = g) \/ (b = s /\ pos a (w_now w) = g) ->
  node_of w d = Some a -> node_of w dst = Some b -> has_mob a = true -> has_mob b = true ->
  c_loss (w_chan w c) = Some (leo_loss pos (mkLeoLoss (SetElevationAngle (N := Num64 fsin fcos ftan) e) atm fspl margin)) ->
  c_delay (w_chan w c) = Some (constant_speed pos seconds (b64_Z v : num (Num64 fsin fcos ftan))) -> (1 <= v <= 1000000000)%Z ->
  is_finite e = true -> 0 <= B2R e <= 89 ->
  let budget := b64_minus (b64_minus (b64_minus (g_txp (d_cfg (w_dev w d))) atm) fspl) margin in
  is_finite budget = true -> -900 <= B2R budget ->
  1 <= n <= 100000 -> (0 <= w_now w)%Z -> IZR (w_now w) <= n * 86400000000000 ->
  exists tau, refreshed precision (w_now w) tau /\
    let P := sat_path64 o ps (sec tau) in
    let H := 1000 * (earth_radius_km + B2R (lo_alt o : b64)) in
    let rng := slant_range leo_earth_radius H (radians (B2R e)) in
    let del := H * (/ 50000000 + n / 100000000000) in
    (distance G P <= rng - del -> hears has_mob w c d dst = true /\ power_at has_mob w c d dst = budget) /\
    (rng + del <= distance G P -> hears has_mob w c d dst = false) /\
    (hears has_mob w c d dst = true -> n <= 100 -> B2R (lo_alt o : b64) <= 40000 -> radians (B2R e) <= elevation G P) /\
    exists x : b64, (forall tx, delay_to has_mob w c d dst tx = seconds x) /\ is_finite x = true /\
      Rabs (B2R x - distance G P / IZR v) <= H * n / 100000000000 / IZR v.
Proof.
  intros fsin fcos ftan ACC ACT junk prec os pos has_mob seconds v w c d dst a b s o ps g G e atm fspl margin n Hu S SO HA SG AB Na Nb Ma Mb HL HD Hv Fe He budget FB HB Hn Ht HT.
  destruct (reported_64 fsin fcos ftan ACC junk prec os (pos s) o ps (w_now w) n Hu S SO Hn Ht HT) as (tau & R & F1 & E1 & W1).
  destruct (station_64 fsin fcos ftan ACC g G SG) as (FG & WG & NG).
  exists tau. split; [exact R|]. cbv zeta.
  pose proof (path_norm fsin fcos ftan o ps (sec tau) (proj1 (proj1 (proj2 SO)))) as NP.
  destruct (ground_link_64 fsin fcos ftan has_mob pos _ w c d dst a b HL Na Nb Ma Mb) as [HH PW].
  pose proof (fun tx => speed_link_64 fsin fcos ftan has_mob pos seconds (b64_Z v) w c d dst a b tx HD Na Nb Ma Mb) as DLY.
  set (m := mkLeoLoss (SetElevationAngle (N := Num64 fsin fcos ftan) e) atm fspl margin) in *.
  set (tx := g_txp (d_cfg (w_dev w d)) : b64) in *. set (p := pos s (w_now w)) in *.
  assert (RX : @LeoCalcRxPower (Num64 fsin fcos ftan) m tx (pos a (w_now w)) (pos b (w_now w)) = @LeoCalcRxPower (Num64 fsin fcos ftan) m tx g p).
  { destruct AB as [[-> ->]|[-> ->]]; [apply LeoCalcRxPower_sym_64|reflexivity]. }
  rewrite RX in HH, PW. clear RX. set (P := sat_path64 o ps (sec tau)) in *.
  assert (AR : 101 <= B2R (lo_alt o : b64) <= 1000000) by (destruct SO as (_ & X & _); lra).
  set (al := B2R (lo_alt o : b64)) in *. set (h := earth_radius_km + al) in *.
  assert (Hh : h = 6371.009 + al) by reflexivity. clearbody h al.
  set (H := 1000 * h) in *. assert (HV : H = 1000 * h) by reflexivity. clearbody H.
  apply Rabs_le_inv in E1.
  set (del := H * (/ 50000000 + n / 100000000000)).
  assert (NN : 0 < H * 1 <= H * n) by (split; [lra|apply Rmult_le_compat_l; lra]).
  assert (NU : H * n <= H * 100000) by (apply Rmult_le_compat_l; lra).
  assert (DE : del = H / 50000000 + H * n / 100000000000) by (unfold del; field). clearbody del.
  set (dd := H * n * 2 / 1000000000000).
  assert (D0 : 0 <= dd) by (unfold dd; lra).
  pose proof (distance_near (/ 5000000) dd _ _ _ _ ltac:(lra) D0 WG W1) as DN. assert (DN' := DN). apply Rabs_le_inv in DN'.
  pose proof (norm_within (/ 5000000) _ _ ltac:(lra) WG) as NG'. rewrite NG in NG'. apply Rabs_le_inv in NG'.
  destruct (leo_64 fsin fcos ftan ACT e atm fspl margin tx g p Fe He FG F1) as [A B]; try (unfold leo_earth_radius; lra).
  fold m in A, B. fold budget in A. change (slant_range 6371010) with (slant_range leo_earth_radius) in A, B.
  pose proof (slant_lip H (norm (reals p)) (radians (B2R e)) ltac:(unfold leo_earth_radius; lra) ltac:(unfold leo_earth_radius; lra)) as SL.
  assert (AD : Rabs (H - norm (reals p)) <= H / 10000000000000) by (apply Rabs_le; lra).
  apply Rabs_le_inv in SL.
  assert (YES : distance G P <= slant_range leo_earth_radius H (radians (B2R e)) - del -> @LeoCalcRxPower (Num64 fsin fcos ftan) m tx g p = budget).
  { intros L. apply A. unfold dd in *. lra. }
  assert (NO : slant_range leo_earth_radius H (radians (B2R e)) + del <= distance G P -> nlt (Num64 fsin fcos ftan) (@LeoCalcRxPower (Num64 fsin fcos ftan) m tx g p) (nZ (Num64 fsin fcos ftan) (-900)) = true).
  { intros L. rewrite B; [vm_compute; reflexivity|]. unfold dd in *. lra. }
  rewrite HH, PW. split; [|split; [|split]].
  - intros L. rewrite (YES L). rewrite minus_900 by assumption. split; reflexivity.
  - intros L. rewrite (NO L). reflexivity.
  - intros HR N100 AMAX.
    assert (LT : distance G P < slant_range leo_earth_radius H (radians (B2R e)) + del).
    { apply Rnot_le_lt. intros L. rewrite (NO L) in HR. discriminate. }
    assert (H * n <= H * 100) by (apply Rmult_le_compat_l; lra).
    apply (mask_margin G P (B2R e) del NG); rewrite ?NP; try (unfold leo_earth_radius; lra). lra.
  - assert (TR : H - 6371000 <= distance G P <= H + 6371000).
    { unfold distance. pose proof (norm_sq (minus P G)) as E. pose proof (norm_sq P) as X1. pose proof (norm_sq G) as X2.
      pose proof (norm_nonneg (minus P G)) as P0. pose proof (cauchy P G) as CS. apply Rabs_le_inv in CS.
      assert (EX : inner (minus P G) (minus P G) = inner P P - 2 * inner P G + inner G G) by (unfold inner, minus, pt, px, py, pz; cbn [vx vy vz]; ring).
      rewrite EX, <- X1, <- X2, NP, NG in E. rewrite NP, NG in CS.
      split; apply Rsqr_incr_0_var; unfold Rsqr; lra. }
    assert (V0 : 0 < / IZR v) by (apply Rinv_0_lt_compat, IZR_lt; lia). assert (VN : IZR v <> 0) by (apply not_0_IZR; lia).
    destruct (light_64 fsin fcos ftan v g p Hv FG F1) as [FX EX]; [unfold dd in *; lra|].
    exists (b64_div (@vdist (Num64 fsin fcos ftan) g p) (b64_Z v)). split; [|split; [exact FX|]].
    + intros t. rewrite DLY. destruct AB as [[-> ->]|[-> ->]]; [|reflexivity]. fold p. rewrite vdist_sym_64. reflexivity.
    + match goal with |- Rabs (?x - ?y) <= _ => replace (x - y) with ((x - distance (reals g) (reals p) / IZR v) + (distance (reals g) (reals p) - distance G P) / IZR v) by (field; exact VN) end.
      eapply Rle_trans; [apply Rabs_triang|]. rewrite (Rabs_div_pos _ (IZR v)) by (apply IZR_lt; lia).
      apply Rle_trans with ((distance (reals g) (reals p) * (20 * u) + Rabs (distance (reals g) (reals p) - distance G P)) * / IZR v); [unfold Rdiv in *; lra|].
      unfold Rdiv at 2. apply Rmult_le_compat_r; [lra|].
      assert (distance (reals g) (reals p) * (20 * u) <= 3 * H * (20 * u)).
      { apply Rmult_le_compat_r; [pose proof u_pos; lra|]. unfold dd in *. lra. }
      unfold dd, u in *. lra.
Qed.
Print Assumptions C82_ground_hears_binary64.

(** ** Examples, with correctly rounded trigonometric functions. *)
Definition ex_N64 : Num := Num64 (fun x => fixed_point (sin (B2R x))) (fun x => fixed_point (cos (B2R x))) (fun x => fixed_point (tan (B2R x))).

(** A grid of two steps of latitude and four meridians: eight stations, the first at the pole, the
    second on the equator; and a location at 45 degrees north, which ends up on the equator. *)
Example ex_C81 :
  (exists l g0 g1, @InstallGrid ex_N64 2 4 = Ok l /\ length l = 8%nat /\ nth_error l 0 = Some g0 /\ nth_error l 1 = Some g1 /\
     within (/ 5000000) (reals g0) north_pole /\ within (/ 5000000) (reals g1) (pt 6371000 0 0)) /\
  (exists g, @InstallLocations ex_N64 [@mkLatLong ex_N64 (b64_Z 45) (b64_Z 0)] = [g] /\ within (/ 5000000) (reals g) (pt 6371000 0 0)).
Proof.
  split.
  - destruct (C81_grid_binary64 _ _ (fun x => fixed_point (tan (B2R x))) ex_accurate 2 4 ltac:(lia) ltac:(lia)) as (l & H & HL & W).
    change ((2 * 4) mod 4294967296)%Z with 8%Z in HL. assert (LN : length l = 8%nat) by lia.
    destruct l as [|g0 [|g1 l]]; try discriminate. exists (g0 :: g1 :: l), g0, g1.
    split; [exact H|]. split; [exact LN|]. split; [reflexivity|]. split; [reflexivity|].
    destruct (W 0%nat g0 eq_refl) as [_ W0]. destruct (W 1%nat g1 eq_refl) as [_ W1].
    change (grid 2 4 (Z.of_nat 0)) with (0%Z, 0%Z) in W0. change (grid 2 4 (Z.of_nat 1)) with (1%Z, 0%Z) in W1. unfold grid_point, turn, sphere_point, ground_radius in W0, W1. cbn [fst snd] in W0, W1.
    replace (PI * (0 / 2)) with 0 in W0 by field. rewrite sin_0, cos_0 in W0. 
    replace (PI * (1 / 2)) with (PI / 2) in W1 by field. replace (2 * PI * (0 / 4)) with 0 in W1 by field. rewrite sin_PI2, cos_PI2, sin_0, cos_0 in W1.
    replace north_pole with (pt (6371000 * (0 * cos (2 * PI * (0 / 4)))) (6371000 * (0 * sin (2 * PI * (0 / 4)))) (6371000 * 1))
      by (unfold north_pole, ground_radius, pt; f_equal; change (num NumR) with R; ring).
    replace (pt 6371000 0 0) with (pt (6371000 * (1 * 1)) (6371000 * (1 * 0)) (6371000 * 0)) by (unfold pt; f_equal; change (num NumR) with R; ring).
    split; assumption.
  - destruct (C81_locations_binary64 _ _ (fun x => fixed_point (tan (B2R x))) ex_accurate [mkLatLong (b64_Z 45 : num ex_N64) (b64_Z 0)]) as [_ W].
    destruct (Z_exact_64 45 ltac:(lia)) as [V F]. destruct (Z_exact_64 0 ltac:(lia)) as [V0 F0].
    destruct (W 0%nat (b64_Z 45) (b64_Z 0) eq_refl F ltac:(rewrite V, Rabs_pos_eq; lra) F0 ltac:(rewrite V0, Rabs_R0; lra)) as (g & E & _ & W1).
    exists g. injection E as E. split; [cbn [InstallLocations]; f_equal; exact E|].
    rewrite V, V0 in W1. unfold sphere_point, ground_radius in W1.
    replace (2 * 45 * PI / 180) with (PI / 2) in W1 by field. replace (0 * PI / 180) with 0 in W1 by field. rewrite sin_PI2, cos_PI2, sin_0, cos_0 in W1.
    replace (pt 6371000 0 0) with (pt (6371000 * (1 * 1)) (6371000 * (1 * 0)) (6371000 * 0)) by (unfold pt; f_equal; change (num NumR) with R; ring).
    exact W1.
Qed.

(** The ring of C80 in doubles: four satellites over one meridian, 3000 km high; the station is put at the pole by
    asking for latitude 0. *)
Section Ring.
Variables fsin fcos ftan : b64 -> b64.
Hypothesis ACC : accurate fsin fcos.
Hypothesis ACT : accurate_tan ftan.
Local Notation N64 := (Num64 fsin fcos ftan).
Definition ex_o64 : leoorbit N64 := @mkLeoOrbit N64 (b64_Z 3000) (b64_Z 90) 1 4.
Definition ex_world64 (pos : nat -> Z -> vec N64) : world N64 :=
  mkWorld 0 (fun d => @mkDev N64 (@mkCfg N64 Plain (Some d) (Z.of_nat d + 1) 8000 0 (b64_Z (-1000)) (b64_Z 1) (b64_Z 0) (b64_Z 0) None true false)
                        (Some (drop_tail 100)) [] false None (Some 0%nat) d true)
          (fun c => @mkChan N64 (if Nat.eqb c 0 then IslChannel else LeoChannel) [0; 1; 2; 3]%nat [] []
             (Some (if Nat.eqb c 0 then isl_loss pos else leo_loss pos (mkLeoLoss (SetElevationAngle (N := N64) (b64_Z 30)) (b64_Z 0) (b64_Z 0) (b64_Z 0))))
             (Some (constant_speed pos (fun x : num N64 => up (B2R (x : b64) * 1000000000)) (b64_Z (if Nat.eqb c 0 then 299792458 else 299702458) : num N64)))) [] [].

Lemma ex_o64_at : forall k, (k < 4)%nat -> sat_path64 (ex_o64 : leoorbit N64) (ex_place k) (sec 0) = pt 0 (9371009 * sin (INR k * (PI / 2))) (9371009 * cos (INR k * (PI / 2))).
Proof.
  intros k Hk. destruct (Z_exact_64 3000 ltac:(lia)) as [V1 F1]. destruct (Z_exact_64 90 ltac:(lia)) as [V2 F2].
  unfold sat_path64, ex_o64. cbn [lo_alt lo_inc lo_planes lo_sats]. rewrite V1, V2. rewrite <- ex_ring_at. reflexivity.
Qed.

Lemma ring_64 : forall junk : vec N64, exists pos G,
  (forall k, (k < 4)%nat -> satellite junk 1000000000 [ex_o64] (pos k) ex_o64 (ex_place k)) /\
  @ground_station fsin fcos ftan (pos 4%nat 0%Z) G /\
  hears (fun _ => true) (ex_world64 pos) 0 0 1 = true /\ hears (fun _ => true) (ex_world64 pos) 0 0 2 = false /\
  hears (fun _ => true) (ex_world64 pos) 1 0 4 = true /\ hears (fun _ => true) (ex_world64 pos) 1 4 1 = false.
Proof.
  intros junk.
  assert (Hu : Forall (fun o => u16 (lo_planes o) /\ u16 (lo_sats o)) [ex_o64]) by (repeat constructor; cbn; lia).
  assert (Hi : Forall installable [ex_o64]) by (constructor; [|constructor]; split; [cbn; lia|right; vm_compute; reflexivity]).
  set (g := @GetEarthPosition N64 (@mkLatLong N64 (b64_Z 0) (b64_Z 0))).
  set (paths := fun k t => CalcPosition (sat_orbit (ex_o64, ex_place k)) (latest 1000000000 t) (latest 1000000000 t)).
  exists (fun k => if Nat.eqb k 4 then fun _ => g else paths k), (pt 0 0 6371000). set (pos := fun k => if Nat.eqb k 4 then _ else _).
  assert (S' : forall k, (k < 4)%nat -> satellite junk 1000000000 [ex_o64] (pos k) ex_o64 (ex_place k)).
  { intros k Hk. unfold pos. destruct (Nat.eqb_spec k 4); [lia|]. assert (E : nth_error (concat (map satellites [ex_o64])) k = Some (ex_o64, ex_place k)) by (destruct k as [|[|[|[|k]]]]; try lia; reflexivity).
    exact (installed_satellite N64 1000000000 junk [ex_o64] k ex_o64 (ex_place k) Hu Hi E). }
  destruct (Z_exact_64 3000 ltac:(lia)) as [V1 F1]. destruct (Z_exact_64 90 ltac:(lia)) as [V2 F2].
  destruct (Z_exact_64 0 ltac:(lia)) as [V0 F0]. destruct (Z_exact_64 1 ltac:(lia)) as [V3 F3]. destruct (Z_exact_64 30 ltac:(lia)) as [V4 F4].
  assert (SO : sane_orbit (ex_o64 : leoorbit N64)).
  { unfold sane_orbit, ex_o64. cbn [lo_alt lo_inc]. rewrite V1, V2, Rabs_pos_eq by lra. repeat split; try assumption; lra. }
  assert (SG : @ground_station fsin fcos ftan g (pt 0 0 6371000)).
  { right. exists [mkLatLong (b64_Z 0 : num N64) (b64_Z 0)], 0%nat, (b64_Z 0), (b64_Z 0). split; [reflexivity|]. split; [reflexivity|].
    split; [exact F0|]. split; [rewrite V0, Rabs_R0; lra|]. split; [exact F0|]. split; [rewrite V0, Rabs_R0; lra|].
    rewrite V0. unfold sphere_point, ground_radius. replace (2 * 0 * PI / 180) with 0 by field. rewrite sin_0, cos_0. unfold pt. f_equal; change (num NumR) with R; ring. }
  assert (BU : b64_minus (b64_minus (b64_minus (b64_Z 1) (b64_Z 0)) (b64_Z 0)) (b64_Z 0) = b64_Z 1) by (apply B2SF_inj; vm_compute; reflexivity).
  assert (P0 : sat_path64 (ex_o64 : leoorbit N64) (ex_place 0) (sec 0) = pt 0 0 9371009).
  { rewrite ex_o64_at by lia. cbn [INR]. rewrite Rmult_0_l, sin_0, cos_0. f_equal; change (num NumR) with R; ring. }
  assert (P1 : sat_path64 (ex_o64 : leoorbit N64) (ex_place 1) (sec 0) = pt 0 9371009 0).
  { rewrite ex_o64_at by lia. cbn [INR]. rewrite Rmult_1_l, sin_PI2, cos_PI2. f_equal; change (num NumR) with R; ring. }
  assert (P2 : sat_path64 (ex_o64 : leoorbit N64) (ex_place 2) (sec 0) = pt 0 0 (-9371009)).
  { rewrite ex_o64_at by lia. cbn [INR]. replace ((1 + 1) * (PI / 2)) with PI by field. rewrite sin_PI, cos_PI. f_equal; change (num NumR) with R; ring. }
  assert (A3 : / 1000 <= B2R (lo_alt ex_o64 : b64) /\ 101 <= B2R (lo_alt ex_o64 : b64)) by (unfold ex_o64; cbn [lo_alt]; rewrite V1; lra). destruct A3 as [A3 A4].
  assert (RM : earth_radius_km + Rmax (B2R (lo_alt ex_o64 : b64)) (B2R (lo_alt ex_o64 : b64)) = 9371.009) by (rewrite Rmax_left by lra; unfold ex_o64, earth_radius_km; cbn [lo_alt]; rewrite V1; lra).
  split; [exact S'|]. split; [exact SG|].
  set (w := ex_world64 pos).
  assert (L0 : c_loss (w_chan w 0%nat) = Some (isl_loss pos)) by reflexivity.
  assert (L1 : c_loss (w_chan w 1%nat) = Some (leo_loss pos (mkLeoLoss (SetElevationAngle (N := N64) (b64_Z 30)) (b64_Z 0) (b64_Z 0) (b64_Z 0)))) by reflexivity.
  assert (DD : forall c, c_delay (w_chan w c) = Some (constant_speed pos (fun x : num N64 => up (B2R (x : b64) * 1000000000)) (b64_Z (if Nat.eqb c 0 then 299792458 else 299702458) : num N64))) by reflexivity.
  assert (NO : forall d, node_of w d = Some d) by reflexivity.
  assert (TX : forall d, g_txp (d_cfg (w_dev w d)) = b64_Z 1) by reflexivity.
  assert (NW : w_now w = 0%Z) by reflexivity. assert (PG : pos 4%nat (w_now w) = g) by reflexivity. clearbody w.
  assert (TF : forall d, is_finite (g_txp (d_cfg (w_dev w d)) : b64) = true) by (intros d; rewrite TX; exact F3).
  assert (TV : forall d, -900 <= B2R (g_txp (d_cfg (w_dev w d)) : b64)) by (intros d; rewrite TX, V3; lra).
  assert (BF : forall d, is_finite (b64_minus (b64_minus (b64_minus (g_txp (d_cfg (w_dev w d))) (b64_Z 0)) (b64_Z 0)) (b64_Z 0)) = true) by (intros d; rewrite TX, BU; exact F3).
  assert (BV : forall d, -900 <= B2R (b64_minus (b64_minus (b64_minus (g_txp (d_cfg (w_dev w d))) (b64_Z 0)) (b64_Z 0)) (b64_Z 0))) by (intros d; rewrite TX, BU, V3; lra).
  assert (T0 : (0 <= w_now w)%Z) by lia. assert (T1 : IZR (w_now w) <= 1 * 86400000000000) by (rewrite NW; lra). assert (N1 : 1 <= 1 <= 100000) by lra.
  assert (E30 : 0 <= B2R (b64_Z 30) <= 89) by (rewrite V4; lra).
  pose proof (fun d dst psa psb pa pb => C82_isl_hears_binary64 fsin fcos ftan ACC junk 1000000000 [ex_o64] pos (fun _ => true) _ 299792458 w 0 d dst d dst ex_o64 psa ex_o64 psb 1
    Hu pa pb SO SO A3 A3 (NO d) (NO dst) eq_refl eq_refl L0 (DD 0%nat) ltac:(lia) (TF d) (TV d) N1 T0 T1) as ISL.
  pose proof (fun d dst s ps ps0 AB => C82_ground_hears_binary64 fsin fcos ftan ACC ACT junk 1000000000 [ex_o64] pos (fun _ => true) _ 299702458 w 1 d dst d dst s ex_o64 ps g (pt 0 0 6371000) (b64_Z 30) (b64_Z 0) (b64_Z 0) (b64_Z 0) 1
    Hu ps0 SO A4 SG AB (NO d) (NO dst) eq_refl eq_refl L1 (DD 1%nat) ltac:(lia) F4 E30 (BF d) (BV d) N1 T0 T1) as GND.
  assert (DG : forall a b r, 0 <= r -> r * r = inner (minus b a) (minus b a) -> distance a b = r).
  { intros a b r Hr E. unfold distance, norm. rewrite <- E. apply sqrt_square. exact Hr. }
  split; [|split; [|split]].
  - destruct (ISL 0%nat 1%nat _ _ (S' 0%nat ltac:(lia)) (S' 1%nat ltac:(lia))) as (ta & tb & Ra & Rb & H). rewrite NW in Ra, Rb.
    apply ex_tick0 in Ra, Rb. subst ta tb. rewrite P0, P1, RM in H. destruct H as [H _].
    + apply norm_le_sq; [lra|]. unfold minus, inner, pt, px, py, pz; cbn. lra.
    + apply H. intros t Ht'. apply norm_lt_sq; [unfold isl_earth_radius; lra|].
      unfold on_segment, plus, GeomSpec.scale, minus, inner, isl_earth_radius, pt, px, py, pz; cbn.
      pose proof (Rle_0_sqr (t - 1 / 2)) as SQ. unfold Rsqr in SQ. nra.
  - destruct (ISL 0%nat 2%nat _ _ (S' 0%nat ltac:(lia)) (S' 2%nat ltac:(lia))) as (ta & tb & Ra & Rb & H). rewrite NW in Ra, Rb.
    apply ex_tick0 in Ra, Rb. subst ta tb. rewrite P0, P2, RM in H. destruct H as (_ & H & _).
    + apply norm_le_sq; [lra|]. unfold minus, inner, pt, px, py, pz; cbn. lra.
    + apply H. intros HH. specialize (HH (1 / 2) ltac:(lra)). apply norm_lt_sq in HH; [|unfold isl_earth_radius; lra].
      unfold on_segment, plus, GeomSpec.scale, minus, inner, isl_earth_radius, pt, px, py, pz in HH; cbn in HH. lra.
  - destruct (GND 0%nat 4%nat 0%nat _ (S' 0%nat ltac:(lia)) (or_introl (conj eq_refl PG))) as (tau & RF & H & _). rewrite NW in RF.
    apply ex_tick0 in RF. subst tau. apply H. rewrite P0. rewrite (DG _ _ 3000009) by (try lra; unfold inner, minus, pt, px, py, pz; cbn; lra).
    unfold ex_o64, earth_radius_km, slant_range. cbn [lo_alt]. rewrite V1, V4. replace (radians 30) with (PI / 6) by (unfold radians; field).
    rewrite sin_PI6. unfold leo_earth_radius.
    match goal with |- _ <= sqrt ?x - _ - _ => assert (SQ : sqrt (8000000 * 8000000) <= sqrt x) by (apply sqrt_le_1_alt; lra) end.
    rewrite sqrt_square in SQ by lra. lra.
  - destruct (GND 4%nat 1%nat 1%nat _ (S' 1%nat ltac:(lia)) (or_intror (conj eq_refl PG))) as (tau & RF & _ & H & _). rewrite NW in RF.
    apply ex_tick0 in RF. subst tau. apply H. rewrite P1.
    assert (D : 11000000 <= distance (pt 0 0 6371000) (pt 0 9371009 0)) by (apply norm_le_sq; [lra|]; unfold minus, inner, pt, px, py, pz; cbn; lra).
    eapply Rle_trans; [|exact D].
    unfold ex_o64, earth_radius_km, slant_range. cbn [lo_alt]. rewrite V1, V4. replace (radians 30) with (PI / 6) by (unfold radians; field).
    rewrite sin_PI6. unfold leo_earth_radius.
    match goal with |- sqrt ?x - _ + _ <= _ => assert (SQ : sqrt x <= sqrt (15000000 * 15000000)) by (apply sqrt_le_1_alt; lra) end.
    rewrite sqrt_square in SQ by lra. lra.
Qed.
End Ring.

Example ex_C82 : forall junk : vec ex_N64, exists pos G,
  (forall k, (k < 4)%nat -> satellite junk 1000000000 [ex_o64 _ _ _] (pos k) (ex_o64 _ _ _) (ex_place k)) /\ ground_station (pos 4%nat 0%Z) G /\
  hears (fun _ => true) (ex_world64 _ _ _ pos) 0 0 1 = true /\ hears (fun _ => true) (ex_world64 _ _ _ pos) 0 0 2 = false /\
  hears (fun _ => true) (ex_world64 _ _ _ pos) 1 0 4 = true /\ hears (fun _ => true) (ex_world64 _ _ _ pos) 1 4 1 = false.
Proof. exact (ring_64 _ _ _ ex_accurate ex_accurate_tan). Qed.
