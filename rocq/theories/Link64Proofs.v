(** Links of installed satellites and ground stations in doubles. *)
Require Import ZArith Reals Lra Lia Psatz List Bool.
From Flocq Require Import Core.Core IEEE754.BinarySingleNaN.
Require Import Verif.Base Verif.Num Verif.NumR Verif.Num64 Verif.Vec Verif.OrbitModel Verif.MobilityModel Verif.AllocModel
  Verif.LossModel Verif.FrameModel Verif.NetModel Verif.HelperModel
  Verif.GeomSpec Verif.OrbitSpec Verif.MobilitySpec Verif.AllocSpec Verif.LossSpec Verif.NetSpec Verif.Float64Spec Verif.ConstellationSpec Verif.Link64Spec
  Verif.LossProofs Verif.LeoLossProofs Verif.LossApiProofs Verif.OrbitProofs Verif.OrbitApiProofs Verif.AllocProofs Verif.AllocApiProofs Verif.Alloc64Proofs
  Verif.Loss64Proofs Verif.Float64Proofs Verif.Orbit64Proofs Verif.Orbit64Api Verif.Read64Proofs Verif.Los64Proofs Verif.Leo64Proofs
  Verif.TracingProofs Verif.Tracing64Proofs Verif.ConstellationProofs Verif.Ground64Proofs Verif.PropLos64.
Import ListNotations.
Local Open Scope R_scope.

(** The slant range changes by at most 13 times the change of the orbit radius. *)
Lemma slant_lip : forall H H' e, leo_earth_radius + 100000 <= H -> leo_earth_radius + 100000 <= H' ->
  Rabs (slant_range leo_earth_radius H e - slant_range leo_earth_radius H' e) <= 13 * Rabs (H - H').
Proof.
  intros H H' e HH HH'. unfold slant_range. pose proof (SIN_bound e) as SB. set (S := sin e) in *. clearbody S.
  assert (SQ : forall K, leo_earth_radius + 100000 <= K ->
    let q := sqrt (K * S * (K * S) + K * K - leo_earth_radius * leo_earth_radius) in 17 / 100 * K <= q /\ q * q = (1 + S * S) * (K * K) - leo_earth_radius * leo_earth_radius).
  { intros K HK q. assert (S2 : 0 <= S * S) by apply Rle_0_sqr. assert (K2 : 0 <= K * K) by apply Rle_0_sqr.
    assert (E : K * S * (K * S) + K * K - leo_earth_radius * leo_earth_radius = (1 + S * S) * (K * K) - leo_earth_radius * leo_earth_radius) by ring.
    assert (L : 17 / 100 * K * (17 / 100 * K) <= (1 + S * S) * (K * K) - leo_earth_radius * leo_earth_radius).
    { assert (0 <= S * S * (K * K)) by (apply Rmult_le_pos; assumption).
      assert (leo_earth_radius * leo_earth_radius <= 9848 / 10000 * K * (9848 / 10000 * K)) by (unfold leo_earth_radius in *; apply Rmult_le_compat; lra). lra. }
    unfold q. rewrite E. split.
    - rewrite <- (sqrt_square (17 / 100 * K)) by (unfold leo_earth_radius in *; lra). apply sqrt_le_1_alt. exact L.
    - apply sqrt_sqrt. unfold leo_earth_radius in *. assert (0 <= 17 / 100 * K * (17 / 100 * K)) by apply Rle_0_sqr. lra. }
  destruct (SQ H HH) as [Q1 E1]. destruct (SQ H' HH') as [Q2 E2]. cbv zeta in *.
  set (q := sqrt (H * S * (H * S) + H * H - leo_earth_radius * leo_earth_radius)) in *.
  set (q' := sqrt (H' * S * (H' * S) + H' * H' - leo_earth_radius * leo_earth_radius)) in *. clearbody q q'.
  unfold leo_earth_radius in *.
  assert (D : Rabs (q - q') <= 12 * Rabs (H - H')).
  { assert (P : 0 < q + q') by lra. apply Rmult_le_reg_r with (q + q'); [exact P|].
    rewrite <- (Rabs_pos_eq (q + q')) at 1 by lra. rewrite <- Rabs_mult.
    replace ((q - q') * (q + q')) with ((1 + S * S) * (H + H') * (H - H')) by nra.
    assert (S2 : 0 <= S * S <= 1) by nra.
    rewrite !Rabs_mult, (Rabs_pos_eq (1 + S * S)), (Rabs_pos_eq (H + H')) by lra. pose proof (Rabs_pos (H - H')) as A.
    assert (B : (1 + S * S) * (H + H') <= 12 * (q + q')) by nra.
    apply Rle_trans with (12 * (q + q') * Rabs (H - H')); [apply Rmult_le_compat_r; assumption|lra]. }
  replace (q - H * S - (q' - H' * S)) with ((q - q') + - (S * (H - H'))) by ring. eapply Rle_trans; [apply Rabs_triang|].
  rewrite Rabs_Ropp, Rabs_mult. assert (Rabs S <= 1) by (apply Rabs_le; lra). pose proof (Rabs_pos (H - H')).
  assert (Rabs S * Rabs (H - H') <= 1 * Rabs (H - H')) by (apply Rmult_le_compat_r; lra). lra.
Qed.

Lemma distance_near : forall d d' a b p q, 0 <= d -> 0 <= d' -> within d a p -> within d' b q -> Rabs (distance a b - distance p q) <= 2 * (d + d').
Proof.
  intros d d' a b p q D D' (A1 & A2 & A3) (B1 & B2 & B3). unfold distance.
  apply norm_within; [lra|].
  assert (T : forall x y z w, Rabs (x - y) <= d -> Rabs (z - w) <= d' -> Rabs (z - x - (w - y)) <= d + d').
  { intros x y z w H1 H2. apply Rabs_le_inv in H1, H2. apply Rabs_le. lra. }
  split; [exact (T _ _ _ _ A1 B1)|split; [exact (T _ _ _ _ A2 B2)|exact (T _ _ _ _ A3 B3)]].
Qed.

Section Links.
  Variables fsin fcos ftan : b64 -> b64.
  Hypothesis ACC : accurate fsin fcos.
  Local Notation N64 := (Num64 fsin fcos ftan).

  Lemma position_norm_64 : forall (o : leoorbit N64) ps t (n : R), sane_orbit o ->
    (0 < lo_planes o <= 65535)%Z -> (0 < lo_sats o <= 65535)%Z -> (0 <= fst ps < lo_planes o)%Z -> (0 <= snd ps < lo_sats o)%Z ->
    1 <= n <= 100000 -> Rabs (IZR t) <= n * 86400000000000 ->
    let h := earth_radius_km + B2R (lo_alt o : b64) in
    Rabs (norm (reals (@CalcPosition N64 (sat_orbit (o, ps)) t t)) - 1000 * h) <= 1000 * h / 10000000000000.
  Proof.
    intros o ps t n (FA & HA & FI & HI) HP HS Hp Hs Hn HT h.
    destruct (turn64_near (fst ps) (lo_planes o) ltac:(lia) Hp) as (FL & EL & BL).
    destruct (turn64_near (snd ps) (lo_sats o) ltac:(lia) Hs) as (FO & EO & BO).
    destruct (calc_64 fsin fcos ftan ACC _ _ _ _ t n FA HA FI HI FL BL FO BO Hn HT) as (F & E & _).
    unfold sat_orbit. cbn [fst snd]. rewrite circ_vec_64. cbn [vx vy vz]. exact E.
  Qed.

  Lemma reported_64 : forall (junk : vec N64) precision os path (o : leoorbit N64) ps t (n : R),
    Forall (fun o : leoorbit N64 => u16 (lo_planes o) /\ u16 (lo_sats o)) os ->
    satellite junk precision os path o ps -> sane_orbit o ->
    1 <= n <= 100000 -> (0 <= t)%Z -> IZR t <= n * 86400000000000 ->
    let h := earth_radius_km + B2R (lo_alt o : b64) in
    exists tau, refreshed precision t tau /\ finite_vec (path t) /\
      Rabs (norm (reals (path t)) - 1000 * h) <= 1000 * h / 10000000000000 /\
      within (1000 * h * n * 2 / 1000000000000) (reals (path t)) (sat_path64 o ps (sec tau)).
  Proof.
    intros junk p os path o ps t n Hu S SO Hn Ht HT h. assert (SO' := SO). destruct SO' as (FA & HA & FI & HI).
    destruct S as (nodes & i & s & I1 & I2 & I3 & M). destruct (M t Ht) as (s' & A & E).
    pose proof (installed_starts _ p junk os nodes i s o ps Hu I1 I2 I3) as ST.
    destruct (alone_position _ junk (sat_orbit (o, ps)) p s t s' ST A) as (tau & RF & EX). exists tau. split; [exact RF|]. rewrite E, EX.
    apply nth_error_In, in_satellites in I3. destruct I3 as [_ I3]. destruct (I3 Hu) as (P1 & P2 & P3 & P4).
    assert (T0 : (0 <= tau <= t)%Z) by (destruct RF as [(H & k & K1 & -> & K2)|[(_ & ->)|(H & ->)]]; nia).
    assert (HT' : Rabs (IZR tau) <= n * 86400000000000).
    { rewrite Rabs_pos_eq by (apply IZR_le; lia). apply Rle_trans with (2 := HT). apply IZR_le. lia. }
    destruct (position_64 fsin fcos ftan ACC o ps tau n FA HA FI HI P1 P2 P3 P4 Hn HT') as [F W].
    split; [exact F|]. split; [|exact W]. apply (position_norm_64 o ps tau n); assumption.
  Qed.

  Lemma path_norm : forall (o : leoorbit N64) ps t, 0 <= B2R (lo_alt o : b64) -> norm (sat_path64 o ps t) = 1000 * (earth_radius_km + B2R (lo_alt o : b64)).
  Proof. intros o ps t H. unfold sat_path64, trajectory. apply circle_norm. unfold earth_radius_km. lra. Qed.

  Lemma minus1000 : forall x, nlt N64 (Bopp (b64_Z 1000)) (nZ N64 (-900)) = x -> x = true.
  Proof. intros x <-. vm_compute. reflexivity. Qed.
  Lemma minus1000' : nlt N64 (b64_Z (-1000)) (nZ N64 (-900)) = true.
  Proof. vm_compute. reflexivity. Qed.

  (** ** Between satellites *)
  Lemma isl_link_64 : forall has_mob pos (w : world N64) c d dst a b,
    c_loss (w_chan w c) = Some (isl_loss pos) -> node_of w d = Some a -> node_of w dst = Some b ->
    has_mob a = true -> has_mob b = true ->
    let rx := @IslCalcRxPower N64 (g_txp (d_cfg (w_dev w d))) (pos a (w_now w)) (pos b (w_now w)) in
    hears has_mob w c d dst = negb (nlt N64 rx (nZ N64 (-900))) /\ power_at has_mob w c d dst = rx.
  Proof.
    intros has_mob pos w c d dst a b HL Ha Hb Ma Mb rx.
    unfold hears, power_at, cut_off, link_power. rewrite Ha, Hb, HL, Ma, Mb. cbn [andb]. split; reflexivity.
  Qed.
  Lemma ground_link_64 : forall has_mob pos m (w : world N64) c d dst a b,
    c_loss (w_chan w c) = Some (leo_loss pos m) -> node_of w d = Some a -> node_of w dst = Some b ->
    has_mob a = true -> has_mob b = true ->
    let rx := @LeoCalcRxPower N64 m (g_txp (d_cfg (w_dev w d))) (pos a (w_now w)) (pos b (w_now w)) in
    hears has_mob w c d dst = negb (nlt N64 rx (nZ N64 (-900))) /\ power_at has_mob w c d dst = rx.
  Proof.
    intros has_mob pos m w c d dst a b HL Ha Hb Ma Mb rx.
    unfold hears, power_at, cut_off, link_power. rewrite Ha, Hb, HL, Ma, Mb. cbn [andb]. split; reflexivity.
  Qed.
  Lemma speed_link_64 : forall has_mob pos seconds v (w : world N64) c d dst a b tx,
    c_delay (w_chan w c) = Some (constant_speed pos seconds v) -> node_of w d = Some a -> node_of w dst = Some b ->
    has_mob a = true -> has_mob b = true ->
    delay_to has_mob w c d dst tx = seconds (b64_div (@vdist N64 (pos a (w_now w)) (pos b (w_now w))) v).
  Proof.
    intros has_mob pos seconds v w c d dst a b tx HD Ha Hb Ma Mb. unfold delay_to, link_delay. rewrite Ha, Hb, HD, Ma, Mb. cbn [andb].
    reflexivity.
  Qed.

  (** The time a signal of speed v takes between two positions. *)
  Lemma light_64 : forall (v : Z) (a b : vec N64), (1 <= v <= 1000000000)%Z -> finite_vec a -> finite_vec b -> 1 <= distance (reals a) (reals b) <= 10000000000 ->
    let x := b64_div (@vdist N64 a b) (b64_Z v) in
    is_finite x = true /\ Rabs (B2R x - distance (reals a) (reals b) / IZR v) <= distance (reals a) (reals b) / IZR v * (20 * u).
  Proof.
    intros v a b Hv Fa Fb HD x. pose proof (vdist_64 fsin fcos ftan a b Fa Fb HD) as ND.
    set (D := distance (reals a) (reals b)) in *. pose proof (near_exact v ltac:(lia)) as NC.
    assert (V1 : 1 <= IZR v <= 1000000000) by (split; apply IZR_le; lia).
    assert (I1 : / 1000000000 <= / IZR v <= 1) by (split; [apply Rinv_le_contravar; lra|rewrite <- Rinv_1; apply Rinv_le_contravar; lra]).
    assert (SC : Float64Proofs.scale (D / IZR v)).
    { apply scale_simple. unfold Rdiv. split.
      - assert (1 * / 1000000000 <= D * / IZR v) by (apply Rmult_le_compat; lra). lra.
      - assert (D * / IZR v <= 10000000000 * 1) by (apply Rmult_le_compat; lra). lra. }
    assert (Q : near (D / IZR v) x 1 (20 * u) 1).
    { apply (divu D (IZR v) _ 1 15 1 _ 1 0 20 1 ND NC eq_refl); try lra; [exact SC|].
      replace ((15 + 1 * 0) / (1 - 0 * u)) with 15 by field. small. }
    destruct Q as (F & E & _). rewrite Rmult_1_r in E. split; [exact F|exact E].
  Qed.

  (** ** Ground stations *)
  Lemma station_64 : forall (g : vec N64) G, ground_station g G -> finite_vec g /\ within (/ 5000000) (reals g) G /\ norm G = 6371000.
  Proof.
    intros g G [(L & M & l & i & H1 & H2 & HL & HM & ->)|(l & i & lat & lon & H1 & H2 & FA & HA & FO & HO & ->)].
    - destruct (InstallGrid_ok N64 L M) as (l' & K1 & K2 & K3 & _); try (unfold max32; lia). rewrite K1 in H1. injection H1 as ->.
      rewrite (K3 ltac:(unfold max32; lia)) in H2. destruct (nth_first_n_inv _ _ _ _ _ H2) as [-> _].
      set (k := Z.of_nat i). assert (0 <= k)%Z by (unfold k; lia).
      pose proof (Z.mod_pos_bound k (L + 1) ltac:(lia)). pose proof (Z.mod_pos_bound (k / (L + 1)) M ltac:(lia)).
      destruct (polar_64 fsin fcos ftan ACC L M (k mod (L + 1)) ((k / (L + 1)) mod M)) as [F W]; try lia.
      split; [exact F|]. split; [exact W|]. apply sphere_norm.
    - assert (E : nth_error (InstallLocations l) i = Some (@GetEarthPosition N64 (mkLatLong lat lon))).
      { clear H1. revert l H2. induction i as [|i IH]; intros [|x l] H2; try discriminate; cbn in *.
        - injection H2 as ->. reflexivity.
        - apply IH, H2. }
      rewrite E in H1. injection H1 as <-. destruct (earth_64 fsin fcos ftan ACC lat lon FA HA FO HO) as [F W].
      split; [exact F|]. split; [exact W|]. apply sphere_norm.
  Qed.

  Lemma minus_900 : forall x : b64, is_finite x = true -> -900 <= B2R x -> nlt N64 x (nZ N64 (-900)) = false.
  Proof.
    intros x F H. destruct (Z_exact_64 (-900) ltac:(lia)) as [E E']. rewrite nlt_64 by assumption. change (nZ N64 (-900)) with (b64_Z (-900)). rewrite E. apply Rlt_bool_false. exact H.
  Qed.
End Links.

(** What is heard within the slant range of the model's sphere, give or take, is
    above the mask for a station on the ground. *)
Lemma mask_margin : forall (G P : point) e del, norm G = 6371000 -> leo_earth_radius + 100000 <= norm P <= 46372000 -> 0 <= e <= 90 ->
  0 <= del <= norm P * (22 / 1000000000) ->
  distance G P <= slant_range leo_earth_radius (norm P) (radians e) + del -> radians e <= elevation G P.
Proof.
  intros G P e del HG HP He Hd HD. pose proof PI_bounds as PB. set (al := radians e) in *. set (H := norm P) in *.
  assert (AB : 0 <= al <= PI / 2) by (unfold al, radians; nra).
  assert (SB : 0 <= sin al <= 1) by (split; [apply sin_ge_0; lra|apply SIN_bound]). 
  assert (HNE : G <> P) by (intros C; unfold H, leo_earth_radius in *; rewrite <- C, HG in HP; lra).
  apply elevation_ge_iff; [exact HNE|rewrite HG; lra|lra|]. pose proof (distance_sq G P) as DS. rewrite HG in *. fold H in DS.
  set (S := sin al) in *. set (D := distance G P) in *. unfold slant_range in HD. fold S in HD.
  unfold leo_earth_radius in *. set (q := sqrt (H * S * (H * S) + H * H - 6371010 * 6371010)) in *.
  assert (Q0 : 0 <= q) by apply sqrt_pos.
  assert (QQ : q * q = H * S * (H * S) + H * H - 6371010 * 6371010).
  { apply sqrt_sqrt. assert (0 <= H * S * (H * S)) by apply Rle_0_sqr. assert (6371010 * 6371010 <= H * H) by (apply Rmult_le_compat; lra). lra. }
  set (r := q - H * S) in *.
  assert (RQ : r * r + 2 * r * (H * S) = H * H - 6371010 * 6371010) by (unfold r; nra).
  assert (HS0 : 0 <= H * S <= H) by nra.
  assert (R0 : 0 <= r) by (assert (H * S <= q) by (assert (6371010 * 6371010 <= H * H) by (apply Rmult_le_compat; lra); nra); unfold r; lra).
  assert (R1 : r <= H) by nra.
  assert (D0 : 0 <= D) by (unfold D, distance, norm; apply sqrt_pos).
  assert (DB : D <= r + del) by lra.
  assert (P1 : D * D <= (r + del) * (r + del)) by (apply Rmult_le_compat; lra).
  assert (P3 : S * D <= S * (r + del)) by (apply Rmult_le_compat_l; lra).
  assert (P4 : S * r * 6371000 <= S * r * H) by (apply Rmult_le_compat_l; [apply Rmult_le_pos; lra|lra]).
  assert (P5 : r * del <= 46372000 * (46372000 * (22 / 1000000000))) by (apply Rmult_le_compat; lra).
  assert (P6 : S * del <= 1 * (46372000 * (22 / 1000000000))) by (apply Rmult_le_compat; lra).
  assert (P7 : del * del <= 2 * 2) by (apply Rmult_le_compat; lra).
  lra.
Qed.
