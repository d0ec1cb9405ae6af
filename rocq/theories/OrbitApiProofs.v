(** C01-C06 for objects reached by a history of calls. *)
Require Import ZArith Reals Lra Lia Psatz List Bool.
Require Import Verif.Base Verif.Num Verif.NumR Verif.Num64 Verif.Vec Verif.OrbitModel Verif.MobilityModel
  Verif.GeomSpec Verif.OrbitSpec Verif.MobilitySpec Verif.OrbitApiSpec
  Verif.LossProofs Verif.LeoLossProofs Verif.OrbitProofs Verif.MobilityProofs.
Import ListNotations.
Local Open Scope R_scope.

Lemma Reqb_false : forall a b, a <> b -> Reqb a b = false.
Proof. intros a b H. unfold Reqb. destruct (Req_EM_T a b); congruence. Qed.

Lemma height_R : forall h, @HeightOf NumR h = earth_radius_km + h.
Proof. intros h. unfold HeightOf, LEO_EARTH_RAD_KM, earth_radius_km; toR. lra. Qed.

Lemma radians_R : forall i, @RadiansOf NumR i = i * PI / 180.
Proof. intros i. unfold RadiansOf; toR. field. Qed.

Lemma reached_path : forall (junk : point) now0 (alt incl : R) prec ops (s : mob NumR),
  reached junk now0 alt incl prec ops s ->
  exists t, (t <= s_now s)%Z /\ (m_precision s = 0%Z -> t = s_now s) /\
    DoGetPosition junk s = path alt incl ops (sec t).
Proof.
  intros junk now0 alt incl prec ops s H.
  destruct (reached_position _ _ _ _ _ _ _ _ H) as (t & A & B & C).
  exists t. repeat split; auto. rewrite C, trajectory_at. cbn [o_height o_incl o_lon o_off].
  rewrite height_R, radians_R. reflexivity.
Qed.

Lemma path_norm : forall alt incl ops tau,
  0 <= earth_radius_km + altitude_after alt ops ->
  norm (path alt incl ops tau) = 1000 * (earth_radius_km + altitude_after alt ops).
Proof. intros. unfold path, trajectory. apply circle_norm. toR. lra. Qed.

Lemma api_sphere : forall (junk : point) now0 (alt incl : R) prec ops (s : mob NumR),
  reached junk now0 alt incl prec ops s ->
  0 <= earth_radius_km + altitude_after alt ops ->
  norm (DoGetPosition junk s) = 1000 * (earth_radius_km + altitude_after alt ops).
Proof.
  intros junk now0 alt incl prec ops s H Hh.
  destruct (reached_path _ _ _ _ _ _ _ H) as (t & _ & _ & ->). apply path_norm. exact Hh.
Qed.

Lemma api_plane : forall (junk : point) now0 (alt incl : R) prec ops (s : mob NumR),
  reached junk now0 alt incl prec ops s ->
  let i := inclination_after incl ops * PI / 180 in
  let r := 1000 * (earth_radius_km + altitude_after alt ops) in
  0 <= r ->
  exists t, (t <= s_now s)%Z /\ (m_precision s = 0%Z -> t = s_now s) /\
    inner (plane_normal i (longitude_at ops + 2 * PI * (IZR t / 86400000000000))) (DoGetPosition junk s) = 0 /\
    Rabs (pz (DoGetPosition junk s)) <= r * Rabs (sin i).
Proof.
  intros junk now0 alt incl prec ops s H i r Hr.
  destruct (reached_path _ _ _ _ _ _ _ H) as (t & A & B & ->).
  exists t. repeat split; auto.
  - unfold path, trajectory. fold i r.
    replace (2 * PI * (IZR t / 86400000000000)) with (earth_rate * sec t)
      by (unfold earth_rate, sec; toR; field).
    apply circle_plane.
  - unfold path, trajectory. apply circle_z_bound. exact Hr.
Qed.

Lemma plane_normal_angle : forall i lam,
  norm (plane_normal i lam) = 1 /\ inner (plane_normal i lam) zhat = cos i.
Proof.
  intros i lam. split.
  - unfold norm. rewrite normal_unit. apply sqrt_1.
  - unfold inner, plane_normal, zhat, pt, px, py, pz; cbn. ring.
Qed.

(** Attainment: for every altitude, inclination, longitude and instant some
    offset puts the satellite at the bound. *)
Lemma api_plane_attained : forall (junk : point) now0 (alt incl lon : R) (t : Z),
  incl <> 0 -> (now0 <= t)%Z ->
  exists off s,
    reached junk now0 alt incl 0 [OAdvance t; OSetPosition (pt lon off 0)] s /\
    pz (DoGetPosition junk s) = 1000 * (earth_radius_km + alt) * sin (incl * PI / 180).
Proof.
  intros junk now0 alt incl lon t Hi Ht.
  set (off := - (angular_rate (earth_radius_km + alt) (incl * PI / 180) * sec t)).
  assert (HR : exists s, reached junk now0 alt incl 0 [OAdvance t; OSetPosition (pt lon off 0)] s
                         /\ s_now s = t).
  { eexists. split.
    - eexists _, _. split; [apply construct_ok; apply Reqb_false; exact Hi|].
      unfold mrun, mstep, bind. cbn [s_now s_pending forallb andb].
      rewrite (proj2 (Z.leb_le _ _) Ht). cbn [andb]. reflexivity.
    - reflexivity. }
  destruct HR as (s & HR & Hnow). exists off, s. split; [exact HR|].
  assert (HK : keeps_precision [OAdvance t; OSetPosition (pt lon off 0)]).
  { intros p [E|[E|[]]]; discriminate. }
  destruct (reached_zero _ _ _ _ _ _ _ HK HR) as (_ & ->).
  rewrite Hnow, trajectory_at. cbn [o_height o_incl o_lon o_off].
  rewrite height_R, radians_R. unfold trajectory, circle_point, pt, pz; cbn.
  fold earth_radius_km. unfold off.
  set (w := angular_rate _ _ * sec t).
  replace (w + - w) with 0 by ring. rewrite cos_0. ring.
Qed.

Lemma api_velocity : forall (junk : point) now0 (alt incl : R) prec ops (s : mob NumR),
  reached junk now0 alt incl prec ops s ->
  let h := earth_radius_km + altitude_after alt ops in
  0 < h ->
  exists v : point, DoGetVelocity junk s = Some v /\
    inner v (DoGetPosition junk s) = 0 /\
    norm v <= circular_speed h /\
    (DoGetPosition junk s = path alt incl ops (sec (s_now s)) -> norm v = circular_speed h).
Proof.
  intros junk now0 alt incl prec ops s H h Hh.
  assert (Hp : 0 < norm (DoGetPosition junk s)).
  { rewrite (api_sphere _ _ _ _ _ _ _ H); fold h; toR; lra. }
  eexists. split; [apply (reached_velocity _ _ _ _ _ _ _ _ H)|].
  split; [apply velocity_perp; exact Hp|]. split.
  - unfold h. rewrite <- height_R.
    match goal with |- context [VelocityAt ?o _ _] => apply (velocity_bound o) end. exact Hp.
  - intros E. rewrite E. unfold path, h. rewrite <- !height_R, <- radians_R.
    match goal with |- context [VelocityAt ?o ?n (trajectory _ _ _ _ _)] =>
      pose proof (trajectory_at o n) as T; cbn [o_height o_incl o_lon o_off] in T;
      unfold longitude_at, offset_at; pose proof (velocity_fresh o n) as F; cbn [o_height] in F
    end.
    change (nZ NumR 0) with 0 in *.
    etransitivity; [|apply F].
    + f_equal. f_equal. symmetry. exact T.
    + rewrite height_R. exact Hh.
Qed.

Lemma half_pi_iff : forall d, PI / 2 < d * PI / 180 <-> 90 < d.
Proof. intros d. pose proof PI_RGT_0. split; intros; nra. Qed.

Lemma api_motion : forall (junk : point) now0 (alt incl : R) ops (s : mob NumR),
  reached junk now0 alt incl 0 ops s -> keeps_precision ops ->
  let h := earth_radius_km + altitude_after alt ops in
  let d := inclination_after incl ops in
  0 < h ->
  let pos := DoGetPosition junk s in
  exists (v : point) (k : R), DoGetVelocity junk s = Some v /\
    pos = path alt incl ops (sec (s_now s)) /\
    derivative_at (path alt incl ops) (sec (s_now s))
      (plus (scale k v) (scale earth_rate (cross zhat pos))) /\
    Rabs k = h / earth_radius_km /\
    (d <= 90 -> 0 < k) /\ (90 < d -> k < 0) /\
    (0 <= d <= 180 -> 0 <= pz (cross pos (scale k v))).
Proof.
  intros junk now0 alt incl ops s H Hk h d Hh pos.
  destruct (reached_zero _ _ _ _ _ _ _ Hk H) as (_ & HP). fold pos in HP.
  pose proof (reached_velocity _ _ _ _ _ _ _ _ H) as HV. fold pos in HV.
  set (o := mkOrbit (@HeightOf NumR (@last_altitude NumR alt ops)) (@RadiansOf NumR (@last_inclination NumR incl ops))
              (fst (last_start (nZ NumR 0, nZ NumR 0) ops))
              (snd (last_start (nZ NumR 0, nZ NumR 0) ops))) in *.
  assert (Ho : o_height o = h) by apply height_R.
  assert (Hi : o_incl o = d * PI / 180) by apply radians_R.
  assert (HR : 0 < earth_radius_km) by (unfold earth_radius_km; lra).
  set (sg := if Rlt_dec (PI / 2) (o_incl o) then -1 else 1).
  exists (VelocityAt o (s_now s) pos), (sg * (h / earth_radius_km)).
  split; [exact HV|].
  assert (Hpath : path alt incl ops = trajectory (o_height o) (o_incl o) (o_lon o) (o_off o)).
  { unfold path. rewrite Ho, Hi. reflexivity. }
  split; [rewrite HP, trajectory_at, Hpath; reflexivity|].
  assert (Hq : 0 < h / earth_radius_km) by (apply Rdiv_lt_0_compat; assumption).
  split; [|split; [|split; [|split]]].
  - rewrite Hpath. pose proof (motion o (s_now s)) as M. cbv zeta in M.
    rewrite Ho in M |- *. rewrite HP. apply M. exact Hh.
  - unfold sg. rewrite Rabs_mult, (Rabs_pos_eq (h / _)) by lra.
    destruct (Rlt_dec _ _); unfold Rabs; destruct (Rcase_abs _); toR; lra.
  - intros Hd. unfold sg. destruct (Rlt_dec _ _) as [L|L]; [|lra].
    rewrite Hi in L. apply half_pi_iff in L. lra.
  - intros Hd. unfold sg. destruct (Rlt_dec _ _) as [L|L]; [lra|].
    exfalso. apply L. rewrite Hi. apply half_pi_iff. exact Hd.
  - intros Hd. rewrite HP.
    assert (Hn : norm (CalcPosition o (s_now s) (s_now s)) = 1000 * h).
    { rewrite CalcPosition_circle, Ho. apply circle_norm. toR; lra. }
    rewrite VelocityAt_scale by (rewrite Hn; toR; lra).
    rewrite scale_scale, CalcPosition_circle, eastward, <- CalcPosition_circle, Hn, Ho.
    pose proof (circular_speed_nonneg h) as Hs. pose proof PI_RGT_0 as Hpi.
    assert (Hc : 0 <= sg * cos (o_incl o)).
    { unfold sg. rewrite Hi. clear - Hd Hpi. clearbody d. change (num NumR) with R in *.
      assert (0 <= d * PI <= 180 * PI) by nra.
      destruct (Rlt_dec _ _) as [L|L].
      - assert (cos (d * PI / 180) <= 0); [|lra]. apply cos_le_0; lra.
      - assert (0 <= cos (d * PI / 180)); [|lra]. apply cos_ge_0; lra. }
    replace (sg * (h / earth_radius_km) * (circular_speed h / (1000 * h)) * cos (o_incl o) * (1000 * h * (1000 * h)))
      with ((sg * cos (o_incl o)) * ((h / earth_radius_km) * circular_speed h * (1000 * h)))
      by (toR; field; lra).
    apply Rmult_le_pos; [exact Hc|].
    apply Rmult_le_pos; [apply Rmult_le_pos; toR; lra|toR; lra].
Qed.

Lemma api_speed : forall (junk : point) now0 (alt incl : R) ops (s : mob NumR),
  reached junk now0 alt incl 0 ops s -> keeps_precision ops ->
  let h := earth_radius_km + altitude_after alt ops in
  0 < h ->
  exists v : point, DoGetVelocity junk s = Some v /\
    norm v * norm v * (1000 * h) = 398600436000000 /\ norm v = circular_speed h.
Proof.
  intros junk now0 alt incl ops s H Hk h Hh.
  destruct (api_motion _ _ _ _ _ _ H Hk Hh) as (v & k & HV & HP & _).
  destruct (api_velocity _ _ _ _ _ _ _ H Hh) as (v' & HV' & _ & _ & E).
  rewrite HV in HV'. injection HV' as <-. exists v. specialize (E HP). fold h in E.
  split; [exact HV|]. rewrite E. split; [|reflexivity].
  pose proof (speed_law h Hh). lra.
Qed.

Lemma api_speed_decreasing : forall (junk : point) now1 now2 (alt1 alt2 incl1 incl2 : R) ops1 ops2
    (s1 s2 : mob NumR) (v1 v2 : point),
  reached junk now1 alt1 incl1 0 ops1 s1 -> reached junk now2 alt2 incl2 0 ops2 s2 ->
  keeps_precision ops1 -> keeps_precision ops2 ->
  0 < earth_radius_km + altitude_after alt1 ops1 ->
  altitude_after alt1 ops1 < altitude_after alt2 ops2 ->
  DoGetVelocity junk s1 = Some v1 -> DoGetVelocity junk s2 = Some v2 ->
  norm v2 < norm v1.
Proof.
  intros junk now1 now2 alt1 alt2 incl1 incl2 ops1 ops2 s1 s2 v1 v2 H1 H2 K1 K2 Hh Hlt E1 E2.
  assert (Hh2 : 0 < earth_radius_km + altitude_after alt2 ops2) by (toR; lra).
  destruct (api_speed _ _ _ _ _ _ H1 K1 Hh) as (w1 & F1 & _ & G1).
  destruct (api_speed _ _ _ _ _ _ H2 K2 Hh2) as (w2 & F2 & _ & G2).
  rewrite E1 in F1. rewrite E2 in F2. injection F1 as ->. injection F2 as ->.
  rewrite G1, G2. apply speed_decreasing; [exact Hh|]. toR. lra.
Qed.

(** ** Attributes *)

Lemma api_altitude : forall (junk : point) now0 (alt incl : R) prec ops (s : mob NumR),
  reached junk now0 alt incl prec ops s ->
  GetAltitude s = Some (altitude_after alt ops) /\
  GetInclination s = Some (inclination_after incl ops).
Proof.
  intros junk now0 alt incl prec ops s H. pose proof (reached_orbit _ _ _ _ _ _ _ _ H) as Ho.
  unfold orbit_of in Ho. unfold GetAltitude, GetInclination.
  destruct (m_height s) as [a|], (m_incl s) as [b|]; try discriminate.
  assert (Ha : a = HeightOf (@last_altitude NumR alt ops)) by congruence.
  assert (Hb : b = RadiansOf (@last_inclination NumR incl ops)) by congruence.
  rewrite Ha, Hb. unfold option_map. unfold altitude_after, inclination_after. split; f_equal.
  - unfold AltitudeOf. rewrite height_R. unfold LEO_EARTH_RAD_KM, earth_radius_km; toR. lra.
  - unfold DegreesOf. rewrite radians_R; toR. pose proof PI_RGT_0. field. lra.
Qed.

Lemma altitude_b64 : forall fs fc ft,
  exists h : b64, @AltitudeOf (Num64 fs fc ft) (@HeightOf (Num64 fs fc ft) h) <> h.
Proof.
  intros fs fc ft. exists (b64_dec 1 1). unfold AltitudeOf, HeightOf, LEO_EARTH_RAD_KM; cbn [nadd nsub ndec Num64].
  intros H. apply (f_equal BinarySingleNaN.B2SF) in H. vm_compute in H. discriminate.
Qed.

Lemma api_displacement : forall (junk : point) now0 (alt incl : R) ops (s : mob NumR),
  reached junk now0 alt incl 0 ops s -> keeps_precision ops ->
  let h := earth_radius_km + altitude_after alt ops in
  0 < h ->
  exists (v in_plane : point), DoGetVelocity junk s = Some v /\
    derivative_at (path alt incl ops) (sec (s_now s))
      (plus in_plane (scale earth_rate (cross zhat (DoGetPosition junk s)))) /\
    norm in_plane = norm v * h / 6371.009 /\
    (norm in_plane = norm v <-> altitude_after alt ops = 0).
Proof.
  intros junk now0 alt incl ops s H Hk h Hh.
  destruct (api_motion _ _ _ _ _ _ H Hk Hh) as (v & k & HV & _ & HD & HK & _).
  destruct (api_speed _ _ _ _ _ _ H Hk Hh) as (v' & HV' & HS & _).
  rewrite HV in HV'. injection HV' as <-. fold h in HK, HS.
  exists v, (scale k v). split; [exact HV|]. split; [exact HD|].
  rewrite norm_scale, HK. pose proof (norm_nonneg v) as Hn.
  assert (Hv : norm v <> 0) by (intros E; rewrite E in HS; lra).
  split.
  - unfold earth_radius_km. replace 6371.009 with (6371009 / 1000) by lra. unfold Rdiv. ring.
  - unfold h, earth_radius_km in *. set (a := altitude_after alt ops) in *. clearbody a.
    split.
    + intros E.
      assert (E' : (6371009 / 1000 + a) / (6371009 / 1000) = 1).
      { apply (Rmult_eq_reg_r (norm v)); lra. }
      assert (a / (6371009 / 1000) = 0) by lra. lra.
    + intros ->. field.
Qed.

Lemma api_staleness : forall (junk : point) now0 (alt incl : R) prec ops (s : mob NumR),
  (0 < prec)%Z -> keeps_precision ops -> existsb is_setter ops = true ->
  reached junk now0 alt incl prec ops s ->
  exists t, (s_now s - prec <= t <= s_now s)%Z /\ DoGetPosition junk s = path alt incl ops (sec t).
Proof.
  intros junk now0 alt incl prec ops s Hp Hk He H.
  destruct (reached_staleness _ _ _ _ _ _ _ _ Hp Hk He H) as (t & A & B).
  exists t. split; [exact A|]. rewrite B, trajectory_at. cbn [o_height o_incl o_lon o_off].
  rewrite height_R, radians_R. reflexivity.
Qed.

Lemma api_zero : forall (junk : point) now0 (alt incl : R) ops (s : mob NumR),
  keeps_precision ops -> reached junk now0 alt incl 0 ops s ->
  s_pending s = [] /\ DoGetPosition junk s = path alt incl ops (sec (s_now s)).
Proof.
  intros junk now0 alt incl ops s Hk H.
  destruct (reached_zero _ _ _ _ _ _ _ Hk H) as (A & B).
  split; [exact A|]. rewrite B, trajectory_at. cbn [o_height o_incl o_lon o_off].
  rewrite height_R, radians_R. reflexivity.
Qed.
