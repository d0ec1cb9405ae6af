(** C77: the line of sight test in IEEE-754 doubles, alone and for satellites on
    their computed orbits. *)
Require Import ZArith Reals Lra Lia List.
From Flocq Require Import Core.Core IEEE754.BinarySingleNaN.
Require Import Verif.Base Verif.Num Verif.NumR Verif.Num64 Verif.Vec Verif.OrbitModel Verif.MobilityModel Verif.LossModel
  Verif.GeomSpec Verif.OrbitSpec Verif.MobilitySpec Verif.LossSpec Verif.Float64Spec
  Verif.LossProofs Verif.OrbitProofs Verif.MobilityProofs Verif.Alloc64Proofs Verif.Float64Proofs Verif.Orbit64Proofs Verif.Orbit64Api
  Verif.Read64Proofs Verif.Los64Proofs Verif.PropFloat.
Import ListNotations.
Local Open Scope R_scope.

(** ** C77 *)
Theorem C77_line_of_sight_binary64 : forall fsin fcos ftan (a b : vec (Num64 fsin fcos ftan)) (tx : b64) K,
  finite_vec a -> finite_vec b ->
  isl_earth_radius <= norm (reals a) <= K -> isl_earth_radius <= norm (reals b) <= K -> K <= 2000000000 ->
  K / 1000000 <= distance (reals a) (reals b) ->
  (unobstructed (isl_earth_radius + K / 1000000) (reals a) (reals b) ->
     GetLos a b = true /\ @IslCalcRxPower (Num64 fsin fcos ftan) tx a b = tx) /\
  (~ unobstructed (isl_earth_radius - K / 1000000) (reals a) (reals b) ->
     GetLos a b = false /\ @IslCalcRxPower (Num64 fsin fcos ftan) tx a b = b64_Z (-1000)).
Proof.
  intros fsin fcos ftan a b tx K Fa Fb Ha Hb HK HD.
  destruct (los_64 fsin fcos ftan a b K Fa Fb Ha Hb HK HD) as [T F]. unfold IslCalcRxPower. split; intros H.
  - rewrite (T H). split; reflexivity.
  - rewrite (F H). split; [reflexivity|]. cbn [negb nopp nZ Num64]. apply B2SF_inj. vm_compute. reflexivity.
Qed.
Print Assumptions C77_line_of_sight_binary64.

(** Moving both ends moves every point of the segment by no more. *)
Lemma within_segment : forall d a b p q t, within d a p -> within d b q -> 0 <= t <= 1 -> within d (on_segment a b t) (on_segment p q t).
Proof.
  intros d a b p q t (A1 & A2 & A3) (B1 & B2 & B3) Ht.
  assert (T : forall x y z w, Rabs (x - y) <= d -> Rabs (z - w) <= d -> Rabs (x + t * (z - x) - (y + t * (w - y))) <= d).
  { intros x y z w H1 H2. apply Rabs_le_inv in H1, H2. apply Rabs_le. nra. }
  split; [exact (T _ _ _ _ A1 B1)|split; [exact (T _ _ _ _ A2 B2)|exact (T _ _ _ _ A3 B3)]].
Qed.
Lemma unobstructed_within : forall r d a b p q, 0 <= d -> within d a p -> within d b q -> unobstructed (r + 2 * d) p q -> unobstructed r a b.
Proof.
  intros r d a b p q D A B U t Ht. pose proof (norm_within d _ _ D (within_segment d a b p q t A B Ht)) as N.
  specialize (U t Ht). apply Rabs_le_inv in N. lra.
Qed.
Lemma within_sym : forall d p q, within d p q -> within d q p.
Proof. intros d p q (A & B & C). unfold within. rewrite (Rabs_minus_sym (px q)), (Rabs_minus_sym (py q)), (Rabs_minus_sym (pz q)). auto. Qed.
Lemma distance_within : forall d a b p q, 0 <= d -> within d a p -> within d b q -> distance p q - 4 * d <= distance a b.
Proof.
  intros d a b p q D (A1 & A2 & A3) (B1 & B2 & B3).
  assert (W : within (2 * d) (minus b a) (minus q p)).
  { assert (T : forall x y z w, Rabs (x - y) <= d -> Rabs (z - w) <= d -> Rabs (z - x - (w - y)) <= 2 * d).
    { intros x y z w H1 H2. apply Rabs_le_inv in H1, H2. apply Rabs_le. lra. }
    split; [exact (T _ _ _ _ A1 B1)|split; [exact (T _ _ _ _ A2 B2)|exact (T _ _ _ _ A3 B3)]]. }
  pose proof (norm_within (2 * d) _ _ ltac:(lra) W) as N. apply Rabs_le_inv in N. unfold distance. lra.
Qed.

(** Two satellites computed in doubles: links exist, or not, as on the exact
    orbits whenever these clear or cut the Earth by [h / 500] metres, h being the
    larger orbit radius in km: 14 m for low orbits. *)
Theorem C77_isl_link_binary64 : forall fsin fcos ftan, accurate fsin fcos ->
  forall (junk : vec (Num64 fsin fcos ftan)) now1 now2 (alt1 incl1 alt2 incl2 : b64) prec1 prec2 ops1 ops2 s1 s2 (n : R) (tx : b64),
  reached junk now1 (alt1 : num (Num64 fsin fcos ftan)) (incl1 : num (Num64 fsin fcos ftan)) prec1 ops1 s1 ->
  reached junk now2 (alt2 : num (Num64 fsin fcos ftan)) (incl2 : num (Num64 fsin fcos ftan)) prec2 ops2 s2 ->
  let A1 : b64 := @last_altitude (Num64 fsin fcos ftan) alt1 ops1 in
  let I1 : b64 := @last_inclination (Num64 fsin fcos ftan) incl1 ops1 in
  let L1 : b64 := fst (@last_start (Num64 fsin fcos ftan) (b64_Z 0, b64_Z 0) ops1) in
  let O1 : b64 := snd (@last_start (Num64 fsin fcos ftan) (b64_Z 0, b64_Z 0) ops1) in
  let A2 : b64 := @last_altitude (Num64 fsin fcos ftan) alt2 ops2 in
  let I2 : b64 := @last_inclination (Num64 fsin fcos ftan) incl2 ops2 in
  let L2 : b64 := fst (@last_start (Num64 fsin fcos ftan) (b64_Z 0, b64_Z 0) ops2) in
  let O2 : b64 := snd (@last_start (Num64 fsin fcos ftan) (b64_Z 0, b64_Z 0) ops2) in
  sane A1 I1 L1 O1 -> sane A2 I2 L2 O2 -> / 1000 <= B2R A1 -> / 1000 <= B2R A2 ->
  (0 <= now1)%Z -> (0 <= now2)%Z -> 1 <= n <= 100000 ->
  s_now s2 = s_now s1 -> IZR (s_now s1) <= n * 86400000000000 ->
  exists t1 t2, (now1 <= t1 <= s_now s1)%Z /\ (now2 <= t2 <= s_now s1)%Z /\
    (m_precision s1 = 0%Z -> t1 = s_now s1) /\ (m_precision s2 = 0%Z -> t2 = s_now s1) /\
    let P1 := trajectory (6371.009 + B2R A1) (B2R I1 * PI / 180) (B2R L1) (B2R O1) (sec t1) in
    let P2 := trajectory (6371.009 + B2R A2) (B2R I2 * PI / 180) (B2R L2) (B2R O2) (sec t2) in
    let del := (6371.009 + Rmax (B2R A1) (B2R A2)) / 500 in
    del <= distance P1 P2 ->
    (unobstructed (isl_earth_radius + del) P1 P2 ->
       @IslCalcRxPower (Num64 fsin fcos ftan) tx (DoGetPosition junk s1) (DoGetPosition junk s2) = tx) /\
    (~ unobstructed (isl_earth_radius - del) P1 P2 ->
       @IslCalcRxPower (Num64 fsin fcos ftan) tx (DoGetPosition junk s1) (DoGetPosition junk s2) = b64_Z (-1000)).
Proof.
  intros fsin fcos ftan ACC junk now1 now2 alt1 incl1 alt2 incl2 prec1 prec2 ops1 ops2 s1 s2 n tx R1 R2 A1 I1 L1 O1 A2 I2 L2 O2 S1 S2 G1 G2 N1 N2 Hn EN HT.
  destruct (C75_position_binary64 fsin fcos ftan ACC junk now1 alt1 incl1 prec1 ops1 s1 n R1 S1 N1 Hn HT) as (F1 & E1 & t1 & T1 & U1 & W1).
  destruct (C75_position_binary64 fsin fcos ftan ACC junk now2 alt2 incl2 prec2 ops2 s2 n R2 S2 N2 Hn ltac:(rewrite EN; exact HT)) as (F2 & E2 & t2 & T2 & U2 & W2).
  rewrite EN in T2, U2.
  exists t1, t2. split; [exact T1|]. split; [exact T2|]. split; [exact U1|]. split; [exact U2|]. cbv zeta. intros HD.
  set (P1 := trajectory (6371.009 + B2R A1) (B2R I1 * PI / 180) (B2R L1) (B2R O1) (sec t1)) in *.
  set (P2 := trajectory (6371.009 + B2R A2) (B2R I2 * PI / 180) (B2R L2) (B2R O2) (sec t2)) in *.
  set (p1 := DoGetPosition junk s1) in *. set (p2 := DoGetPosition junk s2) in *.
  change (within (1000 * (6371.009 + B2R A1) * n / 1000000000000) (reals p1) P1) in W1.
  change (within (1000 * (6371.009 + B2R A2) * n / 1000000000000) (reals p2) P2) in W2.
  change (Rabs (norm (reals p1) - 1000 * (6371.009 + B2R A1)) <= 1000 * (6371.009 + B2R A1) / 10000000000000) in E1.
  change (Rabs (norm (reals p2) - 1000 * (6371.009 + B2R A2)) <= 1000 * (6371.009 + B2R A2) / 10000000000000) in E2.
  set (h := 6371.009 + Rmax (B2R A1) (B2R A2)) in *.
  assert (H1 : 6371.010 <= 6371.009 + B2R A1 <= h) by (unfold h; pose proof (Rmax_l (B2R A1) (B2R A2)); lra).
  assert (H2 : 6371.010 <= 6371.009 + B2R A2 <= h) by (unfold h; pose proof (Rmax_r (B2R A1) (B2R A2)); lra).
  assert (HB : h <= 1006371.009).
  { unfold h. destruct S1 as (_ & S1 & _). destruct S2 as (_ & S2 & _). pose proof (Rmax_lub _ _ _ (proj2 S1) (proj2 S2)). lra. }
  set (h1 := 6371.009 + B2R A1) in *. set (h2 := 6371.009 + B2R A2) in *. clearbody h1 h2 h P1 P2 p1 p2.
  set (d := h / 10000).
  assert (D1 : forall k, 6371.010 <= k <= h -> 1000 * k * n / 1000000000000 <= d).
  { intros k Hk. unfold d. assert (k * n <= h * 100000) by (apply Rmult_le_compat; lra). lra. }
  pose proof (within_le _ _ _ _ W1 (D1 _ H1)) as V1. pose proof (within_le _ _ _ _ W2 (D1 _ H2)) as V2.
  assert (D0 : 0 <= d) by (unfold d; lra).
  apply Rabs_le_inv in E1, E2.
  assert (DD : 1001 * h / 1000000 <= distance (reals p1) (reals p2)).
  { pose proof (distance_within d _ _ _ _ D0 V1 V2). unfold d in *. lra. }
  destruct (C77_line_of_sight_binary64 fsin fcos ftan p1 p2 tx (1001 * h) F1 F2) as [T F]; try (unfold isl_earth_radius; lra).
  split; intros H.
  - apply T. apply (unobstructed_within _ d _ _ P1 P2 D0 V1 V2). intros t Ht. specialize (H t Ht). unfold d. lra.
  - apply F. intros C. apply H. apply (unobstructed_within _ d _ _ (reals p1) (reals p2) D0 (within_sym _ _ _ V1) (within_sym _ _ _ V2)).
    intros t Ht. specialize (C t Ht). unfold d. lra.
Qed.
Print Assumptions C77_isl_link_binary64.

(** Two pairs of positions: 1000 km above the ground and 1000 km apart, with the
    line of sight clear, and a quarter of the globe apart, with it cut off. *)
Example ex_C77 : forall fsin fcos ftan (tx : b64), let N := Num64 fsin fcos ftan in
  let a := @V N (b64_Z 7371009) (b64_Z 0) (b64_Z 0) in
  @IslCalcRxPower N tx a (@V N (b64_Z 7371009) (b64_Z 1000000) (b64_Z 0)) = tx /\
  @IslCalcRxPower N tx a (@V N (b64_Z 0) (b64_Z 7371009) (b64_Z 0)) = b64_Z (-1000).
Proof.
  intros fsin fcos ftan tx N a.
  assert (Z : forall z, (Z.abs z <= 2 ^ 53)%Z -> B2R (b64_Z z) = IZR z /\ is_finite (b64_Z z) = true) by exact Z_exact_64.
  destruct (Z 7371009%Z) as [E7 F7]; [lia|]. destruct (Z 1000000%Z) as [E1 F1]; [lia|]. destruct (Z 0%Z) as [E0 F0]; [lia|]. clear Z.
  assert (RE : forall x y z, reals (@V N x y z) = pt (B2R x) (B2R y) (B2R z)) by reflexivity.
  assert (NB : forall x y z r s, 0 <= r -> 0 <= s -> r * r <= x * x + y * y + z * z <= s * s -> r <= norm (pt x y z) <= s).
  { intros x y z r s Hr Hs [H1 H2]. split.
    - apply norm_le_sq; [exact Hr|exact H1].
    - pose proof (norm_sq (pt x y z)) as Q. pose proof (norm_nonneg (pt x y z)). change (inner (pt x y z) (pt x y z)) with (x * x + y * y + z * z) in Q. nra. }
  assert (FV : forall x y z, is_finite x = true -> is_finite y = true -> is_finite z = true -> finite_vec (@V N x y z)) by (intros; repeat split; assumption).
  split.
  - apply (C77_line_of_sight_binary64 fsin fcos ftan a _ tx 8000000); unfold a; try (apply FV; assumption); rewrite ?RE, ?E7, ?E1, ?E0; unfold isl_earth_radius.
    + apply NB; lra.
    + apply NB; lra.
    + lra.
    + unfold distance. apply norm_le_sq; [lra|]. unfold inner, minus, pt, px, py, pz. cbn. lra.
    + intros t Ht. apply norm_lt_sq; [lra|]. unfold inner, on_segment, plus, GeomSpec.scale, minus, pt, px, py, pz. cbn. assert (0 <= t * t) by nra. lra.
  - apply (C77_line_of_sight_binary64 fsin fcos ftan a _ tx 8000000); unfold a; try (apply FV; assumption); rewrite ?RE, ?E7, ?E1, ?E0; unfold isl_earth_radius.
    + apply NB; lra.
    + apply NB; lra.
    + lra.
    + unfold distance. apply norm_le_sq; [lra|]. unfold inner, minus, pt, px, py, pz. cbn. lra.
    + intros H. specialize (H (/ 2) ltac:(lra)). apply norm_lt_sq in H; [|lra]. revert H.
      unfold inner, on_segment, plus, GeomSpec.scale, minus, pt, px, py, pz. cbn. lra.
Qed.

(** Two satellites of the same polar plane, 3 radians apart: no link. *)
Example ex_C77_link : forall ftan (tx : b64), let N := Num64 (fun x => fixed_point (sin (B2R x))) (fun x => fixed_point (cos (B2R x))) ftan in
  forall junk : vec N, exists s1 s2 : mob N,
  reached junk 0 (b64_Z 1000 : num N) (b64_Z 90 : num N) 0 [OSetPosition (@V N (b64_Z 0) (b64_Z 0) (b64_Z 0))] s1 /\
  reached junk 0 (b64_Z 1000 : num N) (b64_Z 90 : num N) 0 [OSetPosition (@V N (b64_Z 0) (b64_Z 3) (b64_Z 0))] s2 /\
  @IslCalcRxPower N tx (DoGetPosition junk s1) (DoGetPosition junk s2) = b64_Z (-1000).
Proof.
  intros ftan tx N junk. subst N.
  match goal with |- exists s1 s2 : mob ?M, _ => set (N := M) in *; assert (EX : forall q : b64, exists s : mob N,
    reached junk 0 (b64_Z 1000 : num N) (b64_Z 90 : num N) 0 [OSetPosition (@V N (b64_Z 0) q (b64_Z 0))] s /\
    s_now s = 0%Z /\ m_precision s = 0%Z) end.
  { intros q. eexists. split; [|split].
    - eexists _, _. split; [apply construct_ok; vm_compute; reflexivity|]. reflexivity.
    - reflexivity.
    - reflexivity. }
  destruct (EX (b64_Z 0)) as (s1 & R1 & T1 & P1). destruct (EX (b64_Z 3)) as (s2 & R2 & T2 & P2). clear EX.
  unfold N in *. clear N. exists s1, s2. split; [exact R1|]. split; [exact R2|].
  assert (Z : forall z, (Z.abs z <= 2 ^ 53)%Z -> B2R (b64_Z z) = IZR z /\ is_finite (b64_Z z) = true) by exact Z_exact_64.
  destruct (Z 1000%Z) as [E1 F1]; [lia|]. destruct (Z 0%Z) as [E0 F0]; [lia|]. destruct (Z 3%Z) as [E3 F3]; [lia|]. destruct (Z 90%Z) as [E9 F9]; [lia|]. clear Z.
  assert (SA : forall q, is_finite q = true -> Rabs (B2R q) <= 10 -> sane (b64_Z 1000) (b64_Z 90) (b64_Z 0) q).
  { intros q Fq Hq. unfold sane. rewrite E1, E0, E9, F1, F0, F9. repeat split; try lra; try assumption; rewrite ?Rabs_R0, ?Rabs_pos_eq; lra. }
  destruct (C77_isl_link_binary64 _ _ ftan ex_accurate junk 0 0 (b64_Z 1000) (b64_Z 90) (b64_Z 1000) (b64_Z 90) 0 0 _ _ s1 s2 1 tx R1 R2) as (t1 & t2 & _ & _ & X1 & X2 & C);
    try lia; try lra; try (apply SA; [assumption|cbn [last_start fold_left fst snd vx vy]; rewrite ?E0, ?E3, ?Rabs_R0, ?Rabs_pos_eq; lra]);
    try (rewrite T1; cbn; lra); try (cbn [last_altitude fold_left]; rewrite E1; lra).
  specialize (X1 P1). specialize (X2 P2). rewrite T1 in X1, X2. subst t1 t2. cbv zeta in C.
  cbn [last_altitude last_inclination last_start fold_left fst snd vx vy] in C. rewrite E1, E0, E3, E9 in C.
  replace (sec 0) with 0 in C by (unfold sec; lra). unfold trajectory, circle_point in C.
  rewrite !Rmult_0_r, !Rplus_0_l in C. replace (90 * PI / 180) with (PI / 2) in C by field. rewrite sin_0, cos_0, cos_PI2, sin_PI2 in C.
  rewrite Rmax_left in C by lra.
  pose proof (sin2_cos2 3) as SC. unfold Rsqr in SC.
  pose proof PI_RGT_0 as PP. assert (PB : 3 < PI < 4).
  { destruct PI_64 as [Q1 Q2]. destruct pi64_R as [Q3 _]. rewrite Q3 in *. change (bpow radix2 (-48)) with (/ 281474976710656) in *. unfold u in *. lra. }
  assert (C3 : cos 3 < - / 2).
  { replace (- / 2) with (cos (2 * (PI / 3))) by (rewrite cos_2PI3; lra). apply cos_decreasing_1; lra. }
  apply C.
  - unfold distance. apply norm_le_sq; [lra|]. unfold inner, minus, pt, px, py, pz. cbn. nra.
  - intros H. specialize (H (/ 2) ltac:(lra)). unfold isl_earth_radius in H. apply norm_lt_sq in H; [|lra]. revert H.
    unfold inner, on_segment, plus, GeomSpec.scale, minus, pt, px, py, pz. cbn. nra.
Qed.
