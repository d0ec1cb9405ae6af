Require Import ZArith Reals Lra Lia Psatz Bool Nsatz.
From Coquelicot Require Import Coquelicot.
Require Import Verif.Num Verif.NumR Verif.Vec Verif.OrbitModel Verif.GeomSpec Verif.OrbitSpec
  Verif.LossProofs Verif.LeoLossProofs.
Local Open Scope R_scope.

Lemma lat_R : forall (o : orbit NumR) now,
  CalcLatitude o now = o_lon o + earth_rate * sec now.
Proof.
  intros o now. unfold CalcLatitude, earth_rate, sec, hours24; toR.
  f_equal. field.
Qed.

Lemma norm_R : forall (o : orbit NumR) now,
  PlaneNorm o now = plane_normal (o_incl o) (o_lon o + earth_rate * sec now).
Proof.
  intros o now. unfold PlaneNorm. rewrite lat_R. unfold plane_normal, pt; cbn.
  rewrite sin_neg. reflexivity.
Qed.

Lemma speed_R : forall (o : orbit NumR), GetSpeed o = circular_speed (o_height o).
Proof.
  intros o. unfold GetSpeed, circular_speed, LEO_EARTH_GM_KM_E10; toR.
  rewrite Rmult_comm. reflexivity.
Qed.

Lemma progress_R : forall (o : orbit NumR) t,
  GetProgress o t = angular_rate (o_height o) (o_incl o) * sec t + o_off o.
Proof.
  intros o t. unfold GetProgress. rewrite speed_R.
  unfold progress_sign, seconds, LEO_EARTH_RAD_KM, angular_rate, earth_radius_km, sec; toR.
  unfold Rltb. destruct (Rlt_dec (PI / 2) (o_incl o)); f_equal; field.
Qed.

(** The start vector of CalcPosition is the northernmost point of the circle and
    rotating it in the plane yields the circle. *)
Lemma CalcPosition_circle : forall (o : orbit NumR) now t,
  CalcPosition o now t =
  circle_point (1000 * o_height o) (o_incl o) (o_lon o + earth_rate * sec now)
               (angular_rate (o_height o) (o_incl o) * sec t + o_off o).
Proof.
  intros o now t. unfold CalcPosition, RotatePlane.
  rewrite progress_R, lat_R, norm_R.
  set (th := angular_rate _ _ * _ + _). set (lam := o_lon o + _).
  set (r := o_height o). set (i := o_incl o). clearbody th lam r i.
  unfold vadd, Product, CrossProduct, DotProduct, plane_normal, circle_point, pt; cbn.
  pose proof (sc1 i) as Hi. pose proof (sc1 lam) as Hl.
  set (si := sin i) in *. set (ci := cos i) in *. set (sl := sin lam) in *. set (cl := cos lam) in *.
  set (st := sin th). set (ct := cos th). clearbody si ci sl cl st ct.
  f_equal; toR; nsatz.
Qed.

Lemma circle_norm : forall r i lam th, 0 <= r -> norm (circle_point r i lam th) = r.
Proof.
  intros r i lam th Hr. unfold norm.
  rewrite (sqrt_sq_abs _ r); [apply Rabs_pos_eq; exact Hr|].
  unfold inner, circle_point, pt, px, py, pz; cbn.
  pose proof (sc1 i). pose proof (sc1 lam). pose proof (sc1 th).
  generalize dependent (sin i). generalize dependent (cos i).
  generalize dependent (sin lam). generalize dependent (cos lam).
  generalize dependent (sin th). generalize dependent (cos th). intros. nsatz.
Qed.

Lemma circle_plane : forall r i lam th, inner (plane_normal i lam) (circle_point r i lam th) = 0.
Proof.
  intros r i lam th.
  unfold inner, plane_normal, circle_point, pt, px, py, pz; cbn.
  pose proof (sc1 i). pose proof (sc1 lam). pose proof (sc1 th).
  generalize dependent (sin i). generalize dependent (cos i).
  generalize dependent (sin lam). generalize dependent (cos lam).
  generalize dependent (sin th). generalize dependent (cos th). intros. nsatz.
Qed.

Lemma normal_unit : forall i lam, inner (plane_normal i lam) (plane_normal i lam) = 1.
Proof.
  intros i lam. unfold inner, plane_normal, pt, px, py, pz; cbn.
  pose proof (sc1 i). pose proof (sc1 lam).
  generalize dependent (sin i). generalize dependent (cos i).
  generalize dependent (sin lam). generalize dependent (cos lam). intros. nsatz.
Qed.

Lemma circle_z_bound : forall r i lam th, 0 <= r ->
  Rabs (pz (circle_point r i lam th)) <= r * Rabs (sin i).
Proof.
  intros r i lam th Hr. unfold circle_point, pt, pz; cbn.
  rewrite !Rabs_mult, (Rabs_pos_eq r) by exact Hr.
  apply Rmult_le_compat_l; [exact Hr|].
  rewrite <- (Rmult_1_l (Rabs (sin i))) at 2.
  apply Rmult_le_compat_r; [apply Rabs_pos|].
  apply Rabs_le. apply COS_bound.
Qed.

(** ** Cross products *)

Lemma cross_perp_r : forall a b, inner (cross a b) b = 0.
Proof. intros. unfold inner, cross, pt, px, py, pz; cbn. ring. Qed.

Lemma lagrange : forall a b,
  inner (cross a b) (cross a b) = inner a a * inner b b - inner a b * inner a b.
Proof. intros. unfold inner, cross, pt, px, py, pz; cbn. ring. Qed.

Lemma VelocityAt_scale : forall (o : orbit NumR) now (p : point), 0 < norm p ->
  VelocityAt o now p =
  scale (circular_speed (o_height o) / norm p)
        (cross (plane_normal (o_incl o) (o_lon o + earth_rate * sec now)) p).
Proof.
  intros o now p Hp. unfold VelocityAt. rewrite norm_R, speed_R.
  change (vlen p) with (norm p).
  unfold Product, CrossProduct, scale, cross, pt, px, py, pz; cbn.
  f_equal; toR; field; lra.
Qed.

Lemma velocity_perp : forall (o : orbit NumR) now (p : point), 0 < norm p ->
  inner (VelocityAt o now p) p = 0.
Proof.
  intros o now p Hp. rewrite VelocityAt_scale by exact Hp.
  rewrite inner_scale_l, cross_perp_r. ring.
Qed.

Lemma circular_speed_nonneg : forall r, 0 <= circular_speed r.
Proof. intros r. unfold circular_speed. pose proof (sqrt_pos (39.8600436 / r)). lra. Qed.

Lemma norm_scale : forall k a, norm (scale k a) = Rabs k * norm a.
Proof.
  intros k a. unfold norm. rewrite inner_scale_l, inner_scale_r.
  rewrite <- Rmult_assoc, sqrt_mult_alt by (apply Rle_0_sqr).
  f_equal. apply sqrt_sq_abs. reflexivity.
Qed.

Lemma velocity_norm_sq : forall (o : orbit NumR) now (p : point), 0 < norm p ->
  let n := plane_normal (o_incl o) (o_lon o + earth_rate * sec now) in
  let s := circular_speed (o_height o) in
  norm (VelocityAt o now p) * norm (VelocityAt o now p)
  = s * s * (1 - (inner n p / norm p) * (inner n p / norm p)).
Proof.
  intros o now p Hp n s. rewrite VelocityAt_scale by exact Hp. fold n s.
  rewrite norm_sq, inner_scale_l, inner_scale_r, lagrange.
  unfold n at 1 2. rewrite normal_unit. rewrite <- (norm_sq p). field. lra.
Qed.

Lemma velocity_bound : forall (o : orbit NumR) now (p : point), 0 < norm p ->
  norm (VelocityAt o now p) <= circular_speed (o_height o).
Proof.
  intros o now p Hp. pose proof (velocity_norm_sq o now p Hp) as H. cbv zeta in H.
  pose proof (circular_speed_nonneg (o_height o)) as Hs.
  pose proof (norm_nonneg (VelocityAt o now p)) as Hn.
  set (k := inner _ p / norm p) in H. set (s := circular_speed (o_height o)) in *.
  set (v := norm (VelocityAt o now p)) in *.
  assert (0 <= k * k) by nra. assert (0 <= s * s) by nra.
  assert (0 <= (s * s) * (k * k)) by (apply Rmult_le_pos; assumption).
  assert (v * v <= s * s) by nra.
  destruct (Rle_lt_dec v s); [assumption|nra].
Qed.

Lemma velocity_fresh : forall (o : orbit NumR) now,
  0 < o_height o ->
  norm (VelocityAt o now (CalcPosition o now now)) = circular_speed (o_height o).
Proof.
  intros o now Hh.
  assert (Hp : 0 < norm (CalcPosition o now now)).
  { rewrite CalcPosition_circle, circle_norm; toR; lra. }
  assert (Hpl : inner (plane_normal (o_incl o) (o_lon o + earth_rate * sec now))
                      (CalcPosition o now now) = 0).
  { rewrite CalcPosition_circle. apply circle_plane. }
  pose proof (velocity_norm_sq o now (CalcPosition o now now) Hp) as H. cbv zeta in H.
  rewrite Hpl in H.
  pose proof (circular_speed_nonneg (o_height o)) as Hs.
  pose proof (norm_nonneg (VelocityAt o now (CalcPosition o now now))) as Hn.
  set (s := circular_speed (o_height o)) in *.
  set (v := norm (VelocityAt o now (CalcPosition o now now))) in *.
  unfold Rdiv in H. rewrite Rmult_0_l in H.
  assert (v * v = s * s) by lra. nra.
Qed.

(** ** Speed law *)

Lemma speed_law : forall r, 0 < r ->
  circular_speed r * circular_speed r * r = 398600436000.
Proof.
  intros r Hr. unfold circular_speed.
  replace (100000 * sqrt (39.8600436 / r) * (100000 * sqrt (39.8600436 / r)) * r)
    with (100000 * 100000 * (sqrt (39.8600436 / r) * sqrt (39.8600436 / r)) * r) by ring.
  rewrite sqrt_sqrt.
  - replace (100000 * 100000 * (39.8600436 / r) * r)
      with (100000 * 100000 * 39.8600436 * (r / r)) by (unfold Rdiv; ring).
    unfold Rdiv at 1. rewrite Rinv_r by lra. lra.
  - apply Rmult_le_pos; [lra|]. left. apply Rinv_0_lt_compat. exact Hr.
Qed.

Lemma speed_decreasing : forall r1 r2, 0 < r1 -> r1 < r2 -> circular_speed r2 < circular_speed r1.
Proof.
  intros r1 r2 H1 H2. unfold circular_speed.
  apply Rmult_lt_compat_l; [lra|]. apply sqrt_lt_1_alt. split.
  - apply Rmult_le_pos; [lra|]. left. apply Rinv_0_lt_compat. lra.
  - apply Rmult_lt_compat_l; [lra|]. apply Rinv_lt_contravar; [nra|exact H2].
Qed.

(** ** Motion *)

Lemma circle_derivative : forall r i lon w off om tau,
  derivative_at (fun x => circle_point r i (lon + w * x) (om * x + off)) tau
    (plus (scale om (cross (plane_normal i (lon + w * tau))
                           (circle_point r i (lon + w * tau) (om * tau + off))))
          (scale w (cross zhat (circle_point r i (lon + w * tau) (om * tau + off))))).
Proof.
  intros r i lon w off om tau.
  pose proof (sc1 i) as Hi. pose proof (sc1 (lon + w * tau)) as Hl.
  unfold derivative_at, circle_point, plane_normal, cross, scale, plus, zhat, pt, px, py, pz; cbn.
  repeat split; apply is_derive_Reals; auto_derive; auto;
    generalize dependent (sin i); generalize dependent (cos i);
    generalize dependent (sin (lon + w * tau)); generalize dependent (cos (lon + w * tau));
    generalize dependent (sin (om * tau + off)); generalize dependent (cos (om * tau + off));
    intros; nsatz.
Qed.

Lemma trajectory_at : forall (o : orbit NumR) t,
  CalcPosition o t t = trajectory (o_height o) (o_incl o) (o_lon o) (o_off o) (sec t).
Proof. intros o t. rewrite CalcPosition_circle. reflexivity. Qed.

Lemma scale_scale : forall a b p, scale a (scale b p) = scale (a * b) p.
Proof. intros a b p. unfold scale, pt, px, py, pz; cbn. f_equal; toR; ring. Qed.

Lemma motion : forall (o : orbit NumR) (t : Z), 0 < o_height o ->
  let pos := CalcPosition o t t in
  derivative_at (trajectory (o_height o) (o_incl o) (o_lon o) (o_off o)) (sec t)
    (plus (scale ((if Rlt_dec (PI / 2) (o_incl o) then -1 else 1) * (o_height o / earth_radius_km))
                 (VelocityAt o t pos))
          (scale earth_rate (cross zhat pos))).
Proof.
  intros o t Hh pos.
  pose proof (circle_derivative (1000 * o_height o) (o_incl o) (o_lon o) earth_rate (o_off o)
                (angular_rate (o_height o) (o_incl o)) (sec t)) as H.
  assert (Hp : norm pos = 1000 * o_height o).
  { unfold pos. rewrite CalcPosition_circle, circle_norm; toR; lra. }
  rewrite VelocityAt_scale by (rewrite Hp; toR; lra). rewrite Hp, scale_scale.
  unfold pos. rewrite CalcPosition_circle.
  replace ((if Rlt_dec (PI / 2) (o_incl o) then -1 else 1) * (o_height o / earth_radius_km)
           * (circular_speed (o_height o) / (1000 * o_height o)))
    with (angular_rate (o_height o) (o_incl o)); [exact H|].
  unfold angular_rate, earth_radius_km. toR. field. lra.
Qed.

(** z-component of the angular momentum (per mass) of the in-plane motion. *)
Lemma eastward : forall r i lam th om,
  pz (cross (circle_point r i lam th) (scale om (cross (plane_normal i lam) (circle_point r i lam th))))
  = om * cos i * (r * r).
Proof.
  intros r i lam th om.
  pose proof (sc1 i). pose proof (sc1 lam). pose proof (sc1 th).
  unfold cross, scale, circle_point, plane_normal, pt, px, py, pz; cbn.
  generalize dependent (sin i). generalize dependent (cos i).
  generalize dependent (sin lam). generalize dependent (cos lam).
  generalize dependent (sin th). generalize dependent (cos th). intros. nsatz.
Qed.
