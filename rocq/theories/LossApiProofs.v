Require Import ZArith Reals Lra Lia Psatz Bool.
From Flocq Require Import IEEE754.BinarySingleNaN.
Require Import Verif.Num Verif.NumR Verif.Num64 Verif.Vec Verif.LossModel Verif.GeomSpec Verif.LossSpec
  Verif.LossProofs Verif.LeoLossProofs Verif.Loss64Proofs.
Local Open Scope R_scope.

(** ** Line of sight *)

Lemma los_core_depends : forall o p o' p',
  inner o o = inner o' o' -> inner o p = inner o' p' -> inner p p = inner p' p' ->
  los_core o p = los_core o' p'.
Proof.
  intros o p o' p' H1 H2 H3.
  assert (Hm : forall x y, inner (minus y x) (minus y x) = inner y y - 2 * inner x y + inner x x).
  { intros. unfold inner, minus, pt, px, py, pz; cbn. ring. }
  assert (Hs : norm (minus p o) = norm (minus p' o')).
  { unfold norm. rewrite !Hm. f_equal. lra. }
  unfold los_core. rewrite <- Hs. set (s := norm (minus p o)).
  assert (Hu : forall x y, inner (pt (px (minus y x) / s) (py (minus y x) / s) (pz (minus y x) / s))
                                 (pt (px (minus y x) / s) (py (minus y x) / s) (pz (minus y x) / s))
                           = inner (minus y x) (minus y x) * (/ s * / s)).
  { intros. unfold inner, minus, pt, px, py, pz; cbn. unfold Rdiv. ring. }
  assert (Hou : forall x y, inner x (pt (px (minus y x) / s) (py (minus y x) / s) (pz (minus y x) / s))
                           = (inner x y - inner x x) * / s).
  { intros. unfold inner, minus, pt, px, py, pz; cbn. unfold Rdiv. ring. }
  rewrite !Hu, !Hou, !Hm, H1, H2, H3. reflexivity.
Qed.

Lemma inner_sym : forall a b, inner a b = inner b a.
Proof. intros. unfold inner. ring. Qed.

Lemma GetLos_symmetric_all : forall a b : point, GetLos a b = GetLos b a.
Proof.
  intros a b. rewrite !GetLos_core.
  destruct (Rltb (norm b) (norm a)) eqn:E1, (Rltb (norm a) (norm b)) eqn:E2; try reflexivity.
  - apply Rltb_true in E1, E2. lra.
  - apply Rltb_false in E1, E2.
    assert (H : inner a a = inner b b) by (rewrite <- !norm_sq; replace (norm b) with (norm a) by lra; reflexivity).
    apply los_core_depends; [symmetry; exact H|apply inner_sym|exact H].
Qed.

Lemma norm_x : forall x, norm (pt x 0 0) = Rabs x.
Proof.
  intros x. unfold norm. rewrite (sqrt_sq_abs _ x); [reflexivity|].
  unfold inner, pt, px, py, pz; cbn. ring.
Qed.

Lemma los_inside : GetLos (pt 1000 0 0) (pt (-1000) 0 0) = true.
Proof.
  rewrite GetLos_core, !norm_x.
  replace (Rabs (-1000)) with 1000 by (rewrite Rabs_left; lra).
  replace (Rabs 1000) with 1000 by (rewrite Rabs_pos_eq; lra).
  rewrite (proj2 (Rltb_false 1000 1000)) by lra.
  unfold los_core.
  replace (minus (pt 1000 0 0) (pt (-1000) 0 0)) with (pt 2000 0 0).
  2:{ unfold minus, pt, px, py, pz; cbn. f_equal; toR; ring. }
  rewrite norm_x. replace (Rabs 2000) with 2000 by (rewrite Rabs_pos_eq; lra).
  cbv zeta. unfold inner, pt, px, py, pz; cbn [vx vy vz]. toR.
  replace (2000 / 2000 * (2000 / 2000) + 0 / 2000 * (0 / 2000) + 0 / 2000 * (0 / 2000)) with 1 by field.
  replace (2 * (-1000 * (2000 / 2000) + 0 * (0 / 2000) + 0 * (0 / 2000))) with (-2000) by field.
  match goal with |- context [Rltb ?d 0] => replace d with (12742018 * 12742018) by ring end.
  rewrite (proj2 (Rltb_false _ _)) by lra.
  match goal with |- context [sqrt ?d] => replace (sqrt d) with 12742018 end.
  2:{ symmetry. replace (12742018 * 12742018) with (Rsqr 12742018) by reflexivity. apply sqrt_Rsqr. lra. }
  apply andb_true_iff. split; apply Rltb_true; unfold Rabs; destruct (Rcase_abs _); lra.
Qed.

Lemma inside_obstructed : ~ unobstructed 6371009 (pt 1000 0 0) (pt (-1000) 0 0).
Proof.
  intros H. specialize (H 0 ltac:(lra)).
  replace (on_segment (pt 1000 0 0) (pt (-1000) 0 0) 0) with (pt 1000 0 0) in H.
  - rewrite norm_x, Rabs_pos_eq in H; lra.
  - unfold on_segment, plus, scale, minus, pt, px, py, pz; cbn. f_equal; toR; ring.
Qed.

(** In binary64, symmetric whenever the lengths differ as computed. *)
Lemma GetLos_sym_64 : forall fs fc ft (a b : vec (Num64 fs fc ft)),
  Bltb (vlen a) (vlen b) = true \/ Bltb (vlen b) (vlen a) = true -> GetLos a b = GetLos b a.
Proof.
  intros fs fc ft a b H. unfold GetLos. change (nlt (Num64 fs fc ft)) with (@Bltb 53 1024).
  destruct H as [H|H]; rewrite H, (Bltb_asym _ _ H); reflexivity.
Qed.

(** ** The ground link model *)

Lemma leo_angle : forall e a f m, ll_angle (leo_model e a f m) = radians e.
Proof. intros. unfold leo_model, SetElevationAngle, radians; toR. field. Qed.

Lemma farther_norm : forall a b : point,
  norm (if Rltb (norm b) (norm a) then a else b) = farther a b.
Proof.
  intros a b. unfold farther. destruct (Rltb (norm b) (norm a)) eqn:E.
  - apply Rltb_true in E. rewrite Rmax_left; lra.
  - apply Rltb_false in E. rewrite Rmax_right; lra.
Qed.

Lemma rx_core : forall e at_ fs mg tx (a b : point),
  LeoCalcRxPower (leo_model e at_ fs mg) tx a b =
  if Rltb (cut_core (radians e) (farther a b)) (distance a b) then -1000 else budget tx at_ fs mg.
Proof.
  intros e at_ fs mg tx a b. unfold LeoCalcRxPower.
  rewrite GetCutoffDistance_core, leo_angle.
  change (nlt NumR (vlen b) (vlen a)) with (Rltb (norm b) (norm a)).
  rewrite farther_norm. reflexivity.
Qed.

Lemma radians_range : forall e, 0 <= e < 90 -> 0 <= radians e < PI / 2.
Proof. intros e H. unfold radians. pose proof PI_RGT_0. nra. Qed.

Lemma cut_slant : forall e h, 0 <= e < 90 -> leo_earth_radius <= h ->
  cut_core (radians e) h = slant_range leo_earth_radius h (radians e).
Proof.
  intros e h He Hh. rewrite cut_core_above; [|apply radians_range; exact He|exact Hh].
  unfold slant_range, RE, leo_earth_radius. f_equal. f_equal. ring.
Qed.

Lemma cutoff_closed : forall e at_ fs mg (s : point),
  0 <= e < 90 -> leo_earth_radius <= norm s ->
  GetCutoffDistance (leo_model e at_ fs mg) s = slant_range leo_earth_radius (norm s) (radians e).
Proof.
  intros. rewrite GetCutoffDistance_core, leo_angle. apply cut_slant; assumption.
Qed.

Lemma slant_horizon : forall rad h, slant_range rad h 0 = sqrt (h * h - rad * rad).
Proof.
  intros rad h. unfold slant_range. rewrite sin_0, !Rmult_0_r, Rplus_0_l. ring.
Qed.

Lemma radians_0 : radians 0 = 0.
Proof. unfold radians. lra. Qed.

Lemma radians_lt : forall a b, a < b -> radians a < radians b.
Proof. intros a b H. unfold radians. pose proof PI_RGT_0. nra. Qed.

Lemma cutoff_mono_angle : forall e1 e2 at_ fs mg (s : point),
  0 <= e1 < e2 -> e2 < 90 -> leo_earth_radius < norm s ->
  GetCutoffDistance (leo_model e2 at_ fs mg) s < GetCutoffDistance (leo_model e1 at_ fs mg) s.
Proof.
  intros. rewrite !GetCutoffDistance_core, !leo_angle.
  apply cut_decreasing; [|apply (radians_range e2); lra|assumption].
  split; [apply (radians_range e1); lra|apply radians_lt; lra].
Qed.

Lemma cutoff_mono_alt : forall e at_ fs mg (s1 s2 : point),
  0 <= e < 90 -> leo_earth_radius <= norm s1 -> norm s1 < norm s2 ->
  GetCutoffDistance (leo_model e at_ fs mg) s1 < GetCutoffDistance (leo_model e at_ fs mg) s2.
Proof.
  intros. rewrite !GetCutoffDistance_core, !leo_angle.
  apply cut_increasing; [apply radians_range|idtac|]; assumption.
Qed.

Lemma radians_neg : forall e, radians (- e) = - radians e.
Proof. intros. unfold radians. lra. Qed.

Lemma cutoff_even : forall e at_ fs mg (s : point),
  0 <= e < 90 ->
  GetCutoffDistance (leo_model (- e) at_ fs mg) s = GetCutoffDistance (leo_model e at_ fs mg) s.
Proof.
  intros e at_ fs mg s He. rewrite !GetCutoffDistance_core, !leo_angle, radians_neg.
  pose proof (radians_range e He) as Hr.
  assert (HC : 0 < cos (radians e)) by (apply cos_gt_0; pose proof PI_RGT_0; lra).
  rewrite !cut_core_closed; try apply norm_nonneg; rewrite ?cos_neg; try lra.
  rewrite sin_neg, Rabs_Ropp.
  replace (- sin (radians e) * - sin (radians e)) with (sin (radians e) * sin (radians e)) by ring.
  reflexivity.
Qed.

Lemma accepted_le : forall e at_ fs mg tx (a b : point),
  LeoCalcRxPower (leo_model e at_ fs mg) tx a b <> -1000 ->
  distance a b <= cut_core (radians e) (farther a b).
Proof.
  intros e at_ fs mg tx a b H. rewrite rx_core in H.
  destruct (Rltb _ _) eqn:E; [congruence|]. apply Rltb_false in E. exact E.
Qed.

Lemma farther_sat : forall g s : point, norm g <= norm s -> farther g s = norm s /\ farther s g = norm s.
Proof. intros g s H. unfold farther. split; [apply Rmax_right|apply Rmax_left]; lra. Qed.

Lemma leo_rx_sym_R : forall e at_ fs mg tx (a b : point),
  LeoCalcRxPower (leo_model e at_ fs mg) tx a b = LeoCalcRxPower (leo_model e at_ fs mg) tx b a.
Proof.
  intros. rewrite !rx_core. unfold farther. rewrite Rmax_comm, distance_sym. reflexivity.
Qed.

Lemma mask_sound_api : forall e at_ fs mg tx (g s : point),
  0 <= e < 90 -> 0 < norm g <= leo_earth_radius -> leo_earth_radius < norm s ->
  LeoCalcRxPower (leo_model e at_ fs mg) tx g s <> -1000 ->
  radians e <= elevation g s.
Proof.
  intros e at_ fs mg tx g s He Hg Hs H. apply accepted_le in H.
  rewrite (proj1 (farther_sat g s ltac:(lra))) in H.
  apply mask_sound; [apply radians_range; exact He|exact Hg|exact Hs|exact H].
Qed.

(** Necessary condition, for every station not above the model's radius. *)
Lemma mask_necessary : forall e g s,
  0 <= e < PI / 2 -> 0 < norm g <= RE -> RE < norm s ->
  distance g s <= cut_core e (norm s) -> norm s * sin e <= norm g * sin (elevation g s).
Proof.
  intros e g s He Hg Hs H.
  apply accept_iff in H; [|exact He|lra].
  assert (Hne : g <> s) by (intros ->; lra).
  destruct (sin_elevation g s Hne (proj1 Hg)) as [Hse _].
  assert (Hd : 0 < distance g s) by (apply norm_minus_pos; congruence).
  rewrite <- Hse in H.
  assert (norm g * norm g <= RE * RE) by nra.
  assert (H2 : distance g s * (norm s * sin e) <= distance g s * (norm g * sin (elevation g s))) by nra.
  apply Rmult_le_reg_l in H2; assumption.
Qed.

Lemma mask_boundary : forall e at_ fs mg tx (g s : point),
  0 < e < 90 -> 0 < norm g <= leo_earth_radius -> leo_earth_radius < norm s ->
  elevation g s = radians e ->
  LeoCalcRxPower (leo_model e at_ fs mg) tx g s = -1000.
Proof.
  intros e at_ fs mg tx g s He Hg Hs Hel. rewrite rx_core.
  rewrite (proj1 (farther_sat g s ltac:(lra))).
  destruct (Rltb _ _) eqn:E; [reflexivity|exfalso]. apply Rltb_false in E.
  pose proof (radians_range e ltac:(lra)) as Hr.
  apply mask_necessary in E; [|exact Hr|exact Hg|exact Hs].
  rewrite Hel in E.
  assert (0 < sin (radians e)).
  { apply sin_gt_0; [|pose proof PI_RGT_0; lra]. unfold radians. pose proof PI_RGT_0. nra. }
  unfold leo_earth_radius in *. nra.
Qed.

Lemma mask_exact_api : forall e at_ fs mg tx (g s : point),
  0 <= e < 90 -> norm g = leo_earth_radius -> leo_earth_radius < norm s ->
  budget tx at_ fs mg <> -1000 ->
  (LeoCalcRxPower (leo_model e at_ fs mg) tx g s = -1000 <->
   leo_earth_radius * sin (elevation g s) < norm s * sin (radians e)).
Proof.
  intros e at_ fs mg tx g s He Hg Hs Hb. rewrite rx_core.
  rewrite (proj1 (farther_sat g s ltac:(lra))).
  pose proof (mask_exact (radians e) g s (radians_range e He) Hg Hs) as HM.
  change RE with leo_earth_radius in HM.
  destruct (Rltb _ _) eqn:E.
  - apply Rltb_true in E. split; [intros _|reflexivity].
    destruct (Rlt_le_dec (leo_earth_radius * sin (elevation g s)) (norm s * sin (radians e))) as [|L]; [assumption|].
    apply HM in L. lra.
  - apply Rltb_false in E. split; [intros; congruence|]. apply HM in E. lra.
Qed.

Lemma zenith_elevation : forall k g, 1 < k -> 0 < norm g -> elevation g (scale k g) = PI / 2.
Proof.
  intros k g Hk Hg. unfold elevation.
  assert (Hm : minus (scale k g) g = scale (k - 1) g).
  { unfold minus, scale, pt, px, py, pz; cbn. f_equal; toR; ring. }
  rewrite Hm, inner_scale_l.
  assert (Hn : norm (scale (k - 1) g) = (k - 1) * norm g).
  { unfold norm at 1. rewrite inner_scale_l, inner_scale_r, <- norm_sq.
    rewrite (sqrt_sq_abs _ ((k - 1) * norm g)) by ring. rewrite Rabs_pos_eq; nra. }
  rewrite Hn, <- norm_sq.
  replace ((k - 1) * (norm g * norm g) / ((k - 1) * norm g * norm g)) with 1 by (field; lra).
  apply asin_1.
Qed.

Lemma norm_scale_pos : forall k g, 0 <= k -> norm (scale k g) = k * norm g.
Proof.
  intros k g Hk. unfold norm at 1. rewrite inner_scale_l, inner_scale_r, <- norm_sq.
  rewrite (sqrt_sq_abs _ (k * norm g)) by ring. rewrite Rabs_pos_eq; [reflexivity|].
  apply Rmult_le_pos; [exact Hk|apply norm_nonneg].
Qed.

Lemma zenith_api : forall e at_ fs mg tx (g : point) k,
  0 <= e < 90 -> norm g = leo_earth_radius -> 1 < k -> budget tx at_ fs mg <> -1000 ->
  (LeoCalcRxPower (leo_model e at_ fs mg) tx g (scale k g) = -1000 <->
   leo_earth_radius / norm (scale k g) < sin (radians e)).
Proof.
  intros e at_ fs mg tx g k He Hg Hk Hb.
  assert (Hp : 0 < leo_earth_radius) by (unfold leo_earth_radius; lra).
  assert (Hn : norm (scale k g) = k * leo_earth_radius) by (rewrite norm_scale_pos, Hg; lra).
  rewrite mask_exact_api; [|exact He|exact Hg|rewrite Hn; nra|exact Hb].
  rewrite zenith_elevation; [|exact Hk|rewrite Hg; exact Hp].
  rewrite sin_PI2, Hn.
  split; intros H.
  - apply Rmult_lt_reg_r with (k * leo_earth_radius); [nra|].
    unfold Rdiv. rewrite Rmult_assoc, Rinv_l by nra. lra.
  - apply Rmult_lt_compat_r with (r := k * leo_earth_radius) in H; [|nra].
    unfold Rdiv in H. rewrite Rmult_assoc, Rinv_l in H by nra. lra.
Qed.

Lemma budget_api : forall e at_ fs mg tx (a b : point),
  0 <= e < 90 -> leo_earth_radius <= farther a b ->
  (distance a b <= slant_range leo_earth_radius (farther a b) (radians e) ->
   LeoCalcRxPower (leo_model e at_ fs mg) tx a b = tx - at_ - fs - mg) /\
  (slant_range leo_earth_radius (farther a b) (radians e) < distance a b ->
   LeoCalcRxPower (leo_model e at_ fs mg) tx a b = -1000).
Proof.
  intros e at_ fs mg tx a b He Hf. rewrite rx_core, cut_slant by assumption.
  split; intros H.
  - rewrite (proj2 (Rltb_false _ _) H). reflexivity.
  - rewrite (proj2 (Rltb_true _ _) H). reflexivity.
Qed.

Lemma inside_api : forall e at_ fs mg tx (a b : point),
  0 <= e < 90 -> farther a b < leo_earth_radius ->
  let h := farther a b in
  let q := h * h * (1 + sin (radians e) * sin (radians e)) - leo_earth_radius * leo_earth_radius in
  (q < 0 -> LeoCalcRxPower (leo_model e at_ fs mg) tx a b = -1000) /\
  (0 <= q ->
   (distance a b <= h * sin (radians e) - sqrt q ->
    LeoCalcRxPower (leo_model e at_ fs mg) tx a b = budget tx at_ fs mg) /\
   (h * sin (radians e) - sqrt q < distance a b ->
    LeoCalcRxPower (leo_model e at_ fs mg) tx a b = -1000)).
Proof.
  intros e at_ fs mg tx a b He Hf h q. rewrite rx_core. fold h.
  pose proof (radians_range e He) as Hr.
  assert (HC : 0 < cos (radians e)) by (apply cos_gt_0; pose proof PI_RGT_0; lra).
  assert (HS : 0 <= sin (radians e)) by (apply sin_ge_0; pose proof PI_RGT_0; lra).
  assert (Hh : 0 <= h).
  { unfold h, farther. eapply Rle_trans; [apply (norm_nonneg a)|apply Rmax_l]. }
  rewrite cut_core_closed; [|lra|exact Hh].
  change RE with leo_earth_radius. rewrite (Rabs_pos_eq (sin (radians e))) by exact HS.
  split.
  - intros Hq. rewrite (proj2 (Rltb_true (h * h * _) _)) by (unfold q in Hq; lra).
    rewrite (proj2 (Rltb_true _ _)); [reflexivity|]. pose proof (norm_nonneg (minus b a)).
    unfold distance. lra.
  - intros Hq. rewrite (proj2 (Rltb_false (h * h * _) _)) by (unfold q in Hq; lra).
    replace (h * h * (sin (radians e) * sin (radians e)) + h * h - leo_earth_radius * leo_earth_radius)
      with q by (unfold q; ring).
    assert (Hle : sqrt q <= h * sin (radians e)).
    { assert (Hhr : h < leo_earth_radius) by exact Hf.
      assert (0 <= h * sin (radians e)) by (apply Rmult_le_pos; assumption).
      rewrite <- (sqrt_Rsqr (h * sin (radians e))) by assumption.
      apply sqrt_le_1_alt. unfold Rsqr, q. nra. }
    rewrite Rabs_minus_sym, Rabs_pos_eq by lra.
    split; intros H.
    + rewrite (proj2 (Rltb_false _ _) H). reflexivity.
    + rewrite (proj2 (Rltb_true _ _) H). reflexivity.
Qed.

Lemma isl_rx_geometry : forall tx (a b : point),
  a <> b -> isl_earth_radius <= norm a \/ isl_earth_radius <= norm b ->
  (unobstructed isl_earth_radius a b -> @IslCalcRxPower NumR tx a b = tx) /\
  (~ unobstructed isl_earth_radius a b -> @IslCalcRxPower NumR tx a b = -1000).
Proof.
  intros tx a b Hne Hr. pose proof (GetLos_correct a b Hne Hr) as H.
  unfold isl_earth_radius, IslCalcRxPower in *.
  destruct (GetLos a b); split; intros HU.
  - reflexivity.
  - exfalso. apply HU, H. reflexivity.
  - exfalso. apply H in HU. discriminate.
  - reflexivity.
Qed.

(** Concrete geometry for the examples: a station on the x axis and a satellite
    above it. *)
Lemma ex_rx_zenith : forall at_ fs mg tx,
  LeoCalcRxPower (leo_model 30 at_ fs mg) tx (pt 6371000 0 0) (pt 6921000 0 0) = tx - at_ - fs - mg.
Proof.
  intros. apply budget_api; [lra|..].
  - unfold farther. rewrite !norm_x, !Rabs_pos_eq by lra. unfold leo_earth_radius. rewrite Rmax_right; lra.
  - unfold farther. rewrite !norm_x, !Rabs_pos_eq by lra. rewrite Rmax_right by lra.
    unfold distance. replace (minus (pt 6921000 0 0) (pt 6371000 0 0)) with (pt 550000 0 0).
    2:{ unfold minus, pt, px, py, pz; cbn. f_equal; toR; ring. }
    rewrite norm_x, Rabs_pos_eq by lra.
    unfold slant_range. replace (radians 30) with (PI / 6) by (unfold radians; field).
    rewrite sin_PI6. unfold leo_earth_radius.
    match goal with |- _ <= sqrt ?x - _ => assert (H : sqrt (4010500 * 4010500) <= sqrt x) by (apply sqrt_le_1_alt; lra) end.
    rewrite (sqrt_sq_abs _ 4010500), Rabs_pos_eq in H by lra. lra.
Qed.
