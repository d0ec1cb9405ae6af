Require Import ZArith Reals Lra Lia Psatz Bool.
Require Import Verif.Num Verif.NumR Verif.Vec Verif.LossModel Verif.GeomSpec Verif.LossProofs.
Local Open Scope R_scope.

Definition RE : R := 6371010.

Definition cut_core (angle hs : R) : R :=
  let a := 1 + tan angle * tan angle in
  let b := 2 * tan angle * hs in
  let c := hs * hs - 6371010 * 6371010 in
  let disc := b * b + 4 * a * c in
  if Rltb disc 0 then - (1)
  else
    let t1 := (- b - sqrt disc) / (2 * a) in
    let t2 := (- b + sqrt disc) / (2 * a) in
    Rmin (sqrt (t1 * t1 + (- tan angle * t1) * (- tan angle * t1)))
         (sqrt (t2 * t2 + (- tan angle * t2) * (- tan angle * t2))).

Lemma GetCutoffDistance_core : forall (m : leoloss NumR) (s : point),
  GetCutoffDistance m s = cut_core (ll_angle m) (norm s).
Proof. reflexivity. Qed.

Lemma sc1 : forall x, sin x * sin x + cos x * cos x = 1.
Proof. intros x. pose proof (sin2_cos2 x). unfold Rsqr in H. exact H. Qed.

Lemma sqrt_sq_abs : forall x y, x = y * y -> sqrt x = Rabs y.
Proof. intros x y ->. change (y * y) with (Rsqr y). apply sqrt_Rsqr_abs. Qed.

Lemma cut_core_closed : forall angle hs,
  cos angle <> 0 -> 0 <= hs ->
  cut_core angle hs =
    if Rltb (hs * hs * (1 + sin angle * sin angle)) (RE * RE) then -1
    else Rabs (sqrt (hs * hs * (sin angle * sin angle) + hs * hs - RE * RE) - hs * Rabs (sin angle)).
Proof.
  intros angle hs HC Hh. unfold cut_core, RE.
  set (S := sin angle). set (C := cos angle).
  assert (HC' : C <> 0) by exact HC.
  assert (HSC : S * S + C * C = 1) by apply sc1.
  assert (Ht : tan angle = S / C) by reflexivity.
  rewrite Ht.
  set (X := hs * hs * (S * S) + hs * hs - 6371010 * 6371010).
  assert (HCC : 0 < C * C) by nra.
  assert (Ha : 1 + S / C * (S / C) = / (C * C)).
  { replace (1 + S / C * (S / C)) with ((S * S + C * C) / (C * C)) by (field; exact HC').
    rewrite HSC. unfold Rdiv. ring. }
  rewrite Ha.
  assert (Hdisc : 2 * (S / C) * hs * (2 * (S / C) * hs) + 4 * / (C * C) * (hs * hs - 6371010 * 6371010)
                  = 4 * / (C * C) * X).
  { unfold X. field. exact HC'. }
  rewrite Hdisc.
  assert (Hinv : 0 < / (C * C)) by (apply Rinv_0_lt_compat; exact HCC).
  destruct (Rltb (4 * / (C * C) * X) 0) eqn:E.
  - apply Rltb_true in E.
    rewrite (proj2 (Rltb_true _ _)); [lra|]. unfold X in E. nra.
  - apply Rltb_false in E.
    assert (HX : 0 <= X) by nra.
    rewrite (proj2 (Rltb_false _ _)); [|unfold X in HX; lra].
    set (q := sqrt X).
    assert (Hq : 0 <= q) by apply sqrt_pos.
    assert (Hqq : q * q = X) by (apply sqrt_sqrt; exact HX).
    assert (HAC : Rabs C * Rabs C = C * C) by (rewrite <- Rabs_mult; apply Rabs_pos_eq; lra).
    assert (HAC0 : 0 < Rabs C) by (apply Rabs_pos_lt; exact HC').
    assert (Hsd : sqrt (4 * / (C * C) * X) = 2 * q / Rabs C).
    { rewrite (sqrt_sq_abs _ (2 * q / Rabs C)).
      - apply Rabs_pos_eq. apply Rmult_le_pos; [lra|]. left; apply Rinv_0_lt_compat; lra.
      - rewrite <- Hqq, <- HAC. field. lra. }
    rewrite Hsd.
    assert (HCa : C * C / Rabs C = Rabs C) by (rewrite <- HAC; field; lra).
    assert (Ht1 : (- (2 * (S / C) * hs) - 2 * q / Rabs C) / (2 * / (C * C)) = - (C * S * hs) - Rabs C * q).
    { replace ((- (2 * (S / C) * hs) - 2 * q / Rabs C) / (2 * / (C * C)))
        with (- (C * S * hs) - (C * C / Rabs C) * q) by (field; split; lra).
      rewrite HCa. reflexivity. }
    assert (Ht2 : (- (2 * (S / C) * hs) + 2 * q / Rabs C) / (2 * / (C * C)) = - (C * S * hs) + Rabs C * q).
    { replace ((- (2 * (S / C) * hs) + 2 * q / Rabs C) / (2 * / (C * C)))
        with (- (C * S * hs) + (C * C / Rabs C) * q) by (field; split; lra).
      rewrite HCa. reflexivity. }
    rewrite Ht1, Ht2.
    assert (Hlen : forall t, sqrt (t * t + - (S / C) * t * (- (S / C) * t)) = Rabs (t / C)).
    { intros t. apply sqrt_sq_abs.
      replace (t * t + - (S / C) * t * (- (S / C) * t)) with (t * t * (S * S + C * C) / (C * C))
        by (field; exact HC').
      rewrite HSC. field. exact HC'. }
    rewrite !Hlen. clear Hlen Ht1 Ht2 Hsd Hdisc Ha.
    destruct (Rlt_le_dec 0 C) as [Hpos|Hneg].
    + rewrite (Rabs_pos_eq C) by lra.
      replace ((- (C * S * hs) - C * q) / C) with (- (S * hs + q)) by (field; lra).
      replace ((- (C * S * hs) + C * q) / C) with (q - S * hs) by (field; lra).
      rewrite Rabs_Ropp. rewrite Rmin_comm. unfold Rmin.
      destruct (Rle_lt_dec 0 S) as [HS|HS];
        [rewrite (Rabs_pos_eq S) by lra | rewrite (Rabs_left S) by lra];
        destruct (Rle_dec _ _) as [Hle|Hle]; unfold Rabs in *;
        repeat destruct (Rcase_abs _); nra.
    + assert (C < 0) by lra. rewrite (Rabs_left C) by lra.
      replace ((- (C * S * hs) - - C * q) / C) with (q - S * hs) by (field; lra).
      replace ((- (C * S * hs) + - C * q) / C) with (- (S * hs + q)) by (field; lra).
      rewrite Rabs_Ropp. unfold Rmin.
      destruct (Rle_lt_dec 0 S) as [HS|HS];
        [rewrite (Rabs_pos_eq S) by lra | rewrite (Rabs_left S) by lra];
        destruct (Rle_dec _ _) as [Hle|Hle]; unfold Rabs in *;
        repeat destruct (Rcase_abs _); nra.
Qed.

(** On or above the surface, mask angle in [0, pi/2): the positive root. *)
Lemma cut_core_above : forall angle hs,
  0 <= angle < PI / 2 -> RE <= hs ->
  cut_core angle hs = sqrt (hs * hs * (sin angle * sin angle) + hs * hs - RE * RE) - hs * sin angle.
Proof.
  intros angle hs Ha Hh.
  assert (HC : 0 < cos angle) by (apply cos_gt_0; pose proof PI_RGT_0; lra).
  assert (HS : 0 <= sin angle) by (apply sin_ge_0; pose proof PI_RGT_0; lra).
  assert (HRE : 0 < RE) by (unfold RE; lra).
  rewrite cut_core_closed; [|lra|lra].
  rewrite (proj2 (Rltb_false _ _)) by nra.
  rewrite (Rabs_pos_eq (sin angle)) by lra.
  apply Rabs_pos_eq.
  assert (hs * sin angle <= sqrt (hs * hs * (sin angle * sin angle) + hs * hs - RE * RE)); [|lra].
  rewrite <- (sqrt_square (hs * sin angle)) by nra.
  apply sqrt_le_1_alt. nra.
Qed.

(** [d] is at most the cutoff iff it satisfies the quadratic inequality. *)
Lemma le_cut_iff : forall angle hs d,
  0 <= angle < PI / 2 -> RE <= hs -> 0 <= d ->
  (d <= cut_core angle hs <-> d * d + 2 * d * (hs * sin angle) <= hs * hs - RE * RE).
Proof.
  intros angle hs d Ha Hh Hd. rewrite cut_core_above by assumption.
  assert (HS : 0 <= sin angle) by (apply sin_ge_0; pose proof PI_RGT_0; lra).
  assert (HRE : 0 < RE) by (unfold RE; lra).
  set (X := hs * hs * (sin angle * sin angle) + hs * hs - RE * RE).
  assert (HX : 0 <= X) by (unfold X; nra).
  pose proof (sqrt_sqrt X HX) as Hqq. pose proof (sqrt_pos X) as Hq.
  set (q := sqrt X) in *.
  assert (Hhs : 0 <= hs * sin angle) by nra.
  set (k := hs * sin angle) in *.
  assert (HXk : X = k * k + hs * hs - RE * RE) by (unfold X, k; ring).
  split; intros H; nra.
Qed.

Lemma inner_minus_expand : forall g s,
  inner (minus s g) (minus s g) = inner s s - 2 * inner (minus s g) g - inner g g.
Proof. intros. unfold inner, minus, pt, px, py, pz; cbn. ring. Qed.

Lemma distance_sq : forall g s,
  distance g s * distance g s = norm s * norm s - 2 * inner (minus s g) g - norm g * norm g.
Proof. intros g s. unfold distance. rewrite !norm_sq. apply inner_minus_expand. Qed.

Lemma distance_sym : forall a b, distance a b = distance b a.
Proof.
  intros a b. unfold distance, norm. f_equal.
  unfold inner, minus, pt, px, py, pz; cbn. ring.
Qed.

(** Acceptance condition for a station [g] not above and a satellite [s] not
    below the surface. *)
Lemma accept_iff : forall angle g s,
  0 <= angle < PI / 2 -> RE <= norm s ->
  (distance g s <= cut_core angle (norm s) <->
   2 * distance g s * (norm s * sin angle) <= 2 * inner (minus s g) g + norm g * norm g - RE * RE).
Proof.
  intros angle g s Ha Hs.
  rewrite le_cut_iff; [|assumption|assumption|apply norm_nonneg].
  rewrite distance_sq. split; intros; lra.
Qed.

Lemma cauchy : forall a b, Rabs (inner a b) <= norm a * norm b.
Proof.
  intros a b.
  rewrite <- (Rabs_pos_eq (norm a * norm b)) by (apply Rmult_le_pos; apply norm_nonneg).
  apply Rsqr_le_abs_0. unfold Rsqr.
  replace (norm a * norm b * (norm a * norm b)) with ((norm a * norm a) * (norm b * norm b)) by ring.
  rewrite !norm_sq. unfold inner.
  pose proof (Rle_0_sqr (px a * py b - py a * px b)) as H1.
  pose proof (Rle_0_sqr (px a * pz b - pz a * px b)) as H2.
  pose proof (Rle_0_sqr (py a * pz b - pz a * py b)) as H3.
  unfold Rsqr in *.
  generalize dependent (px a). generalize dependent (py a). generalize dependent (pz a).
  generalize dependent (px b). generalize dependent (py b). generalize dependent (pz b).
  intros. nra.
Qed.

Lemma sin_elevation : forall g s, g <> s -> 0 < norm g ->
  sin (elevation g s) * (distance g s * norm g) = inner (minus s g) g
  /\ - (PI / 2) <= elevation g s <= PI / 2.
Proof.
  intros g s Hne Hg.
  assert (Hd : 0 < norm (minus s g)) by (apply norm_minus_pos; congruence).
  unfold elevation, distance.
  set (k := norm (minus s g) * norm g).
  assert (Hk : 0 < k) by (apply Rmult_lt_0_compat; assumption).
  assert (Hb : -1 <= inner (minus s g) g / k <= 1).
  { pose proof (cauchy (minus s g) g) as Hc. fold k in Hc.
    assert (H1 : - k <= inner (minus s g) g <= k).
    { unfold Rabs in Hc. destruct (Rcase_abs _); lra. }
    split.
    - apply Rmult_le_reg_r with k; [assumption|]. unfold Rdiv. rewrite Rmult_assoc, Rinv_l; lra.
    - apply Rmult_le_reg_r with k; [assumption|]. unfold Rdiv. rewrite Rmult_assoc, Rinv_l; lra. }
  split.
  - rewrite sin_asin by assumption. field. lra.
  - apply asin_bound.
Qed.

Lemma elevation_ge_iff : forall g s angle, g <> s -> 0 < norm g ->
  - (PI / 2) <= angle <= PI / 2 ->
  (angle <= elevation g s <-> sin angle * (distance g s * norm g) <= inner (minus s g) g).
Proof.
  intros g s angle Hne Hg Ha.
  destruct (sin_elevation g s Hne Hg) as [Hs Hr].
  assert (Hd : 0 < distance g s) by (apply norm_minus_pos; congruence).
  rewrite <- Hs.
  assert (Hk : 0 < distance g s * norm g) by (apply Rmult_lt_0_compat; assumption).
  split.
  - intros H. apply Rmult_le_compat_r; [lra|]. apply sin_incr_1; lra.
  - intros H. apply Rmult_le_reg_r in H; [|assumption]. apply sin_incr_0; lra.
Qed.

Lemma mask_sound : forall angle g s,
  0 <= angle < PI / 2 -> 0 < norm g <= RE -> RE < norm s ->
  distance g s <= cut_core angle (norm s) -> angle <= elevation g s.
Proof.
  intros angle g s Ha Hg Hs H.
  assert (Hne : g <> s) by (intros ->; lra).
  apply elevation_ge_iff; [assumption|lra|lra|].
  apply accept_iff in H; [|assumption|lra].
  assert (HS : 0 <= sin angle) by (apply sin_ge_0; pose proof PI_RGT_0; lra).
  assert (Hd : 0 <= distance g s) by apply norm_nonneg.
  assert (HRE : 0 < RE) by (unfold RE; lra).
  assert (H1 : distance g s * sin angle * norm g <= distance g s * sin angle * norm s).
  { apply Rmult_le_compat_l; [|lra]. apply Rmult_le_pos; assumption. }
  assert (H2 : norm g * norm g <= RE * RE) by nra.
  lra.
Qed.

Lemma mask_exact : forall angle g s,
  0 <= angle < PI / 2 -> norm g = RE -> RE < norm s ->
  (distance g s <= cut_core angle (norm s) <->
   norm s * sin angle <= RE * sin (elevation g s)).
Proof.
  intros angle g s Ha Hg Hs.
  assert (HRE : 0 < RE) by (unfold RE; lra).
  assert (Hne : g <> s) by (intros ->; lra).
  assert (Hd : 0 < distance g s) by (apply norm_minus_pos; congruence).
  rewrite accept_iff; [|assumption|lra].
  destruct (sin_elevation g s Hne) as [He _]; [lra|].
  rewrite <- He, Hg. set (d := distance g s) in *. set (e := sin (elevation g s)).
  split; intros H.
  - apply Rmult_le_reg_l with (2 * d); lra.
  - apply Rmult_le_compat_l with (r := 2 * d) in H; lra.
Qed.

Lemma cut_decreasing : forall a1 a2 hs,
  0 <= a1 < a2 -> a2 < PI / 2 -> RE < hs -> cut_core a2 hs < cut_core a1 hs.
Proof.
  intros a1 a2 hs H1 H2 Hh.
  assert (HRE : 0 < RE) by (unfold RE; lra).
  assert (Hs : sin a1 < sin a2) by (apply sin_increasing_1; lra).
  assert (HS : 0 <= sin a1) by (apply sin_ge_0; pose proof PI_RGT_0; lra).
  destruct (Rlt_le_dec (cut_core a2 hs) (cut_core a1 hs)) as [|Hge]; [assumption|exfalso].
  set (d := cut_core a2 hs) in *.
  assert (Hq : forall a, 0 <= a < PI / 2 ->
    0 < cut_core a hs /\
    cut_core a hs * cut_core a hs + 2 * cut_core a hs * (hs * sin a) = hs * hs - RE * RE).
  { intros a Ha. rewrite cut_core_above by lra.
    assert (HSa : 0 <= sin a) by (apply sin_ge_0; pose proof PI_RGT_0; lra).
    set (X := hs * hs * (sin a * sin a) + hs * hs - RE * RE).
    assert (HX : 0 <= X) by (unfold X; nra).
    pose proof (sqrt_sqrt X HX) as Hqq. pose proof (sqrt_pos X) as Hqp.
    assert (Hk : 0 <= hs * sin a) by nra.
    assert (HXk : X = (hs * sin a) * (hs * sin a) + (hs * hs - RE * RE)) by (unfold X; ring).
    assert (0 < hs * hs - RE * RE) by nra.
    split; nra. }
  destruct (Hq a1) as [P1 Q1]; [lra|]. destruct (Hq a2) as [P2 Q2]; [lra|]. fold d in P2, Q2.
  set (c := cut_core a1 hs) in *. 
  assert (c * c <= d * d) by nra.
  assert (c * (hs * sin a1) < d * (hs * sin a2)).
  { assert (hs * sin a1 < hs * sin a2) by nra. assert (0 <= hs * sin a1) by nra. nra. }
  lra.
Qed.

Lemma cut_increasing : forall a h1 h2,
  0 <= a < PI / 2 -> RE <= h1 -> h1 < h2 -> cut_core a h1 < cut_core a h2.
Proof.
  intros a h1 h2 Ha H1 H2.
  assert (HRE : 0 < RE) by (unfold RE; lra).
  assert (HS : 0 <= sin a) by (apply sin_ge_0; pose proof PI_RGT_0; lra).
  assert (HS1 : sin a <= 1) by apply SIN_bound.
  assert (Hq : forall h, RE <= h ->
    0 <= cut_core a h /\
    cut_core a h * cut_core a h + 2 * cut_core a h * (h * sin a) = h * h - RE * RE).
  { intros h Hh. rewrite cut_core_above by lra.
    set (X := h * h * (sin a * sin a) + h * h - RE * RE).
    assert (HX : 0 <= X) by (unfold X; nra).
    pose proof (sqrt_sqrt X HX) as Hqq. pose proof (sqrt_pos X) as Hqp.
    assert (Hk : 0 <= h * sin a) by nra.
    assert (HXk : X = (h * sin a) * (h * sin a) + (h * h - RE * RE)) by (unfold X; ring).
    assert (0 <= h * h - RE * RE) by nra.
    set (k := h * sin a) in *. set (q := sqrt X) in *.
    assert (k <= q) by (destruct (Rle_lt_dec k q); [assumption|nra]).
    split; [lra|].
    replace ((q - k) * (q - k) + 2 * (q - k) * k) with (q * q - k * k) by ring. lra. }
  destruct (Hq h1) as [P1 Q1]; [lra|]. destruct (Hq h2) as [P2 Q2]; [lra|].
  set (c := cut_core a h1) in *. set (d := cut_core a h2) in *.
  destruct (Rlt_le_dec c d) as [|Hge]; [assumption|exfalso].
  assert (Hk1 : 0 <= c * (h1 * sin a)) by (apply Rmult_le_pos; [assumption|nra]).
  assert (Hcc : c * c < h1 * h1) by nra.
  assert (Hc : c < h1) by (destruct (Rlt_le_dec c h1); [assumption|nra]).
  assert (E1 : h2 * h2 - RE * RE <= c * c + 2 * c * (h2 * sin a)).
  { rewrite <- Q2. assert (d * d <= c * c) by nra.
    assert (0 <= h2 * sin a) by nra.
    assert (d * (h2 * sin a) <= c * (h2 * sin a)) by (apply Rmult_le_compat_r; assumption). lra. }
  assert (E2 : h2 * h2 - h1 * h1 <= 2 * (c * sin a) * (h2 - h1)) by lra.
  assert (E3 : c * sin a <= c) by nra.
  nra.
Qed.

Lemma cut_horizon : forall hs, RE <= hs -> cut_core 0 hs = sqrt (hs * hs - RE * RE).
Proof.
  intros hs Hh. rewrite cut_core_above; [|pose proof PI_RGT_0; lra|assumption].
  rewrite sin_0.
  replace (hs * hs * (0 * 0) + hs * hs - RE * RE) with (hs * hs - RE * RE) by ring. ring.
Qed.
