(** Coverage of places on Earth. *)
Require Import ZArith Reals Lra Lia List Bool.
Require Import Verif.Base Verif.Num Verif.NumR Verif.Vec Verif.GeomSpec Verif.OrbitSpec Verif.AllocModel Verif.AllocSpec Verif.ConstellationSpec Verif.RingSpec Verif.CoverSpec
  Verif.LossSpec Verif.LossProofs Verif.LeoLossProofs Verif.OrbitProofs Verif.ConstellationProofs Verif.RingProofs.
Local Open Scope R_scope.

Lemma polar_form : forall A B, exists phi, A = sqrt (A * A + B * B) * cos phi /\ B = sqrt (A * A + B * B) * sin phi.
Proof.
  intros A B. set (s := sqrt (A * A + B * B)). assert (A2 := Rle_0_sqr A). assert (B2 := Rle_0_sqr B). unfold Rsqr in *.
  assert (SS : s * s = A * A + B * B) by (apply sqrt_sqrt; lra). assert (S0 : 0 <= s) by apply sqrt_pos.
  destruct (Req_dec s 0) as [E|NE].
  - exists 0. rewrite E in *. assert (A * A = 0) by lra. assert (B * B = 0) by lra. apply Rsqr_0_uniq in H, H0. subst. split; ring.
  - assert (SP : 0 < s) by lra. set (x := A / s).
    assert (X2 : 1 - x * x = (B / s) * (B / s)). { unfold x. replace 1 with ((A * A + B * B) / (s * s)) by (rewrite <- SS; field; lra). field. lra. }
    assert (XB : -1 <= x <= 1). { assert (0 <= B / s * (B / s)) by apply Rle_0_sqr. assert (XX : x * x <= 1) by lra. split; nra. }
    assert (SA : sin (acos x) = Rabs (B / s)). { rewrite sin_acos by exact XB. unfold Rsqr. rewrite X2. apply sqrt_Rsqr_abs. }
    destruct (Rle_dec 0 B) as [HB|HB].
    + exists (acos x). rewrite cos_acos by exact XB. rewrite SA, Rabs_pos_eq by (apply Rmult_le_pos; [exact HB|left; apply Rinv_0_lt_compat; exact SP]). unfold x. split; field; lra.
    + exists (- acos x). rewrite cos_neg, sin_neg, cos_acos by exact XB. rewrite SA, Rabs_left. { unfold x. split; field; lra. }
      apply Ropp_lt_cancel. rewrite Ropp_0. replace (- (B / s)) with (- B / s) by (field; lra). apply Rdiv_lt_0_compat; lra.
Qed.

Lemma cos_turns : forall x m, cos (x + IZR m * (2 * PI)) = cos x.
Proof.
  assert (P : forall n x, cos (x + INR n * (2 * PI)) = cos x) by (intros n x; rewrite <- (cos_period x n); f_equal; ring).
  intros x m. destruct (Z_le_gt_dec 0 m) as [K|K].
  - rewrite <- (Z2Nat.id m K), <- INR_IZR_INZ. apply P.
  - rewrite <- (P (Z.to_nat (- m)) (x + IZR m * (2 * PI))). rewrite INR_IZR_INZ, Z2Nat.id, opp_IZR by lia. f_equal. ring.
Qed.

Lemma pi_part : forall S, (0 < S)%Z -> 0 < PI / IZR S <= PI.
Proof.
  intros S H. pose proof PI_RGT_0 as P. assert (B : 1 <= IZR S) by (apply IZR_le; lia). split; [apply Rdiv_lt_0_compat; lra|].
  apply Rmult_le_reg_r with (IZR S); [lra|]. replace (PI / IZR S * IZR S) with PI by (field; lra). nra.
Qed.

(** Among S directions spread evenly, one is within half the step of a given one. *)
Lemma nearest_direction : forall S x, (0 < S)%Z ->
  exists j z, (0 <= j < S)%Z /\ Rabs z <= PI / IZR S /\ forall y, cos (y + (x + turn j S)) = cos (y + z).
Proof.
  intros S x H. pose proof PI_RGT_0 as P. assert (B : 0 < IZR S) by (apply IZR_lt; lia).
  set (y := - x * IZR S / (2 * PI)). set (k := up (y - 1 / 2)). destruct (archimed (y - 1 / 2)) as [U1 U2]. fold k in U1, U2.
  exists (k mod S)%Z, (x + turn k S). pose proof (Z.mod_pos_bound k S H) as M. split; [exact M|]. split.
  - assert (E : x + turn k S = 2 * PI / IZR S * (IZR k - y)) by (unfold turn, y; field; lra). rewrite E, Rabs_mult.
    assert (Q : 0 < 2 * PI / IZR S) by (apply Rdiv_lt_0_compat; lra). rewrite (Rabs_pos_eq (2 * PI / IZR S)) by lra.
    replace (PI / IZR S) with (2 * PI / IZR S * (1 / 2)) by (field; lra). apply Rmult_le_compat_l; [lra|]. apply Rabs_le. lra.
  - intros w. rewrite <- (cos_turns (w + (x + turn (k mod S) S)) (k / S)). f_equal. pose proof (Z.div_mod k S ltac:(lia)) as D. unfold turn. 
    replace (IZR k) with (IZR S * IZR (k / S) + IZR (k mod S)) by (rewrite <- mult_IZR, <- plus_IZR; f_equal; lia). field. lra.
Qed.
Lemma cos_close : forall S z, (0 < S)%Z -> Rabs z <= PI / IZR S -> cos (PI / IZR S) <= cos z.
Proof.
  intros S z H Z. destruct (pi_part S H) as [P1 P2]. pose proof (Rabs_pos z).
  assert (E : cos z = cos (Rabs z)) by (unfold Rabs; destruct (Rcase_abs z); [rewrite cos_neg|]; reflexivity). rewrite E. apply cos_decr_1; lra.
Qed.

(** ** One plane *)
Definition coeff_a (g : point) (i lam : R) : R := px g * (cos i * cos lam) + py g * (cos i * sin lam) + pz g * sin i.
Definition coeff_b (g : point) (lam : R) : R := - px g * sin lam + py g * cos lam.
Lemma inner_circle : forall g r i lam th, inner g (circle_point r i lam th) = r * (coeff_a g i lam * cos th + coeff_b g lam * sin th).
Proof. intros g r i lam th. unfold inner, circle_point, coeff_a, coeff_b, pt, px, py, pz. cbn [vx vy vz]. change (num NumR) with R. ring. Qed.
Lemma in_plane_sq : forall g i lam, let n := plane_normal i lam in
  inner (minus g (scale (inner n g) n)) (minus g (scale (inner n g) n)) = inner g g - inner n g * inner n g.
Proof.
  intros g i lam n. transitivity (inner g g - 2 * (inner n g * inner n g) + inner n g * inner n g * inner n n).
  { unfold inner, minus, scale, pt, px, py, pz. cbn [vx vy vz]. change (num NumR) with R. ring. }
  unfold n. rewrite normal_unit. ring.
Qed.
Lemma coeff_sq : forall g i lam, let n := plane_normal i lam in
  coeff_a g i lam * coeff_a g i lam + coeff_b g lam * coeff_b g lam = inner g g - inner n g * inner n g.
Proof.
  intros g i lam. cbv zeta. unfold coeff_a, coeff_b, inner, plane_normal, pt, px, py, pz. cbn [vx vy vz]. change (num NumR) with R.
  pose proof (sc1 lam) as L. pose proof (sc1 i) as I. set (x := vx g). set (y := vy g). set (z := vz g). change (num NumR) with R in *.
  set (si := sin i) in *. set (ci := cos i) in *. set (sl := sin lam) in *. set (cl := cos lam) in *.
  replace (x * (ci * cl) + y * (ci * sl) + z * si) with (ci * (x * cl + y * sl) + z * si) by ring.
  replace (- si * cl * x + - si * sl * y + ci * z) with (ci * z - si * (x * cl + y * sl)) by ring.
  assert (X : (x * cl + y * sl) * (x * cl + y * sl) + (- x * sl + y * cl) * (- x * sl + y * cl) = x * x + y * y).
  { transitivity ((x * x + y * y) * (sl * sl + cl * cl)); [ring|rewrite L; ring]. }
  set (u := x * cl + y * sl) in *.
  enough (E : (ci * u + z * si) * (ci * u + z * si) + (ci * z - si * u) * (ci * z - si * u) = u * u + z * z) by lra.
  transitivity ((u * u + z * z) * (si * si + ci * ci)); [ring|rewrite I; ring].
Qed.
Lemma distance_law : forall g P r D, 0 <= D -> inner P P = r * r -> (distance g P <= D <-> law_of_cosines r D g <= inner g P).
Proof.
  intros g P r D H E. unfold distance, law_of_cosines, norm.
  assert (N : inner (minus P g) (minus P g) = inner g g + r * r - 2 * inner g P).
  { rewrite <- E. unfold inner, minus, pt, px, py, pz. cbn [vx vy vz]. change (num NumR) with R. ring. }
  assert (G0 : forall a : point, 0 <= inner a a).
  { intros a. unfold inner. pose proof (Rle_0_sqr (px a)). pose proof (Rle_0_sqr (py a)). pose proof (Rle_0_sqr (pz a)). unfold Rsqr in *. lra. }
  rewrite sqrt_sqrt by apply G0. rewrite N. pose proof (G0 (minus P g)) as GP. rewrite N in GP. split.
  - intros L. assert (X : sqrt (inner g g + r * r - 2 * inner g P) * sqrt (inner g g + r * r - 2 * inner g P) <= D * D) by (apply Rmult_le_compat; try apply sqrt_pos; exact L).
    rewrite sqrt_sqrt in X by exact GP. lra.
  - intros L. rewrite <- (sqrt_square D H). apply sqrt_le_1_alt. lra.
Qed.
Lemma sat_inner_self : forall o ps tau, inner (sat_path o ps tau) (sat_path o ps tau) = radius o * radius o.
Proof. intros. unfold sat_path, trajectory. rewrite circle_inner. replace (_ - _) with 0 by ring. rewrite cos_0. unfold radius. ring. Qed.
Lemma plane_reach : forall (o : leoorbit NumR) p tau g, 0 <= radius o -> (0 < lo_sats o)%Z ->
  (exists j, (0 <= j < lo_sats o)%Z /\ radius o * in_plane g (orbit_normal o p tau) * cos (PI / IZR (lo_sats o)) <= inner g (sat_path o (p, j) tau)) /\
  forall j, inner g (sat_path o (p, j) tau) <= radius o * in_plane g (orbit_normal o p tau).
Proof.
  intros o p tau g R0 S. unfold in_plane, norm, orbit_normal. rewrite in_plane_sq.
  set (i := lo_inc o * PI / 180). set (lam := turn p (lo_planes o) + earth_rate * sec tau). cbv zeta. rewrite <- coeff_sq.
  set (A := coeff_a g i lam). set (B := coeff_b g lam). destruct (polar_form A B) as (phi & EA & EB). set (s := sqrt (A * A + B * B)) in *.
  assert (S0 : 0 <= s) by apply sqrt_pos.
  set (om := angular_rate (earth_radius_km + lo_alt o) i * sec tau).
  assert (I : forall j, inner g (sat_path o (p, j) tau) = radius o * s * cos (- phi + (om + turn j (lo_sats o)))).
  { intros j. unfold sat_path, trajectory. cbn [fst snd]. fold i lam om. rewrite inner_circle. fold A B. fold (radius o).
    replace (- phi + (om + turn j (lo_sats o))) with ((om + turn j (lo_sats o)) - phi) by ring. rewrite cos_minus, EA, EB. ring. }
  assert (RS : 0 <= radius o * s) by (apply Rmult_le_pos; assumption). split.
  - destruct (nearest_direction (lo_sats o) (- phi + om) S) as (j & z & J & Z & C). exists j. split; [exact J|]. rewrite I. apply Rmult_le_compat_l; [exact RS|].
    specialize (C 0). rewrite !Rplus_0_l in C. rewrite <- Rplus_assoc, C. apply cos_close; assumption.
  - intros j. rewrite I. rewrite <- (Rmult_1_r (radius o * s)) at 2. apply Rmult_le_compat_l; [exact RS|]. apply COS_bound.
Qed.

(** ** All planes of a polar orbit *)
Lemma polar_plane : forall (o : leoorbit NumR) tau g, lo_inc o = 90 -> (2 <= lo_planes o)%Z ->
  exists p, (0 <= p < lo_planes o)%Z /\ norm g * cos (PI / IZR (lo_planes o)) <= in_plane g (orbit_normal o p tau).
Proof.
  intros o tau g E P. destruct (polar_form (px g) (py g)) as (psi & EX & EY). set (s := sqrt _) in *.
  assert (S2 : s * s = px g * px g + py g * py g). { apply sqrt_sqrt. pose proof (Rle_0_sqr (px g)). pose proof (Rle_0_sqr (py g)). unfold Rsqr in *. lra. }
  destruct (nearest_direction (lo_planes o) (earth_rate * sec tau - psi + PI / 2) ltac:(lia)) as (p & z & HP & Z & C).
  exists p. split; [exact HP|]. unfold orbit_normal, in_plane. rewrite E. replace (90 * PI / 180) with (PI / 2) by field.
  set (lam := turn p (lo_planes o) + earth_rate * sec tau) in *. unfold norm. rewrite in_plane_sq.
  assert (NG : inner (plane_normal (PI / 2) lam) g = - (s * cos (lam - psi))).
  { unfold inner, plane_normal, pt. unfold px at 1, py at 1, pz at 1. cbn [vx vy vz]. rewrite sin_PI2, cos_PI2, cos_minus. change (num NumR) with R. rewrite EX, EY at 1. ring. }
  rewrite NG. destruct (pi_part (lo_planes o) ltac:(lia)) as [Q1 Q2]. 
  assert (QH : PI / IZR (lo_planes o) <= PI / 2).
  { pose proof PI_RGT_0. assert (2 <= IZR (lo_planes o)) by (apply IZR_le; lia). apply Rmult_le_compat_l; [lra|]. apply Rinv_le_contravar; lra. }
  set (h := PI / IZR (lo_planes o)) in *.
  assert (CZ : cos (lam - psi) = sin z).
  { specialize (C (- (PI / 2))). replace (- (PI / 2) + (earth_rate * sec tau - psi + PI / 2 + turn p (lo_planes o))) with (lam - psi) in C by (unfold lam; ring).
    rewrite C. rewrite <- cos_shift. rewrite <- cos_neg. f_equal. ring. }
  rewrite CZ. assert (CZ2 : cos h <= cos z) by (apply cos_close; [lia|exact Z]). assert (C0 : 0 <= cos h) by (apply cos_ge_0; lra).
  pose proof (sc1 z) as SZ. assert (CC : cos h * cos h <= cos z * cos z) by (apply Rmult_le_compat; lra).
  assert (GG : 0 <= inner g g). { unfold inner. pose proof (Rle_0_sqr (pz g)). unfold Rsqr in *. assert (0 <= s * s) by apply Rle_0_sqr. lra. }
  assert (LE : s * s <= inner g g) by (unfold inner; pose proof (Rle_0_sqr (pz g)); unfold Rsqr in *; lra).
  rewrite <- (sqrt_square (sqrt (inner g g) * cos h)) by (apply Rmult_le_pos; [apply sqrt_pos|exact C0]). apply sqrt_le_1_alt.
  replace (sqrt (inner g g) * cos h * (sqrt (inner g g) * cos h)) with (sqrt (inner g g) * sqrt (inner g g) * (cos h * cos h)) by ring. rewrite sqrt_sqrt by exact GG.
  replace (- (s * sin z) * - (s * sin z)) with (s * s * (sin z * sin z)) by ring.
  assert (X1 : inner g g * (cos h * cos h) <= inner g g * (cos z * cos z)) by (apply Rmult_le_compat_l; assumption).
  assert (X2 : s * s * (sin z * sin z) <= inner g g * (sin z * sin z)) by (apply Rmult_le_compat_r; [apply Rle_0_sqr|exact LE]).
  replace (cos z * cos z) with (1 - sin z * sin z) in X1 by lra. lra.
Qed.

(** ** High latitudes *)
Lemma high_latitude : forall (o : leoorbit NumR) ps tau g phi m, 0 <= radius o ->
  0 <= m <= phi -> phi <= PI / 2 -> Rabs (sin (lo_inc o * PI / 180)) = sin m -> Rabs (pz g) = norm g * sin phi ->
  inner g (sat_path o ps tau) <= radius o * norm g * cos (phi - m).
Proof.
  intros o ps tau g phi m R0 M PH SM GZ. pose proof (sat_inner_self o ps tau) as PP. pose proof (eq_refl : pz (sat_path o ps tau) = pz (sat_path o ps tau)) as PZ.
  unfold sat_path at 2, trajectory, circle_point in PZ. unfold pz at 2, pt in PZ. cbn [vz] in PZ. fold (radius o) in PZ.
  set (th := angular_rate _ _ * _ + _) in PZ. set (P := sat_path o ps tau) in *. change (num NumR) with R in PZ. set (r := radius o) in *.
  assert (C1 : Rabs (cos th) <= 1) by (apply Rabs_le; apply COS_bound).
  assert (ZR : Rabs (pz P) = r * (Rabs (cos th) * sin m)). { rewrite PZ, !Rabs_mult, SM, (Rabs_pos_eq r) by exact R0. reflexivity. }
  pose proof PI_RGT_0 as PI0. assert (SM0 : 0 <= sin m) by (apply sin_ge_0; lra). pose proof (Rabs_pos (cos th)) as CP.
  set (x := Rabs (cos th) * sin m) in *. assert (X0 : 0 <= x) by (apply Rmult_le_pos; assumption). assert (XM : x <= sin m) by (unfold x; rewrite <- (Rmult_1_l (sin m)) at 2; apply Rmult_le_compat_r; assumption).
  pose proof (SIN_bound m) as SB.
  set (beta := asin x). assert (SB1 : sin beta = x) by (apply sin_asin; lra). assert (BB := asin_bound x). fold beta in BB.
  assert (B0 : 0 <= beta) by (apply Rnot_lt_le; intros N; pose proof (sin_lt_0_var beta ltac:(lra) N); lra).
  assert (BM : beta <= m) by (apply Rnot_lt_le; intros N; pose proof (sin_increasing_1 m beta ltac:(lra) ltac:(lra) ltac:(lra) ltac:(lra) N); lra).
  assert (CB : 0 <= cos beta) by (apply cos_ge_0; lra). assert (CPH : 0 <= cos phi) by (apply cos_ge_0; lra).
  set (G := norm g) in *. assert (G0 : 0 <= G) by apply sqrt_pos.
  assert (GG : inner g g = G * G).
  { symmetry. apply sqrt_sqrt. unfold inner. pose proof (Rle_0_sqr (px g)). pose proof (Rle_0_sqr (py g)). pose proof (Rle_0_sqr (pz g)). unfold Rsqr in *. lra. }
  assert (SQ : forall a : R, a * a = Rabs a * Rabs a) by (intros a; apply (Rsqr_abs a)).
  assert (GXY : px g * px g + py g * py g = (G * cos phi) * (G * cos phi)).
  { unfold inner in GG. rewrite (SQ (pz g)), GZ in GG. pose proof (sc1 phi) as S1. replace (G * cos phi * (G * cos phi)) with (G * G * (1 - sin phi * sin phi)); [lra|]. replace (1 - sin phi * sin phi) with (cos phi * cos phi) by lra. ring. }
  assert (PXY : px P * px P + py P * py P = (r * cos beta) * (r * cos beta)).
  { unfold inner in PP. rewrite (SQ (pz P)), ZR in PP. pose proof (sc1 beta) as S1. rewrite SB1 in S1. replace (r * cos beta * (r * cos beta)) with (r * r * (1 - x * x)); [lra|]. replace (1 - x * x) with (cos beta * cos beta) by lra. ring. }
  assert (CS : px g * px P + py g * py P <= (G * cos phi) * (r * cos beta)).
  { apply Rsqr_incr_0_var; [|apply Rmult_le_pos; apply Rmult_le_pos; assumption]. unfold Rsqr.
    replace (G * cos phi * (r * cos beta) * (G * cos phi * (r * cos beta))) with ((G * cos phi) * (G * cos phi) * ((r * cos beta) * (r * cos beta))) by ring. rewrite <- GXY, <- PXY.
    pose proof (Rle_0_sqr (px g * py P - py g * px P)) as L. unfold Rsqr in L. lra. }
  assert (ZZ : pz g * pz P <= (G * sin phi) * (r * x)).
  { rewrite <- GZ, <- ZR, <- Rabs_mult. apply Rle_abs. }
  assert (T : inner g P <= r * G * cos (phi - beta)).
  { rewrite cos_minus, SB1. unfold inner. replace (r * G * (cos phi * cos beta + sin phi * x)) with (G * cos phi * (r * cos beta) + G * sin phi * (r * x)) by ring. lra. }
  eapply Rle_trans; [exact T|]. apply Rmult_le_compat_l; [apply Rmult_le_pos; assumption|]. apply cos_decr_1; lra.
Qed.
