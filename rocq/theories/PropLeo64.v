(** C78: the cut-off of ground links in IEEE-754 doubles. *)
Require Import ZArith Reals Lra Lia Psatz List.
From Flocq Require Import Core.Core IEEE754.BinarySingleNaN.
Require Import Verif.Num Verif.NumR Verif.Num64 Verif.Vec Verif.LossModel Verif.GeomSpec Verif.LossSpec Verif.Float64Spec
  Verif.LossProofs Verif.LeoLossProofs Verif.LossApiProofs Verif.Loss64Proofs Verif.Alloc64Proofs Verif.Read64Proofs Verif.Float64Proofs Verif.Orbit64Proofs Verif.Los64Proofs Verif.Leo64Proofs Verif.PropFloat.
Local Open Scope R_scope.
Local Notation rnd := (round radix2 (FLT_exp (-1074) 53) ZnearestE).

(** ** C78 *)
Theorem C78_cutoff_binary64 : forall fsin fcos ftan, accurate_tan ftan ->
  forall (e atm fspl mar : b64) (s : vec (Num64 fsin fcos ftan)), is_finite e = true -> 0 <= B2R e <= 89 -> finite_vec s ->
  leo_earth_radius + 100000 <= norm (reals s) <= 2000000000 ->
  let c := @GetCutoffDistance (Num64 fsin fcos ftan) (@mkLeoLoss (Num64 fsin fcos ftan) (@SetElevationAngle (Num64 fsin fcos ftan) e) atm fspl mar) s in
  is_finite c = true /\
  Rabs (B2R c - slant_range leo_earth_radius (norm (reals s)) (radians (B2R e))) <= norm (reals s) / 200000000.
Proof.
  intros fsin fcos ftan ACT e atm fspl mar s Fe He Fs HS c.
  destruct (cutoff_64 fsin fcos ftan ACT e atm fspl mar s Fe He Fs HS) as [F E]. split; [exact F|].
  eapply Rle_trans; [exact E|]. unfold leo_earth_radius, u in *. lra.
Qed.
Print Assumptions C78_cutoff_binary64.

Theorem C78_ground_link_binary64 : forall fsin fcos ftan, accurate_tan ftan ->
  forall (e atm fspl mar tx : b64) (g s : vec (Num64 fsin fcos ftan)), is_finite e = true -> 0 <= B2R e <= 89 -> finite_vec g -> finite_vec s ->
  1 <= norm (reals g) -> norm (reals g) + 1 <= norm (reals s) -> leo_earth_radius + 100000 <= norm (reals s) <= 2000000000 ->
  let m := @mkLeoLoss (Num64 fsin fcos ftan) (@SetElevationAngle (Num64 fsin fcos ftan) e) atm fspl mar in
  let H := norm (reals s) in
  let rng := slant_range leo_earth_radius H (radians (B2R e)) in
  let lost (p : b64) := @LeoCalcRxPower (Num64 fsin fcos ftan) m tx g s = p /\ @LeoCalcRxPower (Num64 fsin fcos ftan) m tx s g = p in
  (distance (reals g) (reals s) <= rng - H / 100000000 -> lost (b64_minus (b64_minus (b64_minus tx atm) fspl) mar)) /\
  (rng + H / 100000000 <= distance (reals g) (reals s) -> lost (b64_Z (-1000))).
Proof.
  intros fsin fcos ftan ACT e atm fspl mar tx g s Fe He Fg Fs HG1 HG HS m H rng lost.
  destruct (leo_64 fsin fcos ftan ACT e atm fspl mar tx g s Fe He Fg Fs HG1 HG HS) as [A B].
  assert (SY : @LeoCalcRxPower (Num64 fsin fcos ftan) m tx s g = @LeoCalcRxPower (Num64 fsin fcos ftan) m tx g s) by (apply LeoCalcRxPower_sym_64).
  unfold lost. rewrite SY. split; intros D.
  - split; exact (A D).
  - assert (E : b64_Z (-1000) = Bopp (b64_Z 1000)) by (apply B2SF_inj; vm_compute; reflexivity). rewrite E. split; exact (B D).
Qed.
Print Assumptions C78_ground_link_binary64.

(** The mask holds exactly, in spite of rounding, from 0.01 degrees on: stations on
    or below the sphere hear no satellite below the configured elevation. *)
Theorem C78_mask_sound_binary64 : forall fsin fcos ftan, accurate_tan ftan ->
  forall (e atm fspl mar tx : b64) (g s : vec (Num64 fsin fcos ftan)), is_finite e = true -> / 100 <= B2R e <= 89 -> finite_vec g -> finite_vec s ->
  1 <= norm (reals g) <= leo_earth_radius -> leo_earth_radius + 100000 <= norm (reals s) <= 2000000000 ->
  let m := @mkLeoLoss (Num64 fsin fcos ftan) (@SetElevationAngle (Num64 fsin fcos ftan) e) atm fspl mar in
  @LeoCalcRxPower (Num64 fsin fcos ftan) m tx g s <> b64_Z (-1000) \/ @LeoCalcRxPower (Num64 fsin fcos ftan) m tx s g <> b64_Z (-1000) ->
  radians (B2R e) <= elevation (reals g) (reals s).
Proof.
  intros fsin fcos ftan ACT e atm fspl mar tx g s Fe He Fg Fs HG HS m HN. unfold leo_earth_radius in *.
  destruct (C78_ground_link_binary64 fsin fcos ftan ACT e atm fspl mar tx g s Fe ltac:(lra) Fg Fs ltac:(lra) ltac:(lra) HS) as [_ B]. fold m in B.
  assert (HD : distance (reals g) (reals s) < slant_range leo_earth_radius (norm (reals s)) (radians (B2R e)) + norm (reals s) / 100000000).
  { apply Rnot_le_lt. intros C. destruct (B C) as [X Y]. destruct HN as [HN|HN]; contradiction. }
  clear B HN. pose proof PI_bounds as PB.
  set (al := radians (B2R e)) in *. set (H := norm (reals s)) in *. set (G := norm (reals g)) in *. set (D := distance (reals g) (reals s)) in *.
  assert (AB : 157 / 1000000 <= al <= 156 / 100) by (unfold al, radians; nra).
  assert (SL : 15 / 100000 <= sin al).
  { destruct (Rle_or_lt al 1) as [L|L].
    - pose proof (sin_cubic al ltac:(lra)). assert (al * al * al <= 1 * al * al) by (apply Rmult_le_compat_r; [lra|]; apply Rmult_le_compat_r; lra).
      assert (al * al <= 1 * al) by (apply Rmult_le_compat_r; lra).
      destruct (Rle_or_lt al (1 / 100)); [assert (al * al <= 1 / 100 * al) by (apply Rmult_le_compat_r; lra)|]; lra.
    - apply Rle_trans with (sin 1); [pose proof (sin_cubic 1 ltac:(lra)); lra|]. apply sin_incr_1; lra. }
  pose proof (SIN_bound al) as SU. set (S := sin al) in *.
  assert (HNE : reals g <> reals s) by (intros C; unfold G, H in *; rewrite C in HG; lra).
  apply elevation_ge_iff; [exact HNE|fold G; lra|lra|]. fold D G S.
  pose proof (distance_sq (reals g) (reals s)) as DS. fold D H G in DS.
  unfold slant_range, leo_earth_radius in HD. fold S in HD.
  set (q := sqrt (H * S * (H * S) + H * H - 6371010 * 6371010)) in *.
  assert (Q0 : 0 <= q) by apply sqrt_pos.
  assert (QQ : q * q = H * S * (H * S) + H * H - 6371010 * 6371010).
  { apply sqrt_sqrt. assert (0 <= H * S * (H * S)) by apply Rle_0_sqr. assert (6371010 * 6371010 <= H * H) by (apply Rmult_le_compat; lra). lra. }
  set (r := q - H * S) in *.
  assert (RQ : r * r + 2 * r * (H * S) = H * H - 6371010 * 6371010) by (unfold r; nra).
  assert (HS0 : 0 <= H * S <= H) by nra.
  assert (GAP : 152 / 10000 * H <= H - 6371010) by lra.
  assert (RL : H / 80 <= r).
  { destruct (Rle_or_lt (H / 80) r) as [L|L]; [exact L|exfalso].
    assert (HS1 : H * S <= q) by (assert (6371010 * 6371010 <= H * H) by (apply Rmult_le_compat; lra); nra). assert (0 <= r) by (unfold r; lra).
    assert (r * r <= H / 80 * (H / 80)) by (apply Rmult_le_compat; lra). assert (r * (H * S) <= H / 80 * H) by (apply Rmult_le_compat; lra).
    assert (6371010 * 6371010 <= 9848 / 10000 * H * (9848 / 10000 * H)) by (apply Rmult_le_compat; lra).
    assert (0 < H * H) by (apply Rmult_lt_0_compat; lra). lra. }
  set (dl := H / 100000000) in *.
  assert (D0 : 0 <= D) by (unfold D, distance, norm; apply sqrt_pos).
  assert (DB : D <= r + dl) by lra.
  assert (K : D * D + 2 * S * D * G + G * G <= H * H).
  { assert (P1 : D * D <= (r + dl) * (r + dl)) by (apply Rmult_le_compat; lra).
    assert (P2 : D * G <= (r + dl) * 6371010) by (apply Rmult_le_compat; lra).
    assert (P3 : S * (D * G) <= S * ((r + dl) * 6371010)) by (apply Rmult_le_compat_l; lra).
    assert (P4 : G * G <= 6371010 * 6371010) by (apply Rmult_le_compat; lra).
    assert (P5 : H * (H / 80) <= H * r) by (apply Rmult_le_compat_l; lra).
    assert (HR0 : 0 <= H * r) by (apply Rmult_le_pos; lra).
    assert (P6 : 15 / 100000 * (H * r) <= S * (H * r)) by (apply Rmult_le_compat_r; lra).
    assert (P7 : S * (H * (H / 80)) <= S * (H * r)) by (apply Rmult_le_compat_l; lra).
    assert (SR0 : 0 <= S * r) by (apply Rmult_le_pos; lra).
    assert (P8 : S * r * (152 / 10000 * H) <= S * r * (H - 6371010)) by (apply Rmult_le_compat_l; lra).
    assert (P9 : S * H * 6371010 <= S * H * H) by (apply Rmult_le_compat_l; [apply Rmult_le_pos|]; lra).
    unfold dl in *. lra. }
  lra.
Qed.
Print Assumptions C78_mask_sound_binary64.

(** An accurate tangent exists: the exact one to 60 binary digits after the point,
    then rounded to a double. *)
Lemma fixed_point_rel : forall r, Rabs r <= 1000 -> is_finite (fixed_point r) = true /\ Rabs (B2R (fixed_point r) - r) <= u * (1 + Rabs r).
Proof.
  intros r Hr. unfold fixed_point. set (m := ZnearestE (r * 1152921504606846976)).
  pose proof (binary_normalize_correct 53 1024 b64_prec_gt_0 b64_prec_lt_emax mode_NE m (-60) false) as H. cbn [round_mode] in H.
  change (round radix2 (SpecFloat.fexp 53 1024) ZnearestE) with rnd in H.
  set (y := F2R (Float radix2 m (-60))) in *.
  assert (EY : y = IZR m * / 1152921504606846976) by reflexivity.
  assert (DM : Rabs (IZR m - r * 1152921504606846976) <= / 2).
  { rewrite Rabs_minus_sym. apply Znearest_half. }
  assert (DY : Rabs (y - r) <= / 2 * / 1152921504606846976).
  { rewrite EY. replace (IZR m * / 1152921504606846976 - r) with ((IZR m - r * 1152921504606846976) * / 1152921504606846976) by field.
    rewrite Rabs_mult, (Rabs_pos_eq (/ 1152921504606846976)) by lra. apply Rmult_le_compat_r; lra. }
  pose proof (Rabs_pos r) as R0.
  assert (Y2 : Rabs y <= / 2 + Rabs r) by (replace y with ((y - r) + r) by ring; eapply Rle_trans; [apply Rabs_triang|]; lra).
  assert (M0 : bpow radix2 (-500) <= / 2 + Rabs r).
  { apply Rle_trans with (bpow radix2 (-1)); [apply bpow_le; lia|]. change (bpow radix2 (-1)) with (/ 2). lra. }
  pose proof (rnd_abs y _ M0 Y2) as RE.
  assert (U : 0 < u < / 1000000) by (unfold u; lra).
  assert (RU : Rabs r * u <= 1000 * u) by (apply Rmult_le_compat_r; lra).
  rewrite Rlt_bool_true in H.
  - destruct H as (H1 & H2 & _). split; [exact H2|]. rewrite H1.
    replace (rnd y - r) with ((rnd y - y) + (y - r)) by ring.
    eapply Rle_trans; [apply Rabs_triang|]. unfold u in *. lra.
  - apply Rle_lt_trans with (bpow radix2 11).
    + replace (rnd y) with ((rnd y - y) + y) by ring. eapply Rle_trans; [apply Rabs_triang|]. change (bpow radix2 11) with 2048. lra.
    + apply bpow_lt. lia.
Qed.

Lemma tan_100 : forall x, Rabs x <= 156 / 100 -> Rabs (tan x) <= 1000.
Proof.
  intros x Hx. pose proof PI_bounds as PB.
  assert (X : - (156 / 100) <= x <= 156 / 100) by (apply Rabs_le_inv; exact Hx).
  assert (C : / 115 <= cos x).
  { apply Rle_trans with (cos (156 / 100)).
    - replace (156 / 100) with (PI / 2 - (PI / 2 - 156 / 100)) by ring. rewrite cos_shift.
      set (y := PI / 2 - 156 / 100). assert (1 / 100 <= y <= 15 / 1000) by (unfold y; lra).
      pose proof (sin_cubic y ltac:(lra)). assert (y * y <= 15 / 1000 * (15 / 1000)) by (apply Rmult_le_compat; lra).
      assert (0 <= y * y) by (apply Rle_0_sqr). assert (y * y * y <= 15 / 1000 * (15 / 1000) * (15 / 1000)) by (apply Rmult_le_compat; lra). lra.
    - destruct (Rle_or_lt 0 x); [apply cos_decr_1; lra|]. rewrite <- (cos_neg x). apply cos_decr_1; lra. }
  unfold tan, Rdiv. rewrite Rabs_mult, (Rabs_pos_eq (/ cos x)).
  - assert (Rabs (sin x) <= 1) by (apply Rabs_le, SIN_bound). assert (/ cos x <= 115) by (rewrite <- (Rinv_inv 115); apply Rinv_le_contravar; lra).
    pose proof (Rabs_pos (sin x)). assert (0 < / cos x) by (apply Rinv_0_lt_compat; lra). nra.
  - left. apply Rinv_0_lt_compat. lra.
Qed.

Example ex_accurate_tan : accurate_tan (fun x => fixed_point (tan (B2R x))).
Proof. intros x _ Hx. apply fixed_point_rel, tan_100, Hx. Qed.

(** A station on the x axis hears the satellite 550 km above it and not the one a
    quarter of the globe away, whose elevation is negative. *)
Example ex_C78 : forall fsin fcos (atm fspl mar tx : b64), let N := Num64 fsin fcos (fun x => fixed_point (tan (B2R x))) in
  let m := @mkLeoLoss N (@SetElevationAngle N (b64_Z 30)) atm fspl mar in
  let g := @V N (b64_Z 6371000) (b64_Z 0) (b64_Z 0) in
  @LeoCalcRxPower N m tx g (@V N (b64_Z 6921000) (b64_Z 0) (b64_Z 0)) = b64_minus (b64_minus (b64_minus tx atm) fspl) mar /\
  @LeoCalcRxPower N m tx (@V N (b64_Z 0) (b64_Z 6921000) (b64_Z 0)) g = b64_Z (-1000).
Proof.
  intros fsin fcos atm fspl mar tx N m g.
  destruct (Z_exact_64 6371000%Z) as [E6 F6]; [lia|]. destruct (Z_exact_64 6921000%Z) as [E9 F9]; [lia|]. destruct (Z_exact_64 0%Z) as [E0 F0]; [lia|].
  destruct (Z_exact_64 30%Z) as [E3 F3]; [lia|].
  assert (RE : forall x y z, reals (@V N x y z) = pt (B2R x) (B2R y) (B2R z)) by reflexivity.
  assert (FV : forall x y z, is_finite x = true -> is_finite y = true -> is_finite z = true -> finite_vec (@V N x y z)) by (intros; repeat split; assumption).
  assert (NX : norm (pt 6371000 0 0) = 6371000) by (rewrite norm_x; apply Rabs_pos_eq; lra).
  assert (NS : norm (pt 6921000 0 0) = 6921000) by (rewrite norm_x; apply Rabs_pos_eq; lra).
  assert (NY : norm (pt 0 6921000 0) = 6921000).
  { unfold norm. replace (inner (pt 0 6921000 0) (pt 0 6921000 0)) with (6921000 * 6921000) by (unfold inner, pt, px, py, pz; cbn; ring).
    rewrite sqrt_square; lra. }
  assert (SR : 550000 + 6921000 / 100000000 <= slant_range leo_earth_radius 6921000 (radians 30) <= 8000000).
  { unfold slant_range. replace (radians 30) with (PI / 6) by (unfold radians; field). rewrite sin_PI6. unfold leo_earth_radius.
    match goal with |- _ <= sqrt ?x - _ <= _ => assert (L1 : sqrt (4010501 * 4010501) <= sqrt x) by (apply sqrt_le_1_alt; lra);
      assert (L2 : sqrt x <= sqrt (8000000 * 8000000)) by (apply sqrt_le_1_alt; lra) end.
    rewrite sqrt_square in L1, L2 by lra. lra. }
  split.
  - refine (proj1 (proj1 (C78_ground_link_binary64 fsin fcos _ ex_accurate_tan (b64_Z 30) atm fspl mar tx g (@V N (b64_Z 6921000) (b64_Z 0) (b64_Z 0)) F3 _ _ _ _ _ _) _));
      unfold g; try (apply FV; assumption); rewrite ?RE, ?E3, ?E6, ?E9, ?E0, ?NX, ?NS; unfold leo_earth_radius in *; try lra.
    unfold distance. replace (minus (pt 6921000 0 0) (pt 6371000 0 0)) with (pt 550000 0 0) by (unfold minus, pt, px, py, pz; cbn; f_equal; ring).
    rewrite norm_x, Rabs_pos_eq by lra. lra.
  - refine (proj2 (proj2 (C78_ground_link_binary64 fsin fcos _ ex_accurate_tan (b64_Z 30) atm fspl mar tx g (@V N (b64_Z 0) (b64_Z 6921000) (b64_Z 0)) F3 _ _ _ _ _ _) _));
      unfold g; try (apply FV; assumption); rewrite ?RE, ?E3, ?E6, ?E9, ?E0, ?NX, ?NY; unfold leo_earth_radius in *; try lra.
    apply Rle_trans with 9000000; [lra|].
    unfold distance. apply norm_le_sq; [lra|]. unfold inner, minus, pt, px, py, pz. cbn. lra.
Qed.

(** The mask theorem at work: that link is not cut off, so the elevation is 30
    degrees at least. *)
Example ex_C78_mask : 30 * PI / 180 <= elevation (pt 6371000 0 0) (pt 6921000 0 0).
Proof.
  destruct (Z_exact_64 6371000%Z) as [E6 F6]; [lia|]. destruct (Z_exact_64 6921000%Z) as [E9 F9]; [lia|]. destruct (Z_exact_64 0%Z) as [E0 F0]; [lia|].
  destruct (Z_exact_64 30%Z) as [E3 F3]; [lia|].
  pose (f := fun x : b64 => x). pose (N := Num64 f f (fun x => fixed_point (tan (B2R x)))).
  pose (g := @V N (b64_Z 6371000) (b64_Z 0) (b64_Z 0)). pose (s := @V N (b64_Z 6921000) (b64_Z 0) (b64_Z 0)).
  assert (RG : reals g = pt 6371000 0 0) by (change (reals g) with (pt (B2R (b64_Z 6371000)) (B2R (b64_Z 0)) (B2R (b64_Z 0))); rewrite E6, E0; reflexivity).
  assert (RS : reals s = pt 6921000 0 0) by (change (reals s) with (pt (B2R (b64_Z 6921000)) (B2R (b64_Z 0)) (B2R (b64_Z 0))); rewrite E9, E0; reflexivity).
  rewrite <- RG, <- RS. replace (30 * PI / 180) with (radians (B2R (b64_Z 30))) by (rewrite E3; reflexivity).
  apply (C78_mask_sound_binary64 f f _ ex_accurate_tan (b64_Z 30) (b64_Z 0) (b64_Z 0) (b64_Z 0) (b64_Z 0)); rewrite ?RG, ?RS, ?E3; try exact F3; unfold leo_earth_radius;
    try (repeat split; assumption); try lra; try (rewrite norm_x, Rabs_pos_eq by lra; lra).
  left. destruct (ex_C78 f f (b64_Z 0) (b64_Z 0) (b64_Z 0) (b64_Z 0)) as [E _]. intros C.
  pose proof (eq_trans (eq_sym E) C) as C'. clear C. rename C' into C. apply (f_equal (fun x : b64 => B2SF x)) in C. vm_compute in C. discriminate C.
Qed.
