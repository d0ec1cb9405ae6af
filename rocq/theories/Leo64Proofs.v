(** The cut-off distance of ground links in doubles. *)
Require Import ZArith Reals Lra Lia Psatz Bool.
From Flocq Require Import Core.Core IEEE754.BinarySingleNaN.
Require Import Verif.Num Verif.NumR Verif.Num64 Verif.Vec Verif.LossModel Verif.GeomSpec Verif.LossSpec Verif.Float64Spec
  Verif.LossProofs Verif.LeoLossProofs Verif.Alloc64Proofs Verif.Read64Proofs Verif.Float64Proofs Verif.Orbit64Proofs Verif.Orbit64Api Verif.Los64Proofs.
Local Open Scope R_scope.
Local Notation Rad := 6371010.
Local Notation scaled := Float64Proofs.scale.
Local Notation rnd := (round radix2 (FLT_exp (-1074) 53) ZnearestE).

Lemma divu2 : forall K L x r a B y s b c D, near K x r (a * u) B -> near L y s (b * u) 1 -> s = 1 -> 0 < K -> 0 < L -> scaled (K / L) ->
  0 <= b <= 1000000 -> / 1024 <= B -> (a + B * b) / (1 - b * u) + (B + (a + B * b) / (1 - b * u) * u) <= c -> c <= 100000000000000000000 -> B <= D ->
  near (K / L) (b64_div x y) r (c * u) D.
Proof.
  intros K L x r a B y s b c D N1 N2 -> HK HL SK Hb LL H1 H2 H3. pose proof u_pos as U0.
  destruct (near_e _ _ _ _ _ HK N1) as [E1 F1]. assert (A0 : 0 <= a) by nra.
  assert (UB : b * u < 1) by (assert (b * u <= 1000000 * u) by (apply Rmult_le_compat_r; lra); unfold u in *; lra).
  assert (Z : 0 <= (a + B * b) / (1 - b * u)).
  { apply Rmult_le_pos; [|apply Rlt_le, Rinv_0_lt_compat; lra]. pose proof (Rmult_le_pos B b F1 (proj1 Hb)). lra. }
  assert (EQ : (a * u + B / 1 * (b * u)) / (1 - b * u) = (a + B * b) / (1 - b * u) * u) by (field; lra).
  replace r with (r / 1) by field.
  eapply near_weak; [apply (near_div K L _ _ _ _ _ _ _ _ 1 N1 N2 HK HL SK); try lra|apply scale_pos; exact SK|reflexivity| |lra].
  - rewrite Rabs_R1. lra.
  - rewrite EQ, big100. assert ((a + B * b) / (1 - b * u) * u <= (a + B * b) / (1 - b * u) * 1) by (apply Rmult_le_compat_l; [exact Z|unfold u; lra]). lra.
  - rewrite EQ. replace ((a + B * b) / (1 - b * u) * u + u * (B / 1 + (a + B * b) / (1 - b * u) * u))
      with (((a + B * b) / (1 - b * u) + (B + (a + B * b) / (1 - b * u) * u)) * u) by (field; lra).
    apply Rmult_le_compat_r; lra.
Qed.

Lemma PI_bounds : 314 / 100 < PI < 315 / 100.
Proof. destruct PI_64 as [Q1 Q2]. destruct pi64_R as [Q3 _]. rewrite Q3 in *. change (bpow radix2 (-48)) with (/ 281474976710656) in *. unfold u in *. lra. Qed.

Lemma sin_cubic : forall x, 0 <= x <= 1 -> x - x * x * x / 6 <= sin x.
Proof.
  intros x Hx. destruct (pre_sin_bound x 0 ltac:(lra) ltac:(lra)) as [L _].
  unfold sin_approx, sin_term in L. cbn [sum_f_R0 plus mult Nat.mul Nat.add fact pow INR] in L. lra.
Qed.

(** Up to 89 degrees. *)
Lemma cos_89 : forall e, 0 <= e <= 89 -> / 115 <= cos (radians e).
Proof.
  intros e He. pose proof PI_bounds as PB. unfold radians.
  apply Rle_trans with (cos (89 * PI / 180)).
  2:{ apply cos_decr_1; nra. }
  replace (89 * PI / 180) with (PI / 2 - PI / 180) by field. rewrite cos_shift.
  set (x := PI / 180). assert (314 / 18000 <= x <= 315 / 18000) by (unfold x; lra).
  pose proof (sin_cubic x ltac:(lra)).
  assert (x * x * x <= 315 / 18000 * (315 / 18000) * (315 / 18000)) by (apply Rmult_le_compat; [nra|lra|apply Rmult_le_compat; lra|lra]). lra.
Qed.

Lemma tan_diff : forall a b, cos a <> 0 -> cos b <> 0 -> tan a - tan b = sin (a - b) / (cos a * cos b).
Proof. intros a b Ha Hb. unfold tan. rewrite sin_minus. field. auto. Qed.

Section Leo.
  Variables fsin fcos ftan : b64 -> b64.
  Local Notation N64 := (Num64 fsin fcos ftan).
  Hypothesis ACT : accurate_tan ftan.

  Lemma angle_64 : forall e : b64, is_finite e = true -> 0 <= B2R e <= 89 ->
    is_finite (@SetElevationAngle N64 e) = true /\ Rabs (B2R (@SetElevationAngle N64 e) - radians (B2R e)) <= 5 * u.
  Proof.
    intros e F He. pose proof PI_bounds as PB.
    pose proof (near_exact 180 ltac:(lia)) as N180.
    assert (S1 : scaled (1 / 180)) by (apply scale_mid2; lra).
    pose proof (divu2 1 180 b64_pi PI 1 4 (b64_Z 180) 1 0 (51 / 10) 4 near_pi N180 eq_refl ltac:(lra) ltac:(lra) S1 ltac:(lra) ltac:(lra) ltac:(small) ltac:(lra) ltac:(lra)) as NP.
    assert (NE : near 1 e (B2R e) (0 * u) 90) by (eapply near_weak; [apply (near_self e 90 F); rewrite Rabs_pos_eq; lra|lra|reflexivity|lra|lra]).
    assert (S2 : scaled (1 * (1 / 180))) by (rewrite Rmult_1_l; exact S1).
    destruct (mulu 1 (1 / 180) _ _ 0 90 _ _ (51 / 10) 4 820 360 NE NP ltac:(lra) ltac:(lra) S2 ltac:(lra) ltac:(small) ltac:(lra) ltac:(lra)) as (FF & EE & _).
    split; [exact FF|]. unfold radians. replace (1 * (1 / 180) * (B2R e * PI)) with (B2R e * PI / 180) in EE by field.
    eapply Rle_trans; [exact EE|]. unfold u. lra.
  Qed.

  Lemma tan_64 : forall e : b64, is_finite e = true -> 0 <= B2R e <= 89 ->
    near (/ cos (radians (B2R e))) (ftan (@SetElevationAngle N64 e)) (sin (radians (B2R e))) (580 * u) 1.
  Proof.
    intros e F He. destruct (angle_64 e F He) as [FA EA]. pose proof (cos_89 _ He) as C89. pose proof PI_bounds as PB.
    set (al := radians (B2R e)) in *. set (x := @SetElevationAngle N64 e) in *. pose proof u_pos as U0.
    pose proof (cos_lip (B2R x) al) as CL. apply Rabs_le_inv in CL. apply Rabs_le_inv in EA as EA'.
    assert (AB : 0 <= al <= 89 * PI / 180) by (unfold al, radians; split; [apply Rmult_le_pos; [apply Rmult_le_pos; lra|lra]|]; nra).
    destruct (ACT x FA) as [FT ET].
    { apply Rabs_le. unfold u in *. lra. }
    assert (CX : cos al * (1 - 575 * u) <= cos (B2R x)) by (assert (0 <= u * (cos al - / 115)) by (apply Rmult_le_pos; lra); lra).
    set (c := cos al) in *. assert (C1 : c <= 1) by apply COS_bound.
    assert (UU : 575 * u <= / 1000000) by small.
    assert (CX0 : 0 < cos (B2R x)) by nra.
    assert (TD : Rabs (tan (B2R x) - tan al) <= / c * (577 * u)).
    { rewrite tan_diff by (unfold c in *; lra). fold c. unfold Rdiv. rewrite Rabs_mult, Rabs_inv, (Rabs_pos_eq (cos (B2R x) * c)) by nra.
      assert (SB : Rabs (sin (B2R x - al)) <= 5 * u) by (eapply Rle_trans; [apply sin_abs|exact EA]).
      rewrite Rinv_mult, (Rmult_comm (/ cos (B2R x))), <- Rmult_assoc, (Rmult_comm _ (/ c)), Rmult_assoc.
      apply Rmult_le_compat_l; [apply Rlt_le, Rinv_0_lt_compat; lra|].
      apply Rle_trans with (5 * u * / cos (B2R x)); [apply Rmult_le_compat_r; [apply Rlt_le, Rinv_0_lt_compat; lra|exact SB]|].
      apply Rmult_le_reg_r with (cos (B2R x)); [lra|]. rewrite Rmult_assoc, Rinv_l, Rmult_1_r by lra.
      assert (/ 115 * (1 - / 1000000) <= cos (B2R x)) by nra.
      assert (5 <= 577 * cos (B2R x)) by lra. nra. }
    assert (TA : tan al = / c * sin al) by (unfold tan, c; field; unfold c in *; lra).
    pose proof (SIN_bound al) as SB. assert (SP : 0 <= sin al) by (apply sin_ge_0; nra).
    assert (IC : 1 <= / c <= 115).
    { split; [rewrite <- Rinv_1; apply Rinv_le_contravar; lra|]. replace 115 with (/ / 115) by field. apply Rinv_le_contravar; lra. }
    split; [exact FT|]. split; [|apply Rabs_le; lra].
    rewrite <- TA. replace (B2R (ftan x) - tan al) with ((B2R (ftan x) - tan (B2R x)) + (tan (B2R x) - tan al)) by ring.
    eapply Rle_trans; [apply Rabs_triang|].
    assert (TX : Rabs (tan (B2R x)) <= / c * (1 + 577 * u)).
    { replace (tan (B2R x)) with ((tan (B2R x) - tan al) + tan al) by ring. eapply Rle_trans; [apply Rabs_triang|].
      rewrite TA at 2. rewrite (Rabs_pos_eq (/ c * sin al)) by (apply Rmult_le_pos; lra).
      assert (/ c * sin al <= / c * 1) by (apply Rmult_le_compat_l; lra). lra. }
    assert (u * (1 + Rabs (tan (B2R x))) <= u * (/ c * (2 + 577 * u))) by (apply Rmult_le_compat_l; lra).
    assert (/ c * (u * (2 + 577 * u)) <= / c * (3 * u)) by (apply Rmult_le_compat_l; [lra|]; unfold u; lra).
    lra.
  Qed.

  (** Length of the vector (t, - tan * t) for t near r H cos. *)
  Lemma range_64 : forall H c sn (t tn : b64) r, scaled H -> scaled (H * H) -> scaled (H * c) -> 0 < H -> / 115 <= c <= 1 -> c * c + sn * sn = 1 ->
    near (/ c) tn sn (580 * u) 1 -> near (H * c) t r (17830 * u) (5 / 2) -> / 80 <= Rabs r ->
    near H (@len2 N64 t (b64_mult (Bopp tn) t)) (Rabs r) (15000000 * u) (5 / 2).
  Proof.
    intros H c sn t tn r SH SHH SHC HH HC SC NT N1 RL. pose proof u_pos as U0. assert (U1 : u <= / 1000000000000) by small.
    pose proof (proj2 (proj2 N1)) as RB.
    assert (NX : near H t (c * r) (17830 * u) (5 / 2)).
    { pose proof (near_rescale _ c _ _ _ _ N1 ltac:(lra)) as M. replace (H * c / c) with H in M by (field; lra).
      eapply near_weak; [exact M|exact HH|reflexivity| |lra]. assert (0 <= (1 - c) * u) by (apply Rmult_le_pos; lra). lra. }
    assert (NY : near H (b64_mult (Bopp tn) t) (- sn * r) (19290 * u) (5 / 2)).
    { replace H with (/ c * (H * c)) at 1 by (field; lra).
      apply (mulu (/ c) (H * c) _ _ 580 1 _ _ 17830 (5 / 2) 19290 (5 / 2) (near_opp _ _ _ _ _ NT) N1).
      - apply Rinv_0_lt_compat. lra.
      - nra.
      - replace (/ c * (H * c)) with H by (field; lra). exact SH.
      - lra.
      - small.
      - lra.
      - lra. }
    assert (X2 : near (H * H) (b64_mult t t) (c * r * (c * r)) (89200 * u) (25 / 4))
      by (apply (mulu H H _ _ 17830 (5 / 2) _ _ 17830 (5 / 2) 89200 (25 / 4) NX NX HH HH SHH); try lra; small).
    assert (Y2 : near (H * H) (b64_mult (b64_mult (Bopp tn) t) (b64_mult (Bopp tn) t)) (- sn * r * (- sn * r)) (96500 * u) (25 / 4))
      by (apply (mulu H H _ _ 19290 (5 / 2) _ _ 19290 (5 / 2) 96500 (25 / 4) NY NY HH HH SHH); try lra; small).
    assert (RR : Rabs r * Rabs r = r * r) by (rewrite <- Rabs_mult; apply Rabs_pos_eq; nra).
    assert (SS : near (H * H) (b64_plus (b64_mult t t) (b64_mult (b64_mult (Bopp tn) t) (b64_mult (Bopp tn) t))) (Rabs r * Rabs r) (185800 * u) (25 / 4)).
    { apply near_bound with (B := 25 / 2).
      - eapply near_weak; [apply (addu (H * H) _ _ 89200 (25 / 4) _ _ 96500 (25 / 4) 185800 (25 / 2) X2 Y2 SHH); lra|nra| |lra|lra].
        rewrite RR. replace (c * r * (c * r) + - sn * r * (- sn * r)) with (r * r * (c * c + sn * sn)) by ring. rewrite SC. ring.
      - rewrite Rabs_mult, Rabs_Rabsolu. pose proof (Rabs_pos r). nra. }
    assert (PR : 0 <= Rabs r) by apply Rabs_pos.
    pose proof (near_sqrt H _ _ _ _ (/ 80) (5 / 2) SS SH ltac:(lra) ltac:(nra) ltac:(small) ltac:(lra) ltac:(lra) ltac:(lra) ltac:(rewrite big100; small)) as Q.
    rewrite sqrt_square in Q by exact PR. unfold len2. cbn [nsqrt nadd nmul Num64].
    eapply near_weak; [exact Q|exact HH|reflexivity|small|lra].
  Qed.

  Lemma cutoff_64 : forall (e atm fspl mar : b64) (s : vec N64), is_finite e = true -> 0 <= B2R e <= 89 -> finite_vec s ->
    Rad + 100000 <= norm (reals s) <= 2000000000 ->
    let c := @GetCutoffDistance N64 (@mkLeoLoss N64 (@SetElevationAngle N64 e) atm fspl mar) s in
    is_finite c = true /\
    Rabs (B2R c - slant_range Rad (norm (reals s)) (radians (B2R e))) <= norm (reals s) * (15000000 * u).
  Proof.
    intros e atm fspl mar s Fe He Fs HS. cbv zeta. pose proof u_pos as U0. assert (U1 : u <= / 1000000000000) by small.
    pose proof (tan_64 e Fe He) as NT. pose proof (cos_89 _ He) as C89. pose proof PI_bounds as PB.
    set (al := radians (B2R e)) in *. set (H := norm (reals s)) in *. set (tn := ftan (@SetElevationAngle N64 e)) in *.
    assert (SP : 0 <= sin al).
    { apply sin_ge_0; unfold al, radians; [apply Rmult_le_pos; [apply Rmult_le_pos; lra|lra]|nra]. }
    pose proof (SIN_bound al) as SB. pose proof (COS_bound al) as CB. assert (SC : cos al * cos al + sin al * sin al = 1) by (pose proof (sc1 al); lra).
    set (c := cos al) in *. set (sn := sin al) in *.
    set (A := / c) in *. assert (IC : 1 <= A <= 115).
    { unfold A. split; [rewrite <- Rinv_1; apply Rinv_le_contravar; lra|]. replace 115 with (/ / 115) by field. apply Rinv_le_contravar; lra. }
    assert (AC : A * c = 1) by (unfold A; field; lra).
    assert (HH : 0 < H) by lra.
    assert (SH : scaled H) by (apply scale_mid2; lra).
    assert (BIG : forall k, 1 <= k <= 1267650600228229401496703205376 -> scaled k).
    { intros k Hk. apply scale_of.
      - apply Rle_trans with (bpow radix2 0); [apply bpow_le; lia|change (bpow radix2 0) with 1; lra].
      - apply Rle_trans with (bpow radix2 100); [rewrite big100; lra|apply bpow_le; lia]. }
    assert (HHB : 1 <= H * H <= 4000000000000000000) by nra.
    assert (AAB : 1 <= A * A <= 13225) by nra.
    assert (AHB : 1 <= A * H <= 230000000000) by nra.
    assert (SHH : scaled (H * H)) by (apply BIG; lra).
    assert (SAA : scaled (A * A)) by (apply BIG; lra).
    assert (SAH : scaled (A * H)) by (apply BIG; lra).
    assert (SAH2 : scaled (A * H * (A * H))) by (apply BIG; nra).
    assert (SA : scaled A) by (apply BIG; lra).
    assert (SHC : scaled (H * c)) by (apply BIG; nra).
    (* a *)
    assert (T2 : near (A * A) (b64_mult tn tn) (sn * sn) (1162 * u) 1)
      by (apply (mulu A A _ _ 580 1 _ _ 580 1 1162 1 NT NT ltac:(lra) ltac:(lra) SAA); try lra; small).
    assert (ONE : near (A * A) (b64_Z 1) (c * c) (0 * u) 1).
    { pose proof (near_rescale _ (c * c) _ _ _ _ (near_const 1 1 ltac:(lia) ltac:(lra)) ltac:(nra)) as M.
      replace (1 / (c * c)) with (A * A) in M by (unfold A; field; lra). eapply near_weak; [exact M|lra|ring|lra|nra]. }
    assert (NA : near (A * A) (b64_plus (b64_Z 1) (b64_mult tn tn)) 1 (1165 * u) 1).
    { apply near_bound with (B := 2); [|rewrite Rabs_R1; lra]. rewrite <- SC.
      apply (addu (A * A) _ _ 0 1 _ _ 1162 1 1165 2 ONE T2 SAA); lra. }
    set (a := b64_plus (b64_Z 1) (b64_mult tn tn)) in *.
    (* b *)
    pose proof (near_const 2 2 ltac:(lia) ltac:(lra)) as TWO. pose proof (near_const 4 4 ltac:(lia) ltac:(lra)) as FOUR.
    pose proof (vlen_64 fsin fcos ftan s Fs ltac:(fold H; lra)) as NH. fold H in NH.
    set (hs := vlen s) in *.
    assert (N2T : near A (b64_mult (b64_Z 2) tn) (2 * sn) (1163 * u) 2).
    { replace A with (1 * A) at 1 by ring. apply (mulu 1 A _ _ 0 2 _ _ 580 1 1163 2 TWO NT); try lra. rewrite Rmult_1_l. exact SA. }
    assert (NB : near (A * H) (b64_mult (b64_mult (b64_Z 2) tn) hs) (2 * sn * 1) (1184 * u) 2)
      by (apply (mulu A H _ _ 1163 2 _ _ 9 1 1184 2 N2T NH ltac:(lra) HH SAH); try lra; small).
    rewrite Rmult_1_r in NB.
    set (b := b64_mult (b64_mult (b64_Z 2) tn) hs) in *.
    (* c *)
    assert (NHH : near (H * H) (b64_mult hs hs) (1 * 1) (20 * u) 1)
      by (apply (mulu H H _ _ 9 1 _ _ 9 1 20 1 NH NH HH HH SHH); try lra; small).
    pose proof (near_exact 6371010 ltac:(lia)) as RR.
    assert (R2 : near (Rad * Rad) (b64_mult (b64_Z 6371010) (b64_Z 6371010)) (1 * 1) (1 * u) 1)
      by (apply (mulu Rad Rad _ _ 0 1 _ _ 0 1 1 1 RR RR ltac:(lra) ltac:(lra) (BIG (Rad * Rad) ltac:(lra))); lra).
    set (rho := Rad * Rad / (H * H)).
    assert (RK : 0 < rho <= 9694 / 10000).
    { unfold rho. assert (0 < / (H * H)) by (apply Rinv_0_lt_compat; lra). split; [apply Rmult_lt_0_compat; lra|].
      apply Rmult_le_reg_r with (H * H); [lra|]. unfold Rdiv. rewrite Rmult_assoc, Rinv_l by lra. nra. }
    assert (NR : near (H * H) (b64_mult (b64_Z 6371010) (b64_Z 6371010)) rho (1 * u) 1).
    { pose proof (near_rescale _ rho _ _ _ _ R2 ltac:(lra)) as M.
      replace (Rad * Rad / rho) with (H * H) in M by (unfold rho; field; lra).
      eapply near_weak; [exact M|lra|ring| |lra]. assert (0 <= (1 - rho) * u) by (apply Rmult_le_pos; lra). lra. }
    set (g := 1 - rho). assert (GB : 306 / 10000 <= g <= 1) by (unfold g; lra).
    assert (NC : near (H * H) (b64_minus (b64_mult hs hs) (b64_mult (b64_Z 6371010) (b64_Z 6371010))) g (24 * u) 1).
    { apply near_bound with (B := 2); [|rewrite Rabs_pos_eq; lra]. replace g with (1 * 1 - rho) by (unfold g; ring).
      apply (subu (H * H) _ _ 20 1 _ _ 1 1 24 2 NHH NR SHH); lra. }
    set (cc := b64_minus (b64_mult hs hs) (b64_mult (b64_Z 6371010) (b64_Z 6371010))) in *.
    (* the discriminant *)
    assert (NBB : near (A * H * (A * H)) (b64_mult b b) (2 * sn * (2 * sn)) (4742 * u) 4)
      by (apply (mulu (A * H) (A * H) _ _ 1184 2 _ _ 1184 2 4742 4 NB NB ltac:(lra) ltac:(lra) SAH2); try lra; small).
    assert (N4A : near (A * A) (b64_mult (b64_Z 4) a) (4 * 1) (4666 * u) 4).
    { replace (A * A) with (1 * (A * A)) at 1 by ring. apply (mulu 1 (A * A) _ _ 0 4 _ _ 1165 1 4666 4 FOUR NA); try lra. rewrite Rmult_1_l. exact SAA. }
    assert (N4AC : near (A * H * (A * H)) (b64_mult (b64_mult (b64_Z 4) a) cc) (4 * 1 * g) (4768 * u) 4).
    { replace (A * H * (A * H)) with (A * A * (H * H)) at 1 by ring.
      apply (mulu (A * A) (H * H) _ _ 4666 4 _ _ 24 1 4768 4 N4A NC ltac:(lra) ltac:(lra)); try lra; try small.
      replace (A * A * (H * H)) with (A * H * (A * H)) by ring. exact SAH2. }
    set (q := sqrt (sn * sn + g)).
    assert (QQ : q * q = sn * sn + g) by (apply sqrt_sqrt; nra). assert (Q0 : 0 <= q) by apply sqrt_pos.
    assert (Q1 : sn <= q <= 15 / 10) by (split; nra).
    assert (ND : near (A * H * (A * H)) (b64_plus (b64_mult b b) (b64_mult (b64_mult (b64_Z 4) a) cc)) (2 * q * (2 * q)) (9520 * u) 9).
    { eapply near_weak; [apply (addu (A * H * (A * H)) _ _ 4742 4 _ _ 4768 4 9520 8 NBB N4AC SAH2); lra|nra| |lra|lra].
      replace (2 * q * (2 * q)) with (4 * (q * q)) by ring. rewrite QQ. ring. }
    set (disc := b64_plus (b64_mult b b) (b64_mult (b64_mult (b64_Z 4) a) cc)) in *.
    assert (QL : 17 / 100 <= q).
    { destruct (Rle_or_lt (17 / 100) q) as [X|X]; [exact X|exfalso]. assert (q * q < 17 / 100 * (17 / 100)) by (apply Rmult_le_0_lt_compat; lra). assert (0 <= sn * sn) by (apply Rmult_le_pos; lra). lra. }
    assert (NQ : near (A * H) (b64_sqrt disc) (2 * q) (28600 * u) 3).
    { pose proof (near_sqrt (A * H) _ _ _ _ (34 / 100) 3 ND SAH ltac:(lra) ltac:(nra) ltac:(small) ltac:(lra) ltac:(lra) ltac:(lra) ltac:(rewrite big100; small)) as M.
      rewrite sqrt_square in M by lra. eapply near_weak; [exact M|lra|reflexivity|small|lra]. }
    assert (N2A : near (2 * (A * A)) (b64_mult (b64_Z 2) a) 1 (1167 * u) 1).
    { assert (M : near (1 * (A * A)) (b64_mult (b64_Z 2) a) (2 * 1) (2333 * u) 2).
      { apply (mulu 1 (A * A) _ _ 0 2 _ _ 1165 1 2333 2 TWO NA); try lra. rewrite Rmult_1_l. exact SAA. }
      pose proof (near_rescale _ (/ 2) _ _ _ _ M ltac:(lra)) as M2. replace (1 * (A * A) / / 2) with (2 * (A * A)) in M2 by field.
      eapply near_weak; [exact M2|lra|field|lra|lra]. }
    assert (ND0 : nlt N64 disc (b64_Z 0) = false).
    { destruct ND as (FD & ED & _). apply Rabs_le_inv in ED. rewrite nlt_64 by (try exact FD; reflexivity). apply Rlt_bool_false. change (B2R (b64_Z 0)) with 0.
      assert (0 <= A * H * (A * H) * (2 * q * (2 * q) - 9520 * u)) by (apply Rmult_le_pos; nra). lra. }
    assert (SD : scaled (A * H / (2 * (A * A)))).
    { replace (A * H / (2 * (A * A))) with (H * c / 2) by (unfold A; field; lra). apply BIG. nra. }
    assert (TT : forall (x : b64) r, near (A * H) x r (29800 * u) 5 -> / 80 <= Rabs (r / 2) <= 5 / 2 ->
      near H (@len2 N64 (b64_div x (b64_mult (b64_Z 2) a)) (b64_mult (Bopp tn) (b64_div x (b64_mult (b64_Z 2) a)))) (Rabs (r / 2)) (15000000 * u) (5 / 2)).
    { intros x r Nx Hr.
      assert (M : near (A * H / (2 * (A * A))) (b64_div x (b64_mult (b64_Z 2) a)) r (35660 * u) 5)
        by (apply (divu2 (A * H) (2 * (A * A)) _ _ 29800 5 _ 1 1167 35660 5 Nx N2A eq_refl ltac:(lra) ltac:(lra) SD ltac:(lra) ltac:(lra) ltac:(small) ltac:(lra) ltac:(lra))).
      pose proof (near_rescale _ (/ 2) _ _ _ _ M ltac:(lra)) as M2.
      replace (A * H / (2 * (A * A)) / / 2) with (H * c) in M2 by (unfold A; field; lra).
      apply (range_64 H c sn _ tn _ SH SHH SHC HH ltac:(lra) SC NT); [|lra].
      eapply near_weak; [exact M2|apply (scale_pos _ SHC)|unfold Rdiv; ring|lra|lra]. }
    pose proof (near_opp _ _ _ _ _ NB) as NOB.
    assert (P1 : near (A * H) (b64_minus (Bopp b) (b64_sqrt disc)) (- (2 * sn) - 2 * q) (29800 * u) 5)
      by (apply (subu (A * H) _ _ 1184 2 _ _ 28600 3 29800 5 NOB NQ SAH); lra).
    assert (P2 : near (A * H) (b64_plus (Bopp b) (b64_sqrt disc)) (- (2 * sn) + 2 * q) (29800 * u) 5)
      by (apply (addu (A * H) _ _ 1184 2 _ _ 28600 3 29800 5 NOB NQ SAH); lra).
    assert (RHO : / 80 <= q - sn).
    { assert ((q - sn) * (q + sn) = g) by nra. assert (q + sn <= 245 / 100) by nra. assert (0 < q + sn) by lra. nra. }
    assert (A1 : Rabs ((- (2 * sn) - 2 * q) / 2) = sn + q) by (rewrite <- Rabs_Ropp, Rabs_pos_eq; lra).
    assert (A2 : Rabs ((- (2 * sn) + 2 * q) / 2) = q - sn) by (rewrite Rabs_pos_eq; lra).
    pose proof (TT _ _ P1 ltac:(rewrite A1; lra)) as L1. pose proof (TT _ _ P2 ltac:(rewrite A2; lra)) as L2. rewrite A1 in L1. rewrite A2 in L2.
    set (t1 := b64_div (b64_minus (Bopp b) (b64_sqrt disc)) (b64_mult (b64_Z 2) a)) in *.
    set (t2 := b64_div (b64_plus (Bopp b) (b64_sqrt disc)) (b64_mult (b64_Z 2) a)) in *.
    assert (CORE : @GetCutoffDistance N64 (@mkLeoLoss N64 (@SetElevationAngle N64 e) atm fspl mar) s =
      if nlt N64 disc (b64_Z 0) then Bopp (b64_Z 1) else
      b64_fmin (@len2 N64 t1 (b64_mult (Bopp tn) t1)) (@len2 N64 t2 (b64_mult (Bopp tn) t2))) by reflexivity.
    rewrite CORE, ND0.
    set (n1 := @len2 N64 t1 (b64_mult (Bopp tn) t1)) in *. set (n2 := @len2 N64 t2 (b64_mult (Bopp tn) t2)) in *.
    destruct L1 as (F1 & E1 & _). destruct L2 as (F2 & E2 & _). clearbody n1 n2.
    assert (SL : slant_range Rad H al = H * (q - sn)).
    { unfold slant_range. fold sn. replace (H * sn * (H * sn) + H * H - Rad * Rad) with (H * q * (H * q)).
      - rewrite sqrt_square by nra. ring.
      - replace (H * q * (H * q)) with (H * H * (q * q)) by ring. rewrite QQ. unfold g, rho. field. lra. }
    rewrite SL. apply Rabs_le_inv in E1. apply Rabs_le_inv in E2 as E2'.
    assert (HSN : 0 <= H * sn) by nra.
    assert (FM : b64_fmin n1 n2 = if Rlt_bool (B2R n2) (B2R n1) then n2 else n1).
    { unfold b64_fmin. rewrite <- (Bltb_correct 53 1024 n2 n1 F2 F1). destruct n1; try discriminate F1; destruct n2; try discriminate F2; reflexivity. }
    rewrite FM. case Rlt_bool_spec; intros L.
    - split; [exact F2|exact E2].
    - split; [exact F1|]. apply Rabs_le. lra.
  Qed.

  Lemma vdist_64 : forall a b : vec N64, finite_vec a -> finite_vec b -> 1 <= distance (reals a) (reals b) <= 10000000000 ->
    near (distance (reals a) (reals b)) (vdist a b) 1 (15 * u) 1.
  Proof.
    intros a b (A1 & A2 & A3) (B1 & B2 & B3) HD. set (D := distance (reals a) (reals b)) in *.
    assert (SD : scaled D) by (apply scale_mid2; lra).
    assert (SDD : scaled (D * D)).
    { apply scale_of.
      - apply Rle_trans with (bpow radix2 0); [apply bpow_le; lia|change (bpow radix2 0) with 1; nra].
      - apply Rle_trans with (bpow radix2 100); [rewrite big100; nra|apply bpow_le; lia]. }
    destruct (coord_le (minus (reals b) (reals a))) as (C1 & C2 & C3). change (norm (minus (reals b) (reals a))) with D in C1, C2, C3.
    pose proof (unit_of (minus (reals b) (reals a)) ltac:(change (0 < D); lra)) as UN. change (norm (minus (reals b) (reals a))) with D in UN.
    eapply near_weak; [apply (length_64 fsin fcos ftan D (vsub b a) (px (minus (reals b) (reals a)) / D) (py (minus (reals b) (reals a)) / D) (pz (minus (reals b) (reals a)) / D) 1 SD SDD ltac:(lra))|lra|reflexivity|lra|lra]; [| | |exact UN].
    - apply (near_diff D (vx b) (vx a) B1 A1 C1 SD).
    - apply (near_diff D (vy b) (vy a) B2 A2 C2 SD).
    - apply (near_diff D (vz b) (vz a) B3 A3 C3 SD).
  Qed.

  Lemma leo_64 : forall (e atm fspl mar tx : b64) (g s : vec N64), is_finite e = true -> 0 <= B2R e <= 89 -> finite_vec g -> finite_vec s ->
    1 <= norm (reals g) -> norm (reals g) + 1 <= norm (reals s) -> Rad + 100000 <= norm (reals s) <= 2000000000 ->
    let m := @mkLeoLoss N64 (@SetElevationAngle N64 e) atm fspl mar in
    let H := norm (reals s) in
    let rng := slant_range Rad H (radians (B2R e)) in
    (distance (reals g) (reals s) <= rng - H / 100000000 -> @LeoCalcRxPower N64 m tx g s = b64_minus (b64_minus (b64_minus tx atm) fspl) mar) /\
    (rng + H / 100000000 <= distance (reals g) (reals s) -> @LeoCalcRxPower N64 m tx g s = Bopp (b64_Z 1000)).
  Proof.
    intros e atm fspl mar tx g s Fe He Fg Fs HG1 HG HS m H rng. pose proof u_pos as U0.
    destruct (cutoff_64 e atm fspl mar s Fe He Fs HS) as [FC EC]. fold m in FC, EC. fold H in EC. fold rng in EC.
    assert (TR : H - norm (reals g) <= distance (reals g) (reals s) <= H + norm (reals g)).
    { unfold distance. pose proof (norm_sq (minus (reals s) (reals g))) as E. pose proof (norm_sq (reals s)) as E1. pose proof (norm_sq (reals g)) as E2.
      pose proof (norm_nonneg (minus (reals s) (reals g))) as P0. pose proof (norm_nonneg (reals g)) as P1.
      pose proof (cauchy (reals s) (reals g)) as CS. apply Rabs_le_inv in CS.
      assert (EX : inner (minus (reals s) (reals g)) (minus (reals s) (reals g)) =
        inner (reals s) (reals s) - 2 * inner (reals s) (reals g) + inner (reals g) (reals g)) by (unfold inner, minus, pt, px, py, pz; cbn; toR; ring).
      fold H in E1, CS. rewrite EX, <- E1, <- E2 in E. set (d := norm (minus (reals s) (reals g))) in *. set (n := norm (reals g)) in *.
      assert ((H - n) * (H - n) <= d * d <= (H + n) * (H + n)) by lra. fold H in HG, HS. clear - P0 P1 H0 HG HS. split; nra. }
    set (D := distance (reals g) (reals s)) in *.
    pose proof (norm_nonneg (reals g)) as P1. fold H in HG, HS.
    destruct (vdist_64 g s Fg Fs ltac:(fold D; lra)) as (FD & ED & _). fold D in ED.
    destruct (vlen_64 fsin fcos ftan s Fs ltac:(fold H; lra)) as (FH & EH & _). fold H in EH.
    assert (SAT : (if nlt N64 (vlen s) (vlen g) then g else s) = s).
    { destruct (vlen_64 fsin fcos ftan g Fg ltac:(lra)) as (FG & EG & _).
      rewrite nlt_64 by assumption. rewrite Rlt_bool_false; [reflexivity|]. apply Rabs_le_inv in EG, EH.
      assert (H * u <= 2000000000 * u) by (apply Rmult_le_compat_r; lra). assert (norm (reals g) * u <= 2000000000 * u) by (apply Rmult_le_compat_r; lra).
      unfold u in *. lra. }
    assert (CORE : @LeoCalcRxPower N64 m tx g s = if nlt N64 (GetCutoffDistance m (if nlt N64 (vlen s) (vlen g) then g else s)) (vdist g s) then Bopp (b64_Z 1000)
      else b64_minus (b64_minus (b64_minus tx atm) fspl) mar) by reflexivity.
    rewrite SAT in CORE. rewrite CORE, nlt_64 by assumption. clear CORE SAT.
    apply Rabs_le_inv in EC, ED. assert (DU : D * (15 * u) <= 4000000000 * (15 * u)) by (apply Rmult_le_compat_r; lra).
    split; intros HD.
    - rewrite Rlt_bool_false; [reflexivity|]. unfold u in *. lra.
    - rewrite Rlt_bool_true; [reflexivity|]. unfold u in *. lra.
  Qed.
End Leo.
