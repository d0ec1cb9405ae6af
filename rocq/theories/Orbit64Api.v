(** Satellites in doubles after a history of calls. *)
Require Import ZArith Reals Lra Lia Psatz List Bool.
From Flocq Require Import Core.Core IEEE754.BinarySingleNaN.
Require Import Verif.Base Verif.Num Verif.NumR Verif.Num64 Verif.Vec Verif.OrbitModel Verif.MobilityModel
  Verif.GeomSpec Verif.OrbitSpec Verif.MobilitySpec Verif.Float64Spec
  Verif.LossProofs Verif.OrbitProofs Verif.MobilityProofs Verif.Alloc64Proofs Verif.Read64Proofs Verif.Float64Proofs Verif.Orbit64Proofs.
Import ListNotations.

(** ** The instant of the cached position lies in the life of the object *)
Section Since.
  Variable N : Num.
  Variable junk : vec N.
  Local Open Scope Z_scope.
  Definition since (t0 : Z) (s : mob N) : Prop :=
    future N s /\ exists o t, orbit_of s = Some o /\ t0 <= t <= s_now s /\ m_position s = CalcPosition o t t.

  Lemma step_future : forall (s : mob N) op s', future N s -> mstep junk s op = Ok s' -> future N s' /\ s_now s <= s_now s'.
  Proof.
    intros s op s' Hf H.
    destruct (is_setter op) eqn:Hs.
    - destruct (setter_shape N junk s op s' Hs H) as (s1 & -> & H1 & H2 & H3 & H4).
      unfold future. rewrite Update_pending, Update_now, H1, H2, H3. split; [|lia].
      destruct (Z.ltb_spec 0 (m_precision s)); [|exact Hf].
      apply Forall_app. split; [exact Hf|]. constructor; [lia|constructor].
    - destruct op as [p|h|i|p|t|]; try discriminate.
      + cbn in H. injection H as <-. split; [exact Hf|cbn; lia].
      + cbn in H. destruct (_ && _) eqn:E; injection H as <-; [|split; [exact Hf|lia]].
        apply andb_true_iff in E. destruct E as [E1 E2]. apply Z.leb_le in E1.
        split; [|exact E1]. unfold future; cbn.
        rewrite Forall_forall. rewrite forallb_forall in E2. intros x Hx.
        apply Z.leb_le, E2, Hx.
      + destruct (s_pending s) as [|x r] eqn:E.
        { cbn in H. rewrite E in H. injection H as <-. split; [exact Hf|lia]. }
        destruct (fire_shape N junk s s' H) as (t & Hin & Hmin & ->); [congruence|].
        assert (Hfut : forall y, In y (s_pending s) -> s_now s <= y) by (apply Forall_forall; exact Hf).
        unfold future. rewrite Update_pending, Update_now; cbn [s_now set_now set_pending s_pending m_precision].
        split; [|apply Hfut, Hin].
        assert (Hrem : Forall (fun y => t <= y) (remove_one t (s_pending s))).
        { apply Forall_forall. intros y Hy. rewrite Forall_forall in Hmin. apply Hmin.
          apply (Permutation.Permutation_in (l := t :: remove_one t (s_pending s))).
          - symmetry. apply remove_one_perm, Hin.
          - right; exact Hy. }
        destruct (Z.ltb_spec 0 (m_precision s)); [|exact Hrem].
        apply Forall_app. split; [exact Hrem|]. constructor; [lia|constructor].
  Qed.

  Lemma Update_since : forall t0 s o, orbit_of s = Some o -> t0 <= s_now s -> future N (fst (Update junk s)) -> since t0 (fst (Update junk s)).
  Proof.
    intros t0 s o Ho H F. split; [exact F|]. exists o, (s_now s).
    rewrite Update_orbit, Update_now, (Update_position N junk s o Ho). repeat split; auto. lia.
  Qed.

  Lemma step_since : forall t0 s op s', since t0 s -> mstep junk s op = Ok s' -> since t0 s'.
  Proof.
    intros t0 s op s' [HF HC] H.
    destruct (step_future s op s' HF H) as [HF' HN].
    assert (Ho : orbit_of s <> None) by (destruct HC as (o & t & E & _); congruence).
    pose proof (mstep_initialised N junk s op s' Ho H) as Ho'.
    assert (HT : t0 <= s_now s) by (destruct HC as (o & t & _ & E & _); lia).
    destruct (is_setter op) eqn:Hs.
    - destruct (setter_shape N junk s op s' Hs H) as (s1 & -> & E1 & _).
      rewrite Update_orbit in Ho'. destruct (orbit_of s1) as [o|] eqn:E; [|congruence].
      apply (Update_since t0 s1 o E); [lia|exact HF'].
    - destruct op as [p|h|i|p|t|]; try discriminate.
      + cbn in H. injection H as <-. split; [exact HF'|exact HC].
      + cbn in H. destruct (_ && _) eqn:E; injection H as <-; [|split; [exact HF'|exact HC]].
        split; [exact HF'|]. destruct HC as (o & u & A & B & C). exists o, u. cbn in *. repeat split; auto; lia.
      + destruct (s_pending s) as [|x r] eqn:E.
        { cbn in H. rewrite E in H. injection H as <-. split; [exact HF|exact HC]. }
        destruct (fire_shape N junk s s' H) as (t & Hin & _ & ->); [congruence|].
        destruct HC as (o & u & A & _). rewrite Update_now in HN. apply (Update_since t0 _ o); [exact A|lia|exact HF'].
  Qed.
  Lemma run_since : forall t0 ops s s', since t0 s -> mrun junk s ops = Ok s' -> since t0 s'.
  Proof.
    induction ops as [|op r IH]; intros s s' HC H; cbn in H.
    - injection H as <-. exact HC.
    - destruct (mstep junk s op) as [s1| |] eqn:E; cbn in H; try discriminate.
      eapply IH; [|exact H]. eapply step_since; eauto.
  Qed.
  Lemma reached_since : forall now0 alt incl prec ops s, reached junk now0 alt incl prec ops s ->
    exists t, now0 <= t <= s_now s /\ (m_precision s = 0 -> t = s_now s) /\
      DoGetPosition junk s =
      CalcPosition (mkOrbit (HeightOf (last_altitude alt ops)) (RadiansOf (last_inclination incl ops))
                            (fst (last_start (nZ N 0, nZ N 0) ops)) (snd (last_start (nZ N 0, nZ N 0) ops))) t t.
  Proof.
    intros now0 alt incl prec ops s H.
    pose proof (reached_orbit _ _ _ _ _ _ _ _ H) as Ho.
    destruct (reached_start _ _ _ _ _ _ _ _ H) as (s0 & R & _ & _ & _ & _ & _ & T & Q & _ & _ & o0 & O0 & P0).
    assert (C0 : since now0 s0).
    { split; [unfold future; rewrite Q; constructor|]. exists o0, now0. rewrite T. repeat split; auto; lia. }
    destruct (run_since now0 ops s0 s C0 R) as (_ & o & t & A & B & C).
    rewrite Ho in A. injection A as <-. unfold DoGetPosition, position_now. rewrite Ho.
    destruct (Z.eqb_spec (m_precision s) 0) as [E|E].
    - exists (s_now s). repeat split; auto; lia.
    - exists t. repeat split; auto; lia.
  Qed.
End Since.

Local Open Scope R_scope.
(** ** The attributes *)
Section Attributes.
  Variables fsin fcos ftan : b64 -> b64.
  Local Notation N64 := (Num64 fsin fcos ftan).

  Lemma scale_mid2 : forall k, / 1000000 <= k <= 2000000000000 -> Float64Proofs.scale k.
  Proof.
    intros k Hk. apply scale_of.
    - apply Rle_trans with (bpow radix2 (-50)); [apply bpow_le; lia|change (bpow radix2 (-50)) with (/ 1125899906842624); lra].
    - apply Rle_trans with (bpow radix2 63); [change (bpow radix2 63) with 9223372036854775808; lra|apply bpow_le; lia].
  Qed.

  Lemma height_64 : forall a : b64, is_finite a = true -> 0 <= B2R a <= 1000000 ->
    near (earth_radius_km + B2R a) (@HeightOf N64 a) 1 (4 * u) 1.
  Proof.
    intros a F H. pose proof u_pos as U0. set (h := earth_radius_km + B2R a).
    assert (Hh : 6371 <= h <= 1006372) by (unfold h, earth_radius_km; lra).
    assert (I0 : 0 < / h <= / 6371) by (split; [apply Rinv_0_lt_compat; lra|apply Rinv_le_contravar; lra]).
    pose proof (near_rescale _ (/ h) _ _ _ _ (near_radius fsin fcos ftan) (proj1 I0)) as N1.
    pose proof (near_self a (B2R a) F ltac:(rewrite Rabs_pos_eq; lra)) as N0.
    pose proof (near_rescale _ (/ h) _ _ _ _ N0 (proj1 I0)) as N2.
    replace (1 / / h) with h in N1, N2 by (field; lra).
    rewrite Rmult_0_r in N2. rewrite <- (Rmult_0_l u) in N2.
    replace (/ h * (6372 * u)) with (/ h * 6372 * u) in N1 by ring.
    assert (B1 : 0 < / h * 6372 <= 6372 / 6371) by (split; [apply Rmult_lt_0_compat; lra|unfold Rdiv; rewrite Rmult_comm; apply Rmult_le_compat_l; lra]).
    assert (B2 : / h * B2R a <= 1).
    { apply Rmult_le_reg_l with h; [lra|]. rewrite <- Rmult_assoc, Rinv_r by lra. unfold h, earth_radius_km. lra. }
    assert (N2' : near h a (/ h * B2R a) (0 * u) 1) by (eapply near_weak; [exact N2|lra|reflexivity|lra|lra]).
    unfold HeightOf. cbn [nadd Num64].
    apply near_bound with (B := 3); [|rewrite Rabs_R1; lra].
    eapply near_weak; [apply (addu h _ _ _ _ _ _ _ _ 4 3 N1 N2')|lra| |lra|lra].
    - apply scale_mid2. lra.
    - lra.
    - small.
    - lra.
    - lra.
    - unfold h, earth_radius_km. field. unfold h, earth_radius_km in Hh. lra.
  Qed.

  Lemma radians_64 : forall i : b64, is_finite i = true -> Rabs (B2R i) <= 360 ->
    near 1 (@RadiansOf N64 i) (B2R i * PI / 180) (20 * u) 8.
  Proof.
    intros i F H. pose proof u_pos as U0.
    assert (N0 : near 1 i (B2R i) (0 * u) 360) by (rewrite Rmult_0_l; apply near_self; assumption).
    pose proof (near_exact 180 ltac:(lia)) as N2.
    pose proof (divu 1 180 _ _ 0 360 _ 1 0 361 360 N0 N2 eq_refl ltac:(lra) ltac:(lra) ltac:(apply scale_mid2; lra) ltac:(lra) ltac:(lra) ltac:(small) ltac:(lra) ltac:(lra)) as Q.
    pose proof (near_rescale _ (/ 180) _ _ _ _ Q ltac:(lra)) as Q'.
    replace (1 / 180 / / 180) with 1 in Q' by field.
    assert (Q2 : near 1 (b64_div i (b64_Z 180)) (B2R i / 180) (21 / 10 * u) 2) by (eapply near_weak; [exact Q'|lra|lra|small|lra]).
    unfold RadiansOf. cbn [nmul ndiv nZ npi Num64].
    apply near_l. eapply near_weak; [apply (mulu 1 1 _ _ (21 / 10) 2 _ _ 1 4 20 8 Q2 near_pi); try small; apply scale_l, scale_1|lra|lra|lra|lra].
  Qed.

  Local Notation rnd := (round radix2 (FLT_exp (-1074) 53) ZnearestE).
  Lemma radians_exact : forall i : b64, is_finite i = true -> Rabs (B2R i) <= 360 ->
    B2R (@RadiansOf N64 i) = rnd (rnd (B2R i / 180) * B2R b64_pi).
  Proof.
    intros i F H. destruct b180_R as [E180 F180]. destruct pi64_3 as [P1 P2]. destruct pi64_R as [_ FP].
    assert (M : forall y, Rabs y <= 1024 -> Rabs (rnd y) < bpow radix2 1024).
    { intros y Hy. apply (rnd_small y 1024); [|exact Hy]. split.
      - apply Rle_trans with (bpow radix2 0); [apply bpow_le; lia|cbn; lra].
      - change 1024 with (bpow radix2 10). apply bpow_le. lia. }
    assert (A1 : Rabs (B2R i / 180) <= 2).
    { unfold Rdiv. rewrite Rabs_mult, (Rabs_pos_eq (/ 180)) by lra. lra. }
    unfold RadiansOf. cbn [nmul ndiv nZ npi Num64].
    pose proof (Bdiv_correct 53 1024 b64_prec_gt_0 b64_prec_lt_emax mode_NE i (b64_Z 180) ltac:(rewrite E180; lra)) as C. cbn [round_mode] in C.
    change (round radix2 (SpecFloat.fexp 53 1024) ZnearestE) with rnd in C. rewrite E180 in C. rewrite Rlt_bool_true in C by (apply M; lra).
    destruct C as (V & FV & _). fold (b64_div i (b64_Z 180)) in V, FV. rewrite F in FV.
    assert (A2 : Rabs (rnd (B2R i / 180)) <= 2).
    { apply abs_round_le_generic; [typeclasses eauto|typeclasses eauto| |exact A1].
      change 2 with (bpow radix2 1). apply generic_format_bpow. cbn. lia. }
    pose proof (Bmult_correct 53 1024 b64_prec_gt_0 b64_prec_lt_emax mode_NE (b64_div i (b64_Z 180)) b64_pi) as C. cbn [round_mode] in C.
    change (round radix2 (SpecFloat.fexp 53 1024) ZnearestE) with rnd in C. rewrite V in C. rewrite Rlt_bool_true in C.
    - destruct C as (V2 & _). exact V2.
    - apply M. rewrite Rabs_mult, (Rabs_pos_eq (B2R b64_pi)) by lra. nra.
  Qed.

  (** The direction of flight turns exactly above 90 degrees. *)
  Lemma direction_64 : forall i : b64, is_finite i = true -> Rabs (B2R i) <= 360 ->
    (PI / 2 < B2R (@RadiansOf N64 i) <-> 90 < B2R i).
  Proof.
    intros i F H. pose proof PI_64 as P. destruct pi64_3 as [P1 P2].
    assert (MON : forall a b, a <= b -> rnd (rnd (a / 180) * B2R b64_pi) <= rnd (rnd (b / 180) * B2R b64_pi)).
    { intros a b L. apply round_le; [typeclasses eauto|typeclasses eauto|]. apply Rmult_le_compat_r; [lra|].
      apply round_le; [typeclasses eauto|typeclasses eauto|lra]. }
    rewrite (radians_exact i F H). split; intros L.
    - destruct (Rle_or_lt (B2R i) 90) as [G|G]; [exfalso|exact G]. pose proof (MON _ _ G) as Q.
      assert (E : rnd (rnd (90 / 180) * B2R b64_pi) = B2R b64_pi / 2).
      { destruct (Z_exact_64 90) as [E9 F9]; [lia|].
        rewrite <- E9, <- (radians_exact (b64_Z 90) F9) by (rewrite E9, Rabs_pos_eq; lra).
        destruct pi64_R as [-> _]. rewrite <- SF2R_B2SF.
        replace (B2SF (@RadiansOf N64 (b64_Z 90))) with (SpecFloat.S754_finite false 7074237752028440 (-52)) by (vm_compute; reflexivity).
        unfold SF2R, F2R. cbn [Fnum Fexp cond_Zopp].
        change (bpow radix2 (-52)) with (/ 4503599627370496). change (bpow radix2 (-48)) with (/ 281474976710656). lra. }
      rewrite E in Q. lra.
    - set (s := binary_normalize 53 1024 b64_prec_gt_0 b64_prec_lt_emax mode_NE (90 * 2 ^ 46 + 1) (-46) false : b64).
      assert (FS : is_finite s = true) by (vm_compute; reflexivity).
      assert (ES : B2R s = 90 + / 70368744177664).
      { rewrite <- SF2R_B2SF. replace (B2SF s) with (SpecFloat.S754_finite false 6333186975989761 (-46)) by (vm_compute; reflexivity).
        unfold SF2R, F2R. cbn [Fnum Fexp cond_Zopp]. change (bpow radix2 (-46)) with (/ 70368744177664). lra. }
      assert (LS : B2R s <= B2R i).
      { assert (S : succ radix2 (SpecFloat.fexp 53 1024) 90 <= B2R i).
        { apply succ_le_lt; [apply fexp_valid| |apply generic_format_B2R|exact L].
          destruct (Z_exact_64 90) as [<- _]; [lia|]. apply generic_format_B2R. }
        rewrite succ_eq_pos in S by lra. rewrite ulp_neq_0 in S by lra. unfold cexp in S.
        assert (M : mag radix2 90 = 7%Z :> Z).
        { apply mag_unique. rewrite Rabs_pos_eq by lra. change (bpow radix2 (7 - 1)) with 64. change (bpow radix2 7) with 128. lra. }
        rewrite M in S. change (bpow radix2 (SpecFloat.fexp 53 1024 7)) with (/ 70368744177664) in S. lra. }
      eapply Rlt_le_trans; [|apply (MON _ _ LS)].
      rewrite <- (radians_exact s FS) by (rewrite ES, Rabs_pos_eq; lra).
      rewrite <- SF2R_B2SF. destruct pi64_R as [EP _]. rewrite EP in P. change (bpow radix2 (-48)) with (/ 281474976710656) in P.
      replace (B2SF (@RadiansOf N64 s)) with (SpecFloat.S754_finite false 7074237752028442 (-52)) by (vm_compute; reflexivity).
      unfold SF2R, F2R. cbn [Fnum Fexp cond_Zopp]. change (bpow radix2 (-52)) with (/ 4503599627370496). unfold u in P. lra.
  Qed.
End Attributes.

(** ** How the trajectory depends on its parameters *)
Lemma circle_lip_incl : forall i i' l t, let C := circle_point 1 i l t in let C' := circle_point 1 i' l t in
  within (Rabs (i - i')) C C'.
Proof.
  intros i i' l t C C'. unfold C, C', circle_point, within. cbn [px py pz pt vx vy vz].
  pose proof (sin_lip i i') as S1. pose proof (cos_lip i i') as S2.
  destruct (unit_abs l), (unit_abs t). pose proof (Rabs_pos (i - i')).
  assert (X : forall a b d, Rabs a <= 1 -> Rabs b <= 1 -> Rabs d <= Rabs (i - i') -> Rabs (a * b * d) <= Rabs (i - i')).
  { intros a b d Ha Hb Hd. rewrite !Rabs_mult. pose proof (Rabs_pos a). pose proof (Rabs_pos b). pose proof (Rabs_pos d).
    assert (Rabs a * Rabs b <= 1 * 1) by (apply Rmult_le_compat; assumption).
    assert (Rabs a * Rabs b * Rabs d <= 1 * 1 * Rabs (i - i')) by (apply Rmult_le_compat; try assumption; apply Rmult_le_pos; assumption). lra. }
  split; [|split].
  - replace (_ - _) with (cos t * cos l * (cos i - cos i')) by ring. apply X; assumption.
  - replace (_ - _) with (cos t * sin l * (cos i - cos i')) by ring. apply X; assumption.
  - replace (_ - _) with (cos t * 1 * (sin i - sin i')) by ring. apply X; try assumption. rewrite Rabs_R1. lra.
Qed.

Lemma inv_sqrt_lip : forall h k, 1 <= h -> Rabs (k - h) <= h * (4 * u) -> Rabs (/ sqrt k - / sqrt h) <= / sqrt h * (41 / 10 * u) /\ / sqrt k <= / sqrt h * (1001 / 1000).
Proof.
  intros h k Hh Hk. pose proof u_pos as U0. apply Rabs_le_inv in Hk.
  assert (HU : h * (4 * u) <= / 1000000 * h) by (unfold u; lra).
  assert (S0 : 0 < sqrt h) by (apply sqrt_lt_R0; lra).
  assert (S1 : 9999 / 10000 * sqrt h <= sqrt k).
  { rewrite <- (sqrt_square (9999 / 10000)) by lra. rewrite <- sqrt_mult by lra. apply sqrt_le_1_alt. lra. }
  assert (I : / sqrt k <= / sqrt h * (1001 / 1000)).
  { apply Rmult_le_reg_l with (sqrt k); [lra|]. rewrite Rinv_r by lra.
    apply Rmult_le_reg_l with (sqrt h); [lra|]. replace (sqrt h * (sqrt k * (/ sqrt h * (1001 / 1000)))) with (sqrt k * (1001 / 1000)) by (field; lra). lra. }
  split; [|exact I].
  assert (D : Rabs (sqrt k - sqrt h) <= sqrt h * (4 * u)).
  { assert (P : (sqrt k - sqrt h) * (sqrt k + sqrt h) = k - h).
    { replace ((sqrt k - sqrt h) * (sqrt k + sqrt h)) with (sqrt k * sqrt k - sqrt h * sqrt h) by ring. rewrite !sqrt_sqrt by lra. ring. }
    apply Rmult_le_reg_r with (sqrt h); [exact S0|].
    apply Rle_trans with (Rabs (sqrt k - sqrt h) * (sqrt k + sqrt h)).
    - apply Rmult_le_compat_l; [apply Rabs_pos|lra].
    - rewrite <- (Rabs_pos_eq (sqrt k + sqrt h)) by lra. rewrite <- Rabs_mult, P.
      replace (sqrt h * (4 * u) * sqrt h) with (sqrt h * sqrt h * (4 * u)) by ring. rewrite sqrt_sqrt by lra. apply Rabs_le. lra. }
  replace (/ sqrt k - / sqrt h) with (- ((sqrt k - sqrt h) * (/ sqrt k * / sqrt h))) by (field; lra).
  rewrite Rabs_Ropp, Rabs_mult. assert (IK : 0 < / sqrt k) by (apply Rinv_0_lt_compat; lra). assert (IH : 0 < / sqrt h) by (apply Rinv_0_lt_compat; lra).
  rewrite (Rabs_pos_eq (/ sqrt k * / sqrt h)) by (apply Rmult_le_pos; lra).
  apply Rle_trans with (sqrt h * (4 * u) * (/ sqrt h * (1001 / 1000) * / sqrt h)).
  - apply Rmult_le_compat; [apply Rabs_pos|apply Rmult_le_pos; lra|exact D|apply Rmult_le_compat_r; lra].
  - replace (sqrt h * (4 * u) * (/ sqrt h * (1001 / 1000) * / sqrt h)) with (/ sqrt h * (4004 / 1000 * u)) by (field; lra).
    apply Rmult_le_compat_l; lra.
Qed.

Lemma GM_rate_bound : 0 < GM_rate <= 631500.
Proof.
  unfold GM_rate. assert (0 < sqrt 39.8600436 <= 6315 / 1000).
  { split; [apply sqrt_lt_R0; lra|]. rewrite <- (sqrt_square (6315 / 1000)) by lra. apply sqrt_le_1_alt. lra. }
  lra.
Qed.

Lemma trajectory_lip : forall h k i j lon off t T, 1 <= h -> Rabs (k - h) <= h * (4 * u) -> Rabs (j - i) <= 20 * u ->
  (PI / 2 < j <-> PI / 2 < i) -> Rabs (IZR t) <= T ->
  within (1000 * h * ((25 + 83 / 100 * (T / 1000000000 / sqrt h)) * u))
    (trajectory k j lon off (sec t)) (trajectory h i lon off (sec t)).
Proof.
  intros h k i j lon off t T Hh Hk Hj HD HT. pose proof u_pos as U0.
  destruct (inv_sqrt_lip h k Hh Hk) as [I1 _]. assert (Hk' := Hk). apply Rabs_le_inv in Hk'.
  assert (HU : h * (4 * u) <= / 1000000 * h) by (unfold u; lra).
  assert (S0 : 0 < sqrt h) by (apply sqrt_lt_R0; lra). assert (S1 : 0 < sqrt k) by (apply sqrt_lt_R0; lra).
  assert (IH : 0 < / sqrt h) by (apply Rinv_0_lt_compat; lra).
  unfold trajectory. set (lam := lon + earth_rate * sec t). set (th := angular_rate h i * sec t + off). set (th' := angular_rate k j * sec t + off).
  set (W := T / 1000000000 / sqrt h).
  assert (W0 : 0 <= W) by (unfold W, Rdiv; apply Rmult_le_pos; [pose proof (Rabs_pos (IZR t)); lra|lra]).
  assert (DT : Rabs (th' - th) <= 407 / 1000 * W * u).
  { assert (E : th' - th = (if Rlt_dec (PI / 2) i then -1 else 1) * ((/ sqrt k - / sqrt h) * (GM_rate / 6371009) * (IZR t / 1000000000))).
    { unfold th', th, angular_rate, circular_speed, sec, GM_rate, earth_radius_km.
      replace (sqrt (39.8600436 / h)) with (sqrt 39.8600436 / sqrt h) by (rewrite sqrt_div_alt by lra; reflexivity).
      replace (sqrt (39.8600436 / k)) with (sqrt 39.8600436 / sqrt k) by (rewrite sqrt_div_alt by lra; reflexivity).
      destruct (Rlt_dec (PI / 2) j), (Rlt_dec (PI / 2) i); try tauto; field; lra. }
    rewrite E, Rabs_mult.
    replace (Rabs (if Rlt_dec (PI / 2) i then -1 else 1)) with 1
      by (destruct (Rlt_dec (PI / 2) i); [rewrite Rabs_left; lra|rewrite Rabs_R1; lra]).
    rewrite Rmult_1_l, !Rabs_mult. pose proof GM_rate_bound as G. rewrite (Rabs_pos_eq (GM_rate / 6371009)) by lra.
    assert (Q1 : Rabs (IZR t / 1000000000) <= T / 1000000000) by (unfold Rdiv; rewrite Rabs_mult, (Rabs_pos_eq (/ 1000000000)) by lra; lra).
    apply Rle_trans with (/ sqrt h * (41 / 10 * u) * (631500 / 6371009) * (T / 1000000000)).
    - apply Rmult_le_compat; [apply Rmult_le_pos; [apply Rabs_pos|lra]|apply Rabs_pos| |exact Q1].
      apply Rmult_le_compat; [apply Rabs_pos|lra|exact I1|lra].
    - replace (/ sqrt h * (41 / 10 * u) * (631500 / 6371009) * (T / 1000000000)) with ((41 / 10) * (631500 / 6371009) * (W * u)) by (unfold W; field; lra).
      assert (0 <= W * u) by (apply Rmult_le_pos; lra). lra. }
  pose proof (circle_lip j lam lam th' th) as (G1 & G2 & G3). pose proof (circle_lip_incl j i lam th) as (J1 & J2 & J3). cbv zeta in *.
  rewrite (Rminus_diag_eq lam lam), Rabs_R0 in G1, G2, G3 by reflexivity.
  set (A := circle_point 1 j lam th') in *. set (B := circle_point 1 j lam th) in *. set (C := circle_point 1 i lam th) in *.
  assert (EA : px (circle_point (1000 * k) j lam th') = 1000 * k * px A /\ py (circle_point (1000 * k) j lam th') = 1000 * k * py A /\ pz (circle_point (1000 * k) j lam th') = 1000 * k * pz A)
    by (unfold A, circle_point, px, py, pz, pt; cbn [vx vy vz]; repeat split; ring).
  assert (EC : px (circle_point (1000 * h) i lam th) = 1000 * h * px C /\ py (circle_point (1000 * h) i lam th) = 1000 * h * py C /\ pz (circle_point (1000 * h) i lam th) = 1000 * h * pz C)
    by (unfold C, circle_point, px, py, pz, pt; cbn [vx vy vz]; repeat split; ring).
  unfold within. destruct EA as (-> & -> & ->). destruct EC as (-> & -> & ->).
  assert (N1 : inner A A = 1).
  { assert (N : norm A = 1) by (unfold A; rewrite circle_norm; lra). rewrite <- (norm_sq A), N. ring. }
  unfold inner in N1.
  assert (FIN : forall a b c, a * a <= 1 -> Rabs (a - b) <= 2 * (0 + Rabs (th' - th)) -> Rabs (b - c) <= Rabs (j - i) ->
    Rabs (1000 * k * a - 1000 * h * c) <= 1000 * h * ((25 + 83 / 100 * W) * u)).
  { intros a b c Ha H1 H2. assert (Rabs a <= 1) by (apply Rabs_le; nra).
    replace (1000 * k * a - 1000 * h * c) with (1000 * (k - h) * a + 1000 * h * ((a - b) + (b - c))) by ring.
    eapply Rle_trans; [apply Rabs_triang|]. rewrite !Rabs_mult, (Rabs_pos_eq 1000), (Rabs_pos_eq h) by lra.
    assert (Rabs (k - h) * Rabs a <= h * (4 * u) * 1) by (apply Rmult_le_compat; auto using Rabs_pos).
    assert (Rabs (a - b + (b - c)) <= (20 + 82 / 100 * W) * u).
    { eapply Rle_trans; [apply Rabs_triang|].
      assert (0 <= W * u) by (apply Rmult_le_pos; lra). lra. }
    assert (h * Rabs (a - b + (b - c)) <= h * ((20 + 82 / 100 * W) * u)) by (apply Rmult_le_compat_l; lra).
    assert (0 <= h * (W * u)) by (apply Rmult_le_pos; [lra|apply Rmult_le_pos; lra]).
    assert (0 <= h * u) by (apply Rmult_le_pos; lra). lra. }
  split; [|split]; [apply (FIN _ (px B))|apply (FIN _ (py B))|apply (FIN _ (pz B))]; try assumption; nra.
Qed.

Lemma within_trans : forall a b p q r, within a p q -> within b q r -> within (a + b) p r.
Proof.
  intros a b p q r (A1 & A2 & A3) (B1 & B2 & B3).
  assert (T : forall x y z, Rabs (x - y) <= a -> Rabs (y - z) <= b -> Rabs (x - z) <= a + b).
  { intros x y z H1 H2. replace (x - z) with ((x - y) + (y - z)) by ring. eapply Rle_trans; [apply Rabs_triang|]. lra. }
  repeat split; eapply T; eassumption.
Qed.
Lemma within_le : forall a b p q, within a p q -> a <= b -> within b p q.
Proof. intros a b p q (A1 & A2 & A3) H. repeat split; lra. Qed.

(** Norms differ by at most twice the coordinate-wise distance. *)
Lemma norm_within : forall d p q, 0 <= d -> within d p q -> Rabs (norm p - norm q) <= 2 * d.
Proof.
  intros d p q D (A1 & A2 & A3).
  assert (T : forall a b, norm a <= norm b + norm (minus a b)).
  { intros a b. pose proof (norm_nonneg a). pose proof (norm_nonneg b). pose proof (norm_nonneg (minus a b)).
    pose proof (LeoLossProofs.cauchy b (minus a b)) as C. apply Rabs_le_inv in C.
    pose proof (norm_sq a). pose proof (norm_sq b). pose proof (norm_sq (minus a b)).
    assert (E : inner a a = inner b b + 2 * inner b (minus a b) + inner (minus a b) (minus a b))
      by (unfold inner, minus, pt, px, py, pz; cbn [vx vy vz]; ring).
    nra. }
  assert (N : forall a b, Rabs (px a - px b) <= d -> Rabs (py a - py b) <= d -> Rabs (pz a - pz b) <= d -> norm (minus a b) <= 2 * d).
  { intros a b H1 H2 H3. unfold norm. rewrite <- (sqrt_square (2 * d)) by lra. apply sqrt_le_1_alt.
    unfold inner, minus, pt, px, py, pz in *; cbn [vx vy vz] in *.
    apply Rabs_le_inv in H1, H2, H3. assert (S : forall x, - d <= x <= d -> x * x <= d * d) by (intros; nra).
    pose proof (S _ H1). pose proof (S _ H2). pose proof (S _ H3). nra. }
  pose proof (T p q). pose proof (T q p). pose proof (N p q A1 A2 A3).
  assert (norm (minus q p) <= 2 * d) by (apply N; rewrite Rabs_minus_sym; assumption).
  apply Rabs_le. lra.
Qed.

Section Api.
  Variables fsin fcos ftan : b64 -> b64.
  Hypothesis ACC : accurate fsin fcos.
  Local Notation N64 := (Num64 fsin fcos ftan).

  Lemma sqrt_6371 : forall h, 6371 <= h -> 798 / 10 <= sqrt h.
  Proof. intros h H. rewrite <- (sqrt_square (798 / 10)) by lra. apply sqrt_le_1_alt. lra. Qed.

  Lemma calc_64 : forall (alt incl lon off : b64) t (n : R),
    is_finite alt = true -> 0 <= B2R alt <= 1000000 -> is_finite incl = true -> Rabs (B2R incl) <= 360 ->
    is_finite lon = true -> Rabs (B2R lon) <= 10 -> is_finite off = true -> Rabs (B2R off) <= 10 ->
    1 <= n <= 100000 -> Rabs (IZR t) <= n * 86400000000000 ->
    let h := earth_radius_km + B2R alt in
    let P := @CalcPosition N64 (mkOrbit (@HeightOf N64 alt) (@RadiansOf N64 incl) lon off) t t in
    finite_vec P /\ Rabs (norm (reals P) - 1000 * h) <= 1000 * h / 10000000000000 /\
    within (1000 * h * n / 1000000000000) (reals P) (trajectory h (B2R incl * PI / 180) (B2R lon) (B2R off) (sec t)).
  Proof.
    intros alt incl lon off t n FA HA FI HI FL HL FO HO Hn HT h P. pose proof u_pos as U0.
    destruct (height_64 fsin fcos ftan alt FA HA) as (FH & EH & _). fold h in EH.
    destruct (radians_64 fsin fcos ftan incl FI HI) as (FR & ER & _).
    pose proof (direction_64 fsin fcos ftan incl FI HI) as DI.
    set (o := mkOrbit (@HeightOf N64 alt) (@RadiansOf N64 incl) lon off : orbit N64) in *.
    set (k := B2R (@HeightOf N64 alt)) in *. set (j := B2R (@RadiansOf N64 incl)) in *.
    rewrite Rmult_1_r in EH. rewrite !Rmult_1_l in ER. assert (EH' := EH). apply Rabs_le_inv in EH'.
    assert (Hh : 6371 <= h <= 1006372) by (unfold h, earth_radius_km; lra).
    assert (HU : h * (4 * u) <= / 1000000 * h) by (unfold u; lra).
    set (T := n * 86400000000000) in *.
    assert (T1 : 1 <= T <= bpow radix2 63) by (change (bpow radix2 63) with 9223372036854775808; unfold T; lra).
    assert (HD : PI / 2 < j <-> PI / 2 < B2R incl * PI / 180).
    { rewrite DI. pose proof PI_RGT_0. split; intros; nra. }
    pose proof (orbit_64 fsin fcos ftan ACC o t T 10 FH ltac:(cbn [o_height o]; fold k; lra) FR FL FO HL HO ltac:(lra) HT T1) as (F1 & F2 & F3 & SP & TR).
    cbn [o_height o_incl o_lon o_off o] in SP, TR. fold k j P in F1, F2, F3, SP, TR. cbv zeta in TR.
    split; [repeat split; assumption|]. split.
    - destruct SP as (lam & th & SP). cbv zeta in SP.
      assert (SW : within (1000 * k * (160 * u)) (reals P) (circle_point (1000 * k) j lam th)) by exact SP.
      apply norm_within in SW; [|apply Rmult_le_pos; lra]. rewrite circle_norm in SW by lra.
      replace (norm (reals P) - 1000 * h) with ((norm (reals P) - 1000 * k) + 1000 * (k - h)) by ring.
      eapply Rle_trans; [apply Rabs_triang|]. rewrite (Rabs_mult 1000), (Rabs_pos_eq 1000) by lra.
      assert (1000 * k * (160 * u) <= 1001 * h * (160 * u)) by (apply Rmult_le_compat_r; lra).
      assert (h * u * 400000 <= 1000 * h / 10000000000000) by (unfold u; lra). lra.
    - pose proof (trajectory_lip h k (B2R incl * PI / 180) j (B2R lon) (B2R off) t T ltac:(lra) EH ER HD HT) as TL.
      eapply within_le; [eapply within_trans; [exact TR|exact TL]|].
      destruct (inv_sqrt_lip h k ltac:(lra) EH) as [_ IK].
      pose proof (sqrt_6371 h ltac:(lra)) as SQ.
      assert (IH : 0 < / sqrt h <= 10 / 798).
      { split; [apply Rinv_0_lt_compat; lra|]. replace (10 / 798) with (/ (798 / 10)) by field. apply Rinv_le_contravar; lra. }
      assert (W1 : T / 1000000000 / sqrt h <= 10828 / 10 * n).
      { replace (T / 1000000000 / sqrt h) with (86400 * n * / sqrt h) by (unfold T; field; lra).
        apply Rle_trans with (86400 * n * (10 / 798)); [apply Rmult_le_compat_l; lra|lra]. }
      assert (W2 : T / 1000000000 / sqrt k <= 10840 / 10 * n).
      { replace (T / 1000000000 / sqrt k) with (86400 * n * / sqrt k) by (unfold T; field; assert (0 < sqrt k) by (apply sqrt_lt_R0; lra); lra).
        apply Rle_trans with (86400 * n * (10 / 798 * (1001 / 1000))); [apply Rmult_le_compat_l; [lra|]|lra].
        apply Rle_trans with (1 := IK). apply Rmult_le_compat_r; lra. }
      assert (D1 : T / 86400000000000 = n) by (unfold T; field). rewrite D1.
      apply Rle_trans with (1000 * h * (4400 * n * u)).
      + apply Rle_trans with (1000 * h * (10001 / 10000) * ((200 + 4 * 0 + 112 * n + 28 / 10 * (10840 / 10 * n)) * u) + 1000 * h * ((25 + 83 / 100 * (10828 / 10 * n)) * u)).
        * apply Rplus_le_compat.
          { apply Rmult_le_compat; [lra| |lra|apply Rmult_le_compat_r; lra].
            apply Rmult_le_pos; [|lra]. assert (0 <= T / 1000000000 / sqrt k); [|lra].
            unfold Rdiv. apply Rmult_le_pos; [unfold T; lra|]. apply Rlt_le, Rinv_0_lt_compat, sqrt_lt_R0. lra. }
          { apply Rmult_le_compat_l; [lra|]. apply Rmult_le_compat_r; lra. }
        * assert (NU : 0 <= h * u) by (apply Rmult_le_pos; lra).
          assert (NN : h * u * 1 <= h * u * n) by (apply Rmult_le_compat_l; lra).
          lra.
      + assert (0 <= h * n) by (apply Rmult_le_pos; lra).
        replace (1000 * h * (4400 * n * u)) with (h * n * (4400000 * u)) by ring.
        replace (1000 * h * n / 1000000000000) with (h * n * (/ 1000000000)) by field.
        apply Rmult_le_compat_l; [assumption|]. unfold u. lra.
  Qed.

  Lemma circle_point_lip : forall r r' i i' l l' t t', 0 <= r -> 
    within (Rabs (r' - r) + r * (Rabs (i' - i) + 2 * (Rabs (l' - l) + Rabs (t' - t))))
      (circle_point r' i' l' t') (circle_point r i l t).
  Proof.
    intros r r' i i' l l' t t' Hr.
    pose proof (circle_lip i' l' l t' t) as (G1 & G2 & G3). pose proof (circle_lip_incl i' i l t) as (J1 & J2 & J3). cbv zeta in *.
    pose proof (circle_unit i' l' t') as CU. cbv zeta in CU.
    destruct (unit_coords _ _ _ CU) as (b1 & b2 & b3).
    set (A := circle_point 1 i' l' t') in *. set (B := circle_point 1 i' l t) in *. set (C := circle_point 1 i l t) in *.
    assert (EA : px (circle_point r' i' l' t') = r' * px A /\ py (circle_point r' i' l' t') = r' * py A /\ pz (circle_point r' i' l' t') = r' * pz A)
      by (unfold A, circle_point, px, py, pz, pt; cbn [vx vy vz]; repeat split; ring).
    assert (EC : px (circle_point r i l t) = r * px C /\ py (circle_point r i l t) = r * py C /\ pz (circle_point r i l t) = r * pz C)
      by (unfold C, circle_point, px, py, pz, pt; cbn [vx vy vz]; repeat split; ring).
    unfold within. destruct EA as (-> & -> & ->). destruct EC as (-> & -> & ->).
    assert (FIN : forall a b c, Rabs a <= 1 -> Rabs (a - b) <= 2 * (Rabs (l' - l) + Rabs (t' - t)) -> Rabs (b - c) <= Rabs (i' - i) ->
      Rabs (r' * a - r * c) <= Rabs (r' - r) + r * (Rabs (i' - i) + 2 * (Rabs (l' - l) + Rabs (t' - t)))).
    { intros a b c Ha H1 H2. replace (r' * a - r * c) with ((r' - r) * a + r * ((a - b) + (b - c))) by ring.
      eapply Rle_trans; [apply Rabs_triang|]. apply Rplus_le_compat.
      - rewrite Rabs_mult. pose proof (Rabs_pos (r' - r)). rewrite <- (Rmult_1_r (Rabs (r' - r))) at 2. apply Rmult_le_compat_l; assumption.
      - rewrite Rabs_mult, (Rabs_pos_eq r) by exact Hr. apply Rmult_le_compat_l; [exact Hr|].
        eapply Rle_trans; [apply Rabs_triang|]. lra. }
    split; [apply (FIN _ (px B))|split; [apply (FIN _ (py B))|apply (FIN _ (pz B))]]; assumption.
  Qed.

  Lemma GM_rate_low : 631000 <= GM_rate.
  Proof.
    unfold GM_rate. assert (631 / 100 <= sqrt 39.8600436); [|lra].
    rewrite <- (sqrt_square (631 / 100)) by lra. apply sqrt_le_1_alt. lra.
  Qed.
  Lemma speed_rate : forall h, 0 < h -> circular_speed h = GM_rate * / sqrt h.
  Proof. intros h H. unfold circular_speed, GM_rate. rewrite sqrt_div_alt by exact H. unfold Rdiv. ring. Qed.

  (** The velocity of the satellite whose position is current. *)
  Lemma velocity_api_64 : forall (alt incl lon off : b64) t (n : R),
    is_finite alt = true -> 0 <= B2R alt <= 1000000 -> is_finite incl = true -> Rabs (B2R incl) <= 360 ->
    is_finite lon = true -> Rabs (B2R lon) <= 10 -> is_finite off = true -> Rabs (B2R off) <= 10 ->
    1 <= n <= 100000 -> Rabs (IZR t) <= n * 86400000000000 ->
    let h := earth_radius_km + B2R alt in
    let i := B2R incl * PI / 180 in
    let o := mkOrbit (@HeightOf N64 alt) (@RadiansOf N64 incl) lon off in
    let V := @VelocityAt N64 o t (CalcPosition o t t) in
    finite_vec V /\ Rabs (norm (reals V) - circular_speed h) <= circular_speed h * 2 / 1000000000000 /\
    within (circular_speed h * n * 2 / 1000000000000) (reals V)
      (circle_point (circular_speed h) i (B2R lon + earth_rate * sec t) (angular_rate h i * sec t + B2R off + PI / 2)).
  Proof.
    intros alt incl lon off t n FA HA FI HI FL HL FO HO Hn HT h i o V. pose proof u_pos as U0.
    destruct (height_64 fsin fcos ftan alt FA HA) as (FH & EH & _). fold h in EH.
    destruct (radians_64 fsin fcos ftan incl FI HI) as (FR & ER & _). fold i in ER.
    pose proof (direction_64 fsin fcos ftan incl FI HI) as DI.
    set (k := B2R (@HeightOf N64 alt)) in *. set (j := B2R (@RadiansOf N64 incl)) in *.
    rewrite Rmult_1_r in EH. rewrite !Rmult_1_l in ER. assert (EH' := EH). apply Rabs_le_inv in EH'.
    assert (Hh : 6371 <= h <= 1006372) by (unfold h, earth_radius_km; lra).
    assert (HU : h * (4 * u) <= / 1000000 * h) by (unfold u; lra).
    set (T := n * 86400000000000) in *.
    assert (T1 : 1 <= T <= bpow radix2 63) by (change (bpow radix2 63) with 9223372036854775808; unfold T; lra).
    assert (HD : PI / 2 < j <-> PI / 2 < i).
    { rewrite DI. unfold i. pose proof PI_RGT_0. split; intros; nra. }
    pose proof (latitude_64 fsin fcos ftan o t T 10 FL HL ltac:(lra) HT T1) as (F1 & L1 & _).
    pose proof (progress_64 fsin fcos ftan o t T 10 FH ltac:(cbn [o_height o]; fold k; lra) FR FO HO ltac:(lra) HT T1) as (F2 & L2 & _).
    cbn [o_height o_incl o_lon o_off o] in L1, L2. fold k j in L2. cbv zeta in L2.
    change (mkOrbit (@HeightOf N64 alt) (@RadiansOf N64 incl) lon off) with o in F1, F2, L1, L2.
    set (lam := B2R (CalcLatitude o t)) in *. set (th := B2R (GetProgress o t)) in *. rewrite !Rmult_1_l in L1, L2.
    assert (NK : near (1000 * k) (b64_mult (o_height o) (b64_Z 1000)) 1 (1 * u) 1).
    { replace (1000 * k) with (k * 1000) by ring. replace 1 with (1 * 1) at 1 by ring.
      assert (NH : near k (o_height o) 1 (0 * u) 1).
      { split; [exact FH|]. cbn [o_height o]. fold k. split; [|rewrite Rabs_R1; lra]. replace (k - k * 1) with 0 by ring. rewrite Rabs_R0. lra. }
      apply (mulu k 1000 _ _ 0 1 _ _ 0 1 1 1 NH (near_exact 1000 ltac:(lia))); try small. apply scale_mid2. lra. }
    destruct NK as (FK & EK & _). set (K := B2R (b64_mult (o_height o) (b64_Z 1000))) in *.
    rewrite Rmult_1_r in EK. apply Rabs_le_inv in EK. assert (KU : 1000 * k * (1 * u) <= / 1000 * k) by (unfold u; lra).
    assert (SK : Float64Proofs.scale K) by (apply scale_mid2; lra).
    pose proof (position_64 fsin fcos ftan ACC o t t FK SK FR F1 F2) as (P1 & P2 & P3).
    fold K lam th in P1, P2, P3. cbn [o_incl o] in P1, P2, P3. fold j in P1, P2, P3.
    change (mkOrbit (@HeightOf N64 alt) (@RadiansOf N64 incl) lon off) with o in P1, P2, P3.
    pose proof (velocity_64 fsin fcos ftan ACC o t th K (CalcPosition o t t) FH ltac:(cbn [o_height o]; fold k; lra) FR F1 ltac:(lra) P1 P2 P3) as (V1 & V2 & V3).
    fold V in V1, V2, V3. cbn [o_height o_incl o] in V1, V2, V3. fold k j in V1, V2, V3.
    change (mkOrbit (@HeightOf N64 alt) (@RadiansOf N64 incl) lon off) with o in V1, V2, V3. fold lam in V1, V2, V3.
    split; [split; [apply V1|split; [apply V2|apply V3]]|].
    pose proof GM_rate_low as G0. pose proof GM_rate_bound as G1.
    destruct (inv_sqrt_lip h k ltac:(lra) EH) as [IL IK].
    pose proof (sqrt_6371 h ltac:(lra)) as SQ.
    assert (SQK : 0 < sqrt k) by (apply sqrt_lt_R0; lra).
    assert (IH : 0 < / sqrt h <= 10 / 798).
    { split; [apply Rinv_0_lt_compat; lra|]. replace (10 / 798) with (/ (798 / 10)) by field. apply Rinv_le_contravar; lra. }
    assert (IK0 : 0 < / sqrt k) by (apply Rinv_0_lt_compat; lra).
    assert (W1 : T / 1000000000 / sqrt h <= 10828 / 10 * n).
    { replace (T / 1000000000 / sqrt h) with (86400 * n * / sqrt h) by (unfold T; field; lra).
      apply Rle_trans with (86400 * n * (10 / 798)); [apply Rmult_le_compat_l; lra|lra]. }
    assert (W2 : T / 1000000000 / sqrt k <= 10840 / 10 * n).
    { replace (T / 1000000000 / sqrt k) with (86400 * n * / sqrt k) by (unfold T; field; lra).
      apply Rle_trans with (86400 * n * (10 / 798 * (1001 / 1000))); [apply Rmult_le_compat_l; [lra|]|lra].
      apply Rle_trans with (1 := IK). apply Rmult_le_compat_r; lra. }
    assert (SH : circular_speed h = GM_rate * / sqrt h) by (apply speed_rate; lra).
    assert (SKs : circular_speed k = GM_rate * / sqrt k) by (apply speed_rate; lra).
    set (vs := circular_speed h) in *. set (vk := circular_speed k) in *.
    assert (VS0 : 0 < vs) by (rewrite SH; apply Rmult_lt_0_compat; lra).
    assert (VD : Rabs (vk - vs) <= vs * (41 / 10 * u)).
    { rewrite SKs, SH. replace (GM_rate * / sqrt k - GM_rate * / sqrt h) with (GM_rate * (/ sqrt k - / sqrt h)) by ring.
      rewrite Rabs_mult, (Rabs_pos_eq GM_rate) by lra. rewrite Rmult_assoc. apply Rmult_le_compat_l; lra. }
    (* against the velocity for the angles computed *)
    assert (B1 : within (vs * (2310 * u)) (reals V) (circle_point vk j lam (th + PI / 2))).
    { assert (ST : forall (x : b64) c, near (1 / sqrt k) x (GM_rate * c) (1450000000 * u) 640000 -> Rabs (B2R x - vk * c) <= vs * (2310 * u)).
      { intros x c (_ & E & _). rewrite SKs. replace (GM_rate * / sqrt k * c) with (1 / sqrt k * (GM_rate * c)) by (field; lra).
        eapply Rle_trans; [exact E|]. rewrite SH. unfold Rdiv. rewrite Rmult_1_l.
        apply Rle_trans with (/ sqrt h * (1001 * / 1000) * (1450000000 * u)); [apply Rmult_le_compat_r; lra|].
        assert (0 <= / sqrt h * u) by (apply Rmult_le_pos; lra). nra. }
      assert (EA : px (circle_point vk j lam (th + PI / 2)) = vk * px (circle_point 1 j lam (th + PI / 2)) /\
        py (circle_point vk j lam (th + PI / 2)) = vk * py (circle_point 1 j lam (th + PI / 2)) /\
        pz (circle_point vk j lam (th + PI / 2)) = vk * pz (circle_point 1 j lam (th + PI / 2)))
        by (unfold circle_point, px, py, pz, pt; cbn [vx vy vz]; repeat split; ring).
      unfold within. destruct EA as (-> & -> & ->). split; [apply (ST (vx V)), V1|split; [apply (ST (vy V)), V2|apply (ST (vz V)), V3]]. }
    split.
    - assert (D0 : 0 <= vs * (2310 * u)) by (apply Rmult_le_pos; lra). pose proof (norm_within _ _ _ D0 B1) as NW.
      assert (0 <= vk) by (rewrite SKs; apply Rmult_le_pos; lra). rewrite circle_norm in NW by assumption.
      replace (norm (reals V) - vs) with ((norm (reals V) - vk) + (vk - vs)) by ring.
      eapply Rle_trans; [apply Rabs_triang|].
      assert (vs * u * 4625 <= vs * 2 / 1000000000000) by (unfold u; lra). lra.
    - set (l0 := B2R lon + earth_rate * sec t). set (t0 := angular_rate h i * sec t + B2R off).
      pose proof (circle_point_lip vs vk i j l0 lam (t0 + PI / 2) (th + PI / 2) ltac:(lra)) as CL.
      eapply within_le; [eapply within_trans; [exact B1|exact CL]|].
      assert (DL : Rabs (lam - l0) <= (10 + 56 * n) * u).
      { replace l0 with (B2R lon + 2 * PI * (IZR t / 86400000000000)) by (unfold l0, earth_rate, sec; field).
        replace (T / 86400000000000) with n in L1 by (unfold T; field). exact L1. }
      set (tk := angular_rate k j * sec t + B2R off) in *.
      assert (DK : Rabs (th - tk) <= (10 + 14 / 10 * (10840 / 10 * n)) * u).
      { eapply Rle_trans; [exact L2|]. apply Rmult_le_compat_r; lra. }
      assert (DT : Rabs (tk - t0) <= 407 / 1000 * (10828 / 10 * n) * u).
      { assert (E : tk - t0 = (if Rlt_dec (PI / 2) i then -1 else 1) * ((/ sqrt k - / sqrt h) * (GM_rate / 6371009) * (IZR t / 1000000000))).
        { unfold tk, t0, angular_rate. fold vk vs. rewrite SKs, SH. unfold sec, earth_radius_km.
          destruct (Rlt_dec (PI / 2) j), (Rlt_dec (PI / 2) i); try tauto; field; lra. }
        rewrite E, Rabs_mult.
        replace (Rabs (if Rlt_dec (PI / 2) i then -1 else 1)) with 1
          by (destruct (Rlt_dec (PI / 2) i); [rewrite Rabs_left; lra|rewrite Rabs_R1; lra]).
        rewrite Rmult_1_l, !Rabs_mult. rewrite (Rabs_pos_eq (GM_rate / 6371009)) by lra.
        assert (Q1 : Rabs (IZR t / 1000000000) <= T / 1000000000) by (unfold Rdiv; rewrite Rabs_mult, (Rabs_pos_eq (/ 1000000000)) by lra; lra).
        apply Rle_trans with (/ sqrt h * (41 / 10 * u) * (631500 / 6371009) * (T / 1000000000)).
        - apply Rmult_le_compat; [apply Rmult_le_pos; [apply Rabs_pos|lra]|apply Rabs_pos| |exact Q1].
          apply Rmult_le_compat; [apply Rabs_pos|lra|exact IL|lra].
        - replace (/ sqrt h * (41 / 10 * u) * (631500 / 6371009) * (T / 1000000000)) with ((41 / 10) * (631500 / 6371009) * (T / 1000000000 / sqrt h * u)) by (field; lra).
          assert (T / 1000000000 / sqrt h * u <= 10828 / 10 * n * u) by (apply Rmult_le_compat_r; lra).
          assert (0 <= n * u) by (apply Rmult_le_pos; lra). lra. }
      assert (DD : Rabs (th + PI / 2 - (t0 + PI / 2)) <= (10 + 14 / 10 * (10840 / 10 * n)) * u + 407 / 1000 * (10828 / 10 * n) * u).
      { replace (th + PI / 2 - (t0 + PI / 2)) with ((th - tk) + (tk - t0)) by ring. eapply Rle_trans; [apply Rabs_triang|]. lra. }
      apply Rle_trans with (vs * (2310 * u) + (vs * (41 / 10 * u) + vs * (20 * u + 2 * ((10 + 56 * n) * u + ((10 + 14 / 10 * (10840 / 10 * n)) * u + 407 / 1000 * (10828 / 10 * n) * u))))).
      + apply Rplus_le_compat_l. apply Rplus_le_compat; [exact VD|]. apply Rmult_le_compat_l; [lra|]. lra.
      + assert (N1 : vs * u <= vs * u * n) by (rewrite <- (Rmult_1_r (vs * u)) at 1; apply Rmult_le_compat_l; [apply Rmult_le_pos; lra|lra]).
        assert (N2 : 0 <= vs * n) by (apply Rmult_le_pos; lra).
        assert (N3 : 0 <= vs * n * u) by (apply Rmult_le_pos; lra).
        apply Rle_trans with (vs * n * (7000 * u)); [lra|].
        replace (vs * n * 2 / 1000000000000) with (vs * n * (2 / 1000000000000)) by field.
        apply Rmult_le_compat_l; [exact N2|]. unfold u. lra.
  Qed.
End Api.
