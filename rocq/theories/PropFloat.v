(** C75, C76: satellites in IEEE-754 doubles, for any sine and cosine with an
    absolute error of at most 2^-52. *)
Require Import ZArith Reals Lra Lia List.
From Flocq Require Import Core.Core IEEE754.BinarySingleNaN.
Require Import Verif.Base Verif.Num Verif.NumR Verif.Num64 Verif.Vec Verif.OrbitModel Verif.MobilityModel
  Verif.GeomSpec Verif.OrbitSpec Verif.MobilitySpec Verif.Float64Spec
  Verif.MobilityProofs Verif.Alloc64Proofs Verif.Float64Proofs Verif.Orbit64Proofs Verif.Orbit64Api.
Import ListNotations.
Local Open Scope R_scope.

(** What is asked of the numbers written: an altitude between 0 and 10^6 km, an
    inclination between -360 and 360 degrees, start angles between -10 and 10. *)
Definition sane (alt incl lon off : b64) : Prop :=
  is_finite alt = true /\ 0 <= B2R alt <= 1000000 /\ is_finite incl = true /\ Rabs (B2R incl) <= 360 /\
  is_finite lon = true /\ Rabs (B2R lon) <= 10 /\ is_finite off = true /\ Rabs (B2R off) <= 10.

(** ** C75 *)
Theorem C75_position_binary64 : forall fsin fcos ftan, accurate fsin fcos ->
  forall (junk : vec (Num64 fsin fcos ftan)) now0 (alt0 incl0 : b64) prec ops s (n : R),
  reached junk now0 (alt0 : num (Num64 fsin fcos ftan)) (incl0 : num (Num64 fsin fcos ftan)) prec ops s ->
  let alt : b64 := @last_altitude (Num64 fsin fcos ftan) alt0 ops in
  let incl : b64 := @last_inclination (Num64 fsin fcos ftan) incl0 ops in
  let lon : b64 := fst (@last_start (Num64 fsin fcos ftan) (b64_Z 0, b64_Z 0) ops) in
  let off : b64 := snd (@last_start (Num64 fsin fcos ftan) (b64_Z 0, b64_Z 0) ops) in
  sane alt incl lon off ->
  (0 <= now0)%Z -> 1 <= n <= 100000 -> IZR (s_now s) <= n * 86400000000000 ->
  let h := 6371.009 + B2R alt in
  let p := DoGetPosition junk s in
  finite_vec p /\
  Rabs (norm (reals p) - 1000 * h) <= 1000 * h / 10000000000000 /\
  exists t, (now0 <= t <= s_now s)%Z /\ (m_precision s = 0%Z -> t = s_now s) /\
    within (1000 * h * n / 1000000000000) (reals p)
      (trajectory h (B2R incl * PI / 180) (B2R lon) (B2R off) (sec t)).
Proof.
  intros fsin fcos ftan ACC junk now0 alt0 incl0 prec ops s n R alt incl lon off (A1 & A2 & I1 & I2 & L1 & L2 & O1 & O2) H0 Hn HT h p.
  destruct (reached_since _ junk now0 alt0 incl0 prec ops s R) as (t & Ht & HP & E).
  assert (HT' : Rabs (IZR t) <= n * 86400000000000).
  { rewrite Rabs_pos_eq by (apply IZR_le; lia). apply Rle_trans with (2 := HT). apply IZR_le. lia. }
  destruct (calc_64 fsin fcos ftan ACC alt incl lon off t n A1 A2 I1 I2 L1 L2 O1 O2 Hn HT') as (F & S & W).
  assert (EH : earth_radius_km + B2R alt = h) by (unfold earth_radius_km, h; lra).
  rewrite EH in S, W.
  assert (EP : p = @CalcPosition (Num64 fsin fcos ftan) (mkOrbit (@HeightOf (Num64 fsin fcos ftan) alt) (@RadiansOf (Num64 fsin fcos ftan) incl) lon off) t t) by exact E.
  rewrite EP. split; [exact F|]. split; [exact S|]. exists t. auto.
Qed.
Print Assumptions C75_position_binary64.

(** ** C76 *)
Theorem C76_velocity_binary64 : forall fsin fcos ftan, accurate fsin fcos ->
  forall (junk : vec (Num64 fsin fcos ftan)) now0 (alt0 incl0 : b64) prec ops s (n : R),
  reached junk now0 (alt0 : num (Num64 fsin fcos ftan)) (incl0 : num (Num64 fsin fcos ftan)) prec ops s ->
  m_precision s = 0%Z ->
  let alt : b64 := @last_altitude (Num64 fsin fcos ftan) alt0 ops in
  let incl : b64 := @last_inclination (Num64 fsin fcos ftan) incl0 ops in
  let lon : b64 := fst (@last_start (Num64 fsin fcos ftan) (b64_Z 0, b64_Z 0) ops) in
  let off : b64 := snd (@last_start (Num64 fsin fcos ftan) (b64_Z 0, b64_Z 0) ops) in
  sane alt incl lon off ->
  (0 <= now0)%Z -> 1 <= n <= 100000 -> IZR (s_now s) <= n * 86400000000000 ->
  let h := 6371.009 + B2R alt in
  let i := B2R incl * PI / 180 in
  let tau := sec (s_now s) in
  exists v, DoGetVelocity junk s = Some v /\ finite_vec v /\
    Rabs (norm (reals v) - circular_speed h) <= circular_speed h * 2 / 1000000000000 /\
    within (circular_speed h * n * 2 / 1000000000000) (reals v)
      (circle_point (circular_speed h) i (B2R lon + earth_rate * tau) (angular_rate h i * tau + B2R off + PI / 2)).
Proof.
  intros fsin fcos ftan ACC junk now0 alt0 incl0 prec ops s n R P0 alt incl lon off (A1 & A2 & I1 & I2 & L1 & L2 & O1 & O2) H0 Hn HT h i tau.
  destruct (reached_since _ junk now0 alt0 incl0 prec ops s R) as (t & Ht & HP & E). specialize (HP P0). subst t.
  assert (HT' : Rabs (IZR (s_now s)) <= n * 86400000000000) by (rewrite Rabs_pos_eq by (apply IZR_le; lia); exact HT).
  destruct (velocity_api_64 fsin fcos ftan ACC alt incl lon off (s_now s) n A1 A2 I1 I2 L1 L2 O1 O2 Hn HT') as (F & S & W).
  assert (EH : earth_radius_km + B2R alt = h) by (unfold earth_radius_km, h; lra).
  rewrite EH in S, W.
  eexists. split; [apply (reached_velocity _ _ _ _ _ _ _ _ R)|]. rewrite E.
  split; [exact F|]. split; [exact S|exact W].
Qed.
Print Assumptions C76_velocity_binary64.

(** Satellites fly the other way exactly above 90 degrees, in doubles too. *)
Theorem C76_direction_binary64 : forall fsin fcos ftan (h incl lon off : b64),
  is_finite incl = true -> Rabs (B2R incl) <= 360 ->
  @progress_sign (Num64 fsin fcos ftan) (@mkOrbit (Num64 fsin fcos ftan) h (@RadiansOf (Num64 fsin fcos ftan) incl) lon off) =
  if Rlt_dec 90 (B2R incl) then (-1)%Z else 1%Z.
Proof.
  intros fsin fcos ftan h incl lon off F H. pose proof (direction_64 fsin fcos ftan incl F H) as D.
  unfold progress_sign. cbn [nlt ndiv npi nZ o_incl Num64].
  destruct (radians_64 fsin fcos ftan incl F H) as (FR & _). rewrite (half_pi_64 _ FR).
  destruct (Rlt_dec (PI / 2) _), (Rlt_dec 90 _); tauto.
Qed.
Print Assumptions C76_direction_binary64.

(** Sine and cosine that are accurate: the exact value, rounded to 60 binary
    digits and then to a double. *)
Definition fixed_point (r : R) : b64 := binary_normalize 53 1024 b64_prec_gt_0 b64_prec_lt_emax mode_NE (ZnearestE (r * 1152921504606846976)) (-60) false.
Lemma fixed_point_ok : forall r, Rabs r <= 1 -> is_finite (fixed_point r) = true /\ Rabs (B2R (fixed_point r) - r) <= u.
Proof.
  intros r Hr. unfold fixed_point. set (m := ZnearestE (r * 1152921504606846976)).
  pose proof (binary_normalize_correct 53 1024 b64_prec_gt_0 b64_prec_lt_emax mode_NE m (-60) false) as H. cbn [round_mode] in H.
  change (round radix2 (SpecFloat.fexp 53 1024) ZnearestE) with (round radix2 (FLT_exp (-1074) 53) ZnearestE) in H.
  set (y := F2R (Float radix2 m (-60))) in *.
  assert (EY : y = IZR m * / 1152921504606846976) by reflexivity.
  assert (DM : Rabs (IZR m - r * 1152921504606846976) <= / 2).
  { rewrite Rabs_minus_sym. apply Znearest_half. }
  assert (DY : Rabs (y - r) <= / 2 * / 1152921504606846976).
  { rewrite EY. replace (IZR m * / 1152921504606846976 - r) with ((IZR m - r * 1152921504606846976) * / 1152921504606846976) by field.
    rewrite Rabs_mult, (Rabs_pos_eq (/ 1152921504606846976)) by lra. apply Rmult_le_compat_r; lra. }
  assert (Y2 : Rabs y <= 2) by (replace y with ((y - r) + r) by ring; eapply Rle_trans; [apply Rabs_triang|]; lra).
  rewrite Rlt_bool_true in H.
  - destruct H as (H1 & H2 & _). split; [exact H2|]. rewrite H1.
    assert (HE : Rabs y < bpow radix2 1 \/ Rabs y = 2) by (change (bpow radix2 1) with 2; lra).
    assert (RE : Rabs (round radix2 (FLT_exp (-1074) 53) ZnearestE y - y) <= / 9007199254740992).
    { destruct HE as [HE|HE].
      - pose proof (rnd_error y 1 ltac:(lia) HE) as Q. change (bpow radix2 (1 - 53)) with (/ 4503599627370496) in Q. lra.
      - rewrite round_generic.
        + rewrite Rminus_diag_eq, Rabs_R0 by reflexivity. lra.
        + typeclasses eauto.
        + apply generic_format_abs_inv. rewrite HE. change 2 with (bpow radix2 1). apply generic_format_bpow. cbn. lia. }
    replace (_ - r) with ((round radix2 (FLT_exp (-1074) 53) ZnearestE y - y) + (y - r)) by ring.
    eapply Rle_trans; [apply Rabs_triang|]. unfold u. lra.
  - apply (rnd_small y 2); [|exact Y2]. split.
    + apply Rle_trans with (bpow radix2 0); [apply bpow_le; lia|cbn; lra].
    + change 2 with (bpow radix2 1). apply bpow_le. lia.
Qed.

Example ex_accurate : accurate (fun x => fixed_point (sin (B2R x))) (fun x => fixed_point (cos (B2R x))).
Proof.
  intros x _. destruct (unit_abs (B2R x)) as [S C].
  destruct (fixed_point_ok _ S) as [F1 E1]. destruct (fixed_point_ok _ C) as [F2 E2]. auto.
Qed.

(** A satellite meeting all the hypotheses: 550 km, 53 degrees, started at
    (1, 2), after 30 days: the error is below a millimetre. *)
Example ex_C75 : forall ftan, let N := Num64 (fun x => fixed_point (sin (B2R x))) (fun x => fixed_point (cos (B2R x))) ftan in
  forall junk : vec N, exists s : mob N,
  let ops := [OSetPosition (@V N (b64_Z 1) (b64_Z 2) (b64_Z 0)); OAdvance 2592000000000000] in
  reached junk 0 (b64_Z 550 : num N) (b64_Z 53 : num N) 0 ops s /\ s_now s = 2592000000000000%Z /\ m_precision s = 0%Z /\
  sane (b64_Z 550) (b64_Z 53) (b64_Z 1) (b64_Z 2) /\
  within (/ 1000) (reals (DoGetPosition junk s)) (trajectory (6371.009 + 550) (53 * PI / 180) 1 2 2592000).
Proof.
  intros ftan N junk. subst N.
  match goal with |- exists s : mob ?M, _ => set (N := M) in *; assert (EX : exists s : mob N,
    reached junk 0 (b64_Z 550 : num N) (b64_Z 53 : num N) 0 [OSetPosition (@V N (b64_Z 1) (b64_Z 2) (b64_Z 0)); OAdvance 2592000000000000] s /\
    s_now s = 2592000000000000%Z /\ m_precision s = 0%Z) end.
  { eexists. split; [|split].
    - eexists _, _. split; [apply construct_ok; vm_compute; reflexivity|]. reflexivity.
    - reflexivity.
    - reflexivity. }
  unfold N in *. clear N. destruct EX as (s & R & HN & HP). exists s. cbv zeta.
  assert (Z : forall z, (Z.abs z <= 2 ^ 53)%Z -> B2R (b64_Z z) = IZR z /\ is_finite (b64_Z z) = true) by exact Z_exact_64.
  destruct (Z 550%Z) as [E5 F5]; [lia|]. destruct (Z 53%Z) as [E3 F3]; [lia|]. destruct (Z 1%Z) as [E1 F1]; [lia|]. destruct (Z 2%Z) as [E2 F2]; [lia|].
  assert (SA : sane (b64_Z 550) (b64_Z 53) (b64_Z 1) (b64_Z 2)).
  { unfold sane. rewrite E5, E3, E1, E2, F5, F3, F1, F2. repeat split; try lra; rewrite Rabs_pos_eq; lra. }
  split; [exact R|]. split; [exact HN|]. split; [exact HP|]. split; [exact SA|].
  destruct (C75_position_binary64 _ _ ftan ex_accurate junk 0 (b64_Z 550) (b64_Z 53) 0 _ s 30 R SA ltac:(lia) ltac:(lra)) as (_ & _ & t & _ & T & W).
  { rewrite HN. lra. }
  rewrite (T HP), HN in W. cbn [last_altitude last_inclination last_start fold_left fst snd vx vy] in W.
  rewrite E5, E3, E1, E2 in W. replace (sec 2592000000000000) with 2592000 in W by (unfold sec; lra).
  eapply within_le; [exact W|lra].
Qed.
