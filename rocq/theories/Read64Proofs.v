(** Binary64: attributes that are converted when written and when read. *)
Require Import ZArith Reals Lra Lia Psatz.
From Flocq Require Import Core.Core Relative IEEE754.BinarySingleNaN.
Require Import Verif.Num Verif.Num64 Verif.Vec Verif.OrbitModel Verif.LossModel Verif.Alloc64Proofs.
Local Open Scope R_scope.

Local Notation fexp := (FLT_exp (-1074) 53).
Local Notation rnd := (round radix2 fexp ZnearestE).
Local Notation eps := (/ 9007199254740992).   (* 2^-53 *)

(** Zero, or neither too small nor too large. *)
Definition fair (x : R) : Prop := x = 0 \/ bpow radix2 (-1022) <= Rabs x <= bpow radix2 1022.

Lemma rnd_rel : forall x, fair x -> exists e, Rabs e <= eps /\ rnd x = x * (1 + e).
Proof.
  intros x [->|[H _]].
  { exists 0. rewrite Rabs_R0, round_0 by typeclasses eauto. split; lra. }
  destruct (relative_error_N_FLT_ex radix2 (-1074) 53 ltac:(unfold Prec_gt_0; lia) (fun x => negb (Z.even x)) x) as (e & E & H1).
  { replace (-1074 + 53 - 1)%Z with (-1022)%Z by lia. exact H. }
  exists e. split; [|exact H1]. change (bpow radix2 (- (53) + 1)) with (/ IZR 4503599627370496) in E. lra.
Qed.
Lemma rel_big : forall x e k, Rabs e <= eps -> (k < 1023)%Z -> Rabs x <= bpow radix2 k -> Rabs (x * (1 + e)) < bpow radix2 1024.
Proof.
  intros x e k He Hk Hx. rewrite Rabs_mult.
  assert (Rabs (1 + e) <= 2) by (revert He; unfold Rabs; do 2 destruct Rcase_abs; lra).
  apply Rle_lt_trans with (bpow radix2 k * 2).
  - apply Rmult_le_compat; try apply Rabs_pos; assumption.
  - replace 2 with (bpow radix2 1) by (cbn; lra). rewrite <- bpow_plus. apply bpow_lt. lia.
Qed.

Lemma fair_le : forall x, fair x -> Rabs x <= bpow radix2 1022.
Proof. intros x [->|[_ H]]; [rewrite Rabs_R0; apply bpow_ge_0|exact H]. Qed.

Lemma mult_rel : forall x y : b64, is_finite x = true -> is_finite y = true ->
  fair (B2R x * B2R y) ->
  exists e, Rabs e <= eps /\ B2R (b64_mult x y) = B2R x * B2R y * (1 + e) /\ is_finite (b64_mult x y) = true.
Proof.
  intros x y Fx Fy L. destruct (rnd_rel _ L) as (e & He & E). exists e. split; [exact He|].
  pose proof (Bmult_correct 53 1024 b64_prec_gt_0 b64_prec_lt_emax mode_NE x y) as H. cbn [round_mode] in H.
  change (round radix2 (SpecFloat.fexp 53 1024) ZnearestE) with rnd in H. rewrite E, Rlt_bool_true in H.
  - destruct H as (H1 & H2 & _). unfold b64_mult. rewrite H2, Fx, Fy. auto.
  - apply (rel_big _ _ 1022); [exact He|lia|apply fair_le; exact L].
Qed.
Lemma div_rel : forall x y : b64, is_finite x = true -> B2R y <> 0 ->
  fair (B2R x / B2R y) ->
  exists e, Rabs e <= eps /\ B2R (b64_div x y) = B2R x / B2R y * (1 + e) /\ is_finite (b64_div x y) = true.
Proof.
  intros x y Fx Hy L. destruct (rnd_rel _ L) as (e & He & E). exists e. split; [exact He|].
  pose proof (Bdiv_correct 53 1024 b64_prec_gt_0 b64_prec_lt_emax mode_NE x y Hy) as H. cbn [round_mode] in H.
  change (round radix2 (SpecFloat.fexp 53 1024) ZnearestE) with rnd in H. rewrite E, Rlt_bool_true in H.
  - destruct H as (H1 & H2 & _). unfold b64_div. rewrite H2, Fx. auto.
  - apply (rel_big _ _ 1022); [exact He|lia|apply fair_le; exact L].
Qed.

Lemma pi64_R : B2R b64_pi = IZR 884279719003555 * bpow radix2 (-48) /\ is_finite b64_pi = true.
Proof.
  split; [|vm_compute; reflexivity].
  assert (E : B2SF b64_pi = SpecFloat.S754_finite false 7074237752028440 (-51)) by (vm_compute; reflexivity).
  rewrite <- SF2R_B2SF, E. unfold SF2R, F2R. cbn [Fnum Fexp cond_Zopp].
  replace (-51)%Z with (-48 + -3)%Z by lia. rewrite bpow_plus.
  replace (IZR 7074237752028440) with (IZR 884279719003555 * 8) by lra.
  change (bpow radix2 (-3)) with (/ 8). lra.
Qed.
Lemma pi64_3 : 3 < B2R b64_pi < 4.
Proof. destruct pi64_R as [-> _]. cbn. lra. Qed.
Lemma b180_R : B2R (b64_Z 180) = 180 /\ is_finite (b64_Z 180) = true.
Proof. destruct (Z_exact_64 180 ltac:(cbn; lia)) as [E F]. split; [exact E|exact F]. Qed.

(** Angles for which nothing overflows or becomes subnormal. *)
Definition ordinary (a : R) : Prop := a = 0 \/ bpow radix2 (-1000) <= Rabs a <= bpow radix2 1000.

Lemma fair_scale : forall a c, ordinary a -> / 1000000 <= Rabs c <= 1000000 -> fair (a * c).
Proof.
  intros a c [->|[L U]] [CL CU]; [left; ring|right]. rewrite Rabs_mult.
  assert (P1 : bpow radix2 (-1022) <= bpow radix2 (-1000) * / 1000000).
  { replace (-1022)%Z with (-1000 + -22)%Z by lia. rewrite bpow_plus. apply Rmult_le_compat_l; [apply bpow_ge_0|]. cbn. lra. }
  assert (P2 : bpow radix2 1000 * 1000000 <= bpow radix2 1022).
  { replace 1022%Z with (1000 + 22)%Z by lia. rewrite bpow_plus. apply Rmult_le_compat_l; [apply bpow_ge_0|]. cbn. lra. }
  pose proof (bpow_ge_0 radix2 (-1000)). pose proof (Rabs_pos a). split.
  - apply Rle_trans with (1 := P1). apply Rmult_le_compat; lra.
  - apply Rle_trans with (2 := P2). apply Rmult_le_compat; lra.
Qed.

Lemma four : forall e1 e2 e3 e4, Rabs e1 <= eps -> Rabs e2 <= eps -> Rabs e3 <= eps -> Rabs e4 <= eps ->
  Rabs ((1 + e1) * (1 + e2) * (1 + e3) * (1 + e4) - 1) <= / 1125899906842624.
Proof.
  assert (S : forall x y, Rabs (x - 1) <= / 1000 -> Rabs y <= eps -> Rabs (x * (1 + y) - 1) <= Rabs (x - 1) + eps * (1 + / 1000)).
  { intros x y Hx Hy. replace (x * (1 + y) - 1) with ((x - 1) + x * y) by ring.
    eapply Rle_trans; [apply Rabs_triang|]. apply Rplus_le_compat_l. rewrite Rabs_mult, Rmult_comm.
    apply Rmult_le_compat; try apply Rabs_pos; [exact Hy|]. revert Hx. unfold Rabs. do 2 destruct Rcase_abs; lra. }
  intros e1 e2 e3 e4 H1 H2 H3 H4.
  assert (A1 : Rabs (1 + e1 - 1) <= eps) by (replace (1 + e1 - 1) with e1 by ring; exact H1).
  pose proof (S (1 + e1) e2 ltac:(lra) H2) as A2.
  pose proof (S ((1 + e1) * (1 + e2)) e3 ltac:(lra) H3) as A3.
  pose proof (S ((1 + e1) * (1 + e2) * (1 + e3)) e4 ltac:(lra) H4) as A4. lra.
Qed.

Lemma one_abs : forall e, Rabs e <= eps -> / 2 <= Rabs (1 + e) <= 2.
Proof. intros e H. revert H. unfold Rabs. do 2 destruct Rcase_abs; lra. Qed.

Lemma between : forall x y a b c d, 0 <= a -> 0 <= c -> a <= x <= b -> c <= y <= d -> a * c <= x * y <= b * d.
Proof. intros x y a b c d Ha Hc Hx Hy. split; apply Rmult_le_compat; lra. Qed.

Lemma elevation_64 : forall fsin fcos ftan (a b c d : b64), is_finite a = true -> ordinary (B2R a) ->
  Rabs (B2R (@GetElevationAngle (Num64 fsin fcos ftan)
               (@mkLeoLoss (Num64 fsin fcos ftan) (@SetElevationAngle (Num64 fsin fcos ftan) a) b c d)) - B2R a)
  <= Rabs (B2R a) * / 1125899906842624.
Proof.
  intros fsin fcos ftan a b c d Fa Oa. unfold GetElevationAngle, SetElevationAngle. cbn [ll_angle nmul ndiv npi nZ Num64].
  destruct pi64_3 as [P3 P4]. destruct pi64_R as [_ PF]. destruct b180_R as [B B'].
  destruct (div_rel b64_pi (b64_Z 180)) as (e1 & E1 & R1 & F1); [exact PF|rewrite B; lra| |].
  { rewrite B. replace (B2R b64_pi / 180) with (1 * (B2R b64_pi / 180)) by ring. apply fair_scale.
    - right. rewrite Rabs_R1. split; [change 1 with (bpow radix2 0); apply bpow_le; lia|change 1 with (bpow radix2 0); apply bpow_le; lia].
    - rewrite Rabs_pos_eq by lra. lra. }
  destruct (div_rel (b64_Z 180) b64_pi) as (e3 & E3 & R3 & F3); [exact B'|lra| |].
  { rewrite B. replace (180 / B2R b64_pi) with (1 * (180 / B2R b64_pi)) by ring. apply fair_scale.
    - right. rewrite Rabs_R1. split; [change 1 with (bpow radix2 0); apply bpow_le; lia|change 1 with (bpow radix2 0); apply bpow_le; lia].
    - assert (45 <= 180 / B2R b64_pi <= 60) by (split; [apply Rmult_le_reg_r with (B2R b64_pi)|apply Rmult_le_reg_r with (B2R b64_pi)]; try lra;
        unfold Rdiv; rewrite Rmult_assoc, Rinv_l by lra; lra). rewrite Rabs_pos_eq by lra. lra. }
  rewrite B in R1, R3.
  pose proof (one_abs e1 E1) as O1. pose proof (one_abs e3 E3) as O3.
  destruct (mult_rel a (b64_div b64_pi (b64_Z 180))) as (e2 & E2 & R2 & F2); [exact Fa|exact F1| |].
  { rewrite R1. apply fair_scale; [exact Oa|]. rewrite Rabs_mult, (Rabs_pos_eq (B2R b64_pi / 180)) by lra. nra. }
  pose proof (one_abs e2 E2) as O2.
  assert (K : B2R b64_pi / 180 * (180 / B2R b64_pi) = 1) by (field; lra).
  destruct (mult_rel (b64_mult a (b64_div b64_pi (b64_Z 180))) (b64_div (b64_Z 180) b64_pi)) as (e4 & E4 & R4 & F4); [exact F2|exact F3| |].
  { rewrite R2, R1, R3.
    replace (B2R a * (B2R b64_pi / 180 * (1 + e1)) * (1 + e2) * (180 / B2R b64_pi * (1 + e3)))
      with (B2R a * ((1 + e1) * (1 + e2) * (1 + e3))) by (rewrite <- (Rmult_1_l ((1 + e1) * _)), <- K; ring).
    apply fair_scale; [exact Oa|]. rewrite !Rabs_mult.
    pose proof (between _ _ (/ 2) 2 (/ 2) 2 ltac:(lra) ltac:(lra) O1 O2) as O12.
    pose proof (between _ _ (/ 2 * / 2) (2 * 2) (/ 2) 2 ltac:(lra) ltac:(lra) O12 O3). lra. }
  rewrite R4, R2, R1, R3.
  replace (B2R a * (B2R b64_pi / 180 * (1 + e1)) * (1 + e2) * (180 / B2R b64_pi * (1 + e3)) * (1 + e4) - B2R a)
    with (B2R a * ((1 + e1) * (1 + e2) * (1 + e3) * (1 + e4) * (B2R b64_pi / 180 * (180 / B2R b64_pi)) - 1)) by ring.
  rewrite K, Rmult_1_r, Rabs_mult. apply Rmult_le_compat_l; [apply Rabs_pos|]. apply four; assumption.
Qed.

Lemma inclination_64 : forall fsin fcos ftan (a : b64), is_finite a = true -> ordinary (B2R a) ->
  Rabs (B2R (@DegreesOf (Num64 fsin fcos ftan) (@RadiansOf (Num64 fsin fcos ftan) a)) - B2R a)
  <= Rabs (B2R a) * / 1125899906842624.
Proof.
  intros fsin fcos ftan a Fa Oa. unfold DegreesOf, RadiansOf. cbn [nmul ndiv npi nZ Num64].
  destruct pi64_3 as [P3 P4]. destruct pi64_R as [_ PF]. destruct b180_R as [B B'].
  destruct (div_rel a (b64_Z 180)) as (e1 & E1 & R1 & F1); [exact Fa|rewrite B; lra| |].
  { rewrite B. apply fair_scale; [exact Oa|]. rewrite Rabs_pos_eq by lra. lra. }
  rewrite B in R1. pose proof (one_abs e1 E1) as O1.
  destruct (mult_rel (b64_div a (b64_Z 180)) b64_pi) as (e2 & E2 & R2 & F2); [exact F1|exact PF| |].
  { rewrite R1. replace (B2R a / 180 * (1 + e1) * B2R b64_pi) with (B2R a * (B2R b64_pi / 180 * (1 + e1))) by field.
    apply fair_scale; [exact Oa|]. rewrite Rabs_mult, (Rabs_pos_eq (B2R b64_pi / 180)) by lra. nra. }
  pose proof (one_abs e2 E2) as O2.
  destruct (div_rel (b64_mult (b64_div a (b64_Z 180)) b64_pi) b64_pi) as (e3 & E3 & R3 & F3); [exact F2|lra| |].
  { rewrite R2, R1. replace (B2R a / 180 * (1 + e1) * B2R b64_pi * (1 + e2) / B2R b64_pi) with (B2R a * (/ 180 * ((1 + e1) * (1 + e2)))) by (field; lra).
    apply fair_scale; [exact Oa|]. rewrite !Rabs_mult, (Rabs_pos_eq (/ 180)) by lra.
    pose proof (between _ _ (/ 2) 2 (/ 2) 2 ltac:(lra) ltac:(lra) O1 O2) as O12. lra. }
  pose proof (one_abs e3 E3) as O3.
  destruct (mult_rel (b64_div (b64_mult (b64_div a (b64_Z 180)) b64_pi) b64_pi) (b64_Z 180)) as (e4 & E4 & R4 & F4); [exact F3|exact B'| |].
  { rewrite R3, R2, R1, B.
    replace (B2R a / 180 * (1 + e1) * B2R b64_pi * (1 + e2) / B2R b64_pi * (1 + e3) * 180) with (B2R a * ((1 + e1) * (1 + e2) * (1 + e3))) by (field; lra).
    apply fair_scale; [exact Oa|]. rewrite !Rabs_mult.
    pose proof (between _ _ (/ 2) 2 (/ 2) 2 ltac:(lra) ltac:(lra) O1 O2) as O12.
    pose proof (between _ _ (/ 2 * / 2) (2 * 2) (/ 2) 2 ltac:(lra) ltac:(lra) O12 O3). lra. }
  rewrite R4, R3, R2, R1, B.
  replace (B2R a / 180 * (1 + e1) * B2R b64_pi * (1 + e2) / B2R b64_pi * (1 + e3) * 180 * (1 + e4) - B2R a)
    with (B2R a * ((1 + e1) * (1 + e2) * (1 + e3) * (1 + e4) - 1)) by (field; lra).
  rewrite Rabs_mult. apply Rmult_le_compat_l; [apply Rabs_pos|]. apply four; assumption.
Qed.

Lemma earth64 : 6371 <= B2R (b64_dec 63710090 4) <= 6372 /\ is_finite (b64_dec 63710090 4) = true.
Proof.
  split; [|vm_compute; reflexivity].
  assert (E : exists m, B2SF (b64_dec 63710090 4) = SpecFloat.S754_finite false m (-40) /\
                (6371 * 2 ^ 40 <= Z.pos m <= 6372 * 2 ^ 40)%Z).
  { eexists. split; [vm_compute; reflexivity|cbn; lia]. }
  destruct E as (m & E & L & U). rewrite <- SF2R_B2SF, E. unfold SF2R, F2R. cbn [Fnum Fexp cond_Zopp].
  assert (P : bpow radix2 (-40) * IZR (2 ^ 40) = 1) by (cbn; lra).
  pose proof (bpow_gt_0 radix2 (-40)). apply IZR_le in L, U. rewrite mult_IZR in L, U.
  split; [apply Rle_trans with (6371 * IZR (2 ^ 40) * bpow radix2 (-40))|apply Rle_trans with (6372 * IZR (2 ^ 40) * bpow radix2 (-40))];
    try (rewrite Rmult_assoc, (Rmult_comm (IZR (2 ^ 40))), P; lra); apply Rmult_le_compat_r; lra.
Qed.

Lemma altitude_64 : forall fsin fcos ftan (h : b64), is_finite h = true -> 0 <= B2R h <= 1000000 ->
  Rabs (B2R (@AltitudeOf (Num64 fsin fcos ftan) (@HeightOf (Num64 fsin fcos ftan) h)) - B2R h) <= / 4294967296.
Proof.
  intros fsin fcos ftan h Fh Hh. unfold AltitudeOf, HeightOf, LEO_EARTH_RAD_KM. cbn [nadd nsub ndec Num64].
  set (E := b64_dec 63710090 4). destruct earth64 as [HE FE]. fold E in HE, FE.
  assert (P20 : bpow radix2 20 = 1048576) by (cbn; lra).
  assert (B20 : bpow radix2 20 < bpow radix2 1024) by (apply bpow_lt; lia).
  assert (P32 : / 2 * bpow radix2 (20 - 53) = / 17179869184) by (cbn; lra).
  clearbody E.
  assert (A1 : Rabs (B2R E + B2R h) < bpow radix2 20) by (rewrite P20, Rabs_pos_eq; lra).
  pose proof (rnd_error (B2R E + B2R h) 20 ltac:(lia) A1) as R1. rewrite P32 in R1.
  pose proof (Bplus_correct 53 1024 b64_prec_gt_0 b64_prec_lt_emax mode_NE E h FE Fh) as C. cbn [round_mode] in C.
  change (round radix2 (SpecFloat.fexp 53 1024) ZnearestE) with rnd in C. rewrite Rlt_bool_true in C.
  2:{ revert R1. unfold Rabs. do 2 destruct Rcase_abs; lra. }
  destruct C as (V & FV & _). fold (b64_plus E h) in V, FV. rewrite <- V in R1.
  assert (H1 : 6370 <= B2R (b64_plus E h) <= 1007000) by (revert R1; unfold Rabs; destruct Rcase_abs; lra).
  assert (A2 : Rabs (B2R (b64_plus E h) - B2R E) < bpow radix2 20) by (rewrite P20; unfold Rabs; destruct Rcase_abs; lra).
  pose proof (rnd_error (B2R (b64_plus E h) - B2R E) 20 ltac:(lia) A2) as R2. rewrite P32 in R2.
  pose proof (Bminus_correct 53 1024 b64_prec_gt_0 b64_prec_lt_emax mode_NE (b64_plus E h) E FV FE) as C. cbn [round_mode] in C.
  change (round radix2 (SpecFloat.fexp 53 1024) ZnearestE) with rnd in C. rewrite Rlt_bool_true in C.
  2:{ revert R2. unfold Rabs. do 2 destruct Rcase_abs; lra. }
  destruct C as (W & _ & _). fold (b64_minus (b64_plus E h) E) in W. rewrite <- W in R2.
  revert R1 R2. unfold Rabs. do 3 destruct Rcase_abs; lra.
Qed.
