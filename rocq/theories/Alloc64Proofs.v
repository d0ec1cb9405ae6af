(** Binary64: the vectors of different slots stay different after rounding. *)
Require Import ZArith Reals Lra Lia Psatz.
From Flocq Require Import Core.Core IEEE754.BinarySingleNaN.
Require Import Verif.Num Verif.Num64 Verif.Vec Verif.AllocModel Verif.AllocSpec Verif.AllocProofs.
Local Open Scope R_scope.

Local Notation fexp := (FLT_exp (-1074) 53).
Local Notation rnd := (round radix2 fexp ZnearestE).

Lemma fexp_eq : forall e, SpecFloat.fexp 53 1024 e = fexp e.
Proof. intros. reflexivity. Qed.

Global Instance fexp_valid : Valid_exp fexp.
Proof. apply FLT_exp_valid. reflexivity. Qed.
Global Instance fexp_mono : Monotone_exp fexp.
Proof. apply FLT_exp_monotone. Qed.

(** Error of one rounding of a number below 2^e. *)
Lemma rnd_error : forall x e, (-1021 <= e)%Z -> Rabs x < bpow radix2 e ->
  Rabs (rnd x - x) <= / 2 * bpow radix2 (e - 53).
Proof.
  intros x e He Hx.
  apply Rle_trans with (/ 2 * ulp radix2 fexp x); [apply error_le_half_ulp; typeclasses eauto|].
  apply Rmult_le_compat_l; [lra|].
  destruct (Req_dec x 0) as [->|Hx0].
  - rewrite ulp_FLT_0 by reflexivity. apply bpow_le. lia.
  - rewrite ulp_neq_0 by exact Hx0. apply bpow_le. unfold cexp, FLT_exp.
    pose proof (mag_le_bpow radix2 x e Hx0 Hx). lia.
Qed.

Lemma bpow_big : bpow radix2 10 < bpow radix2 1024.
Proof. apply bpow_lt. lia. Qed.

Lemma Z_exact_64 : forall z, (Z.abs z <= 2 ^ 53)%Z -> B2R (b64_Z z) = IZR z /\ is_finite (b64_Z z) = true.
Proof.
  intros z Hz.
  assert (HF : F2R (Float radix2 z 0) = IZR z) by (unfold F2R; cbn; lra).
  assert (HG : rnd (IZR z) = IZR z).
  { apply round_generic; [typeclasses eauto|]. rewrite <- HF.
    destruct (Z.eq_dec (Z.abs z) (2 ^ 53)) as [E|E].
    - assert (Hb : generic_format radix2 fexp (bpow radix2 53)) by (apply generic_format_bpow; cbn; lia).
      assert (Hzz : z = (2^53)%Z \/ z = (- 2^53)%Z) by lia. rewrite HF.
      destruct Hzz as [-> | ->].
      + exact Hb.
      + rewrite opp_IZR. apply generic_format_opp. exact Hb.
    - apply generic_format_FLT. exists (Float radix2 z 0); [reflexivity| |cbn; lia].
      cbn [Fnum]. change (radix2 ^ 53)%Z with (2 ^ 53)%Z. lia. }
  pose proof (binary_normalize_correct 53 1024 b64_prec_gt_0 b64_prec_lt_emax mode_NE z 0 false) as H.
  cbn [round_mode] in H. rewrite HF in H.
  change (round radix2 (SpecFloat.fexp 53 1024) ZnearestE (IZR z)) with (rnd (IZR z)) in H.
  rewrite HG, Rlt_bool_true in H.
  - destruct H as (H1 & H2 & _). split; assumption.
  - rewrite <- abs_IZR. apply Rle_lt_trans with (IZR (2 ^ 53)); [apply IZR_le; exact Hz|].
    change (IZR (2 ^ 53)) with (bpow radix2 53). apply bpow_lt. lia.
Qed.

(** round(i/n) *)
Lemma div_64 : forall i n, (0 < n <= 65536)%Z -> (0 <= i < n)%Z ->
  B2R (b64_div (b64_Z i) (b64_Z n)) = rnd (IZR i / IZR n) /\
  is_finite (b64_div (b64_Z i) (b64_Z n)) = true /\
  0 <= IZR i / IZR n < 1 /\
  Rabs (rnd (IZR i / IZR n) - IZR i / IZR n) <= / 2 * bpow radix2 (-53).
Proof.
  intros i n Hn Hi.
  destruct (Z_exact_64 i ltac:(lia)) as [Bi Fi]. destruct (Z_exact_64 n ltac:(lia)) as [Bn Fn].
  assert (Hn' : 0 < IZR n) by (apply IZR_lt; lia).
  assert (Hi' : 0 <= IZR i < IZR n) by (split; [apply IZR_le|apply IZR_lt]; lia).
  assert (Hq : 0 <= IZR i / IZR n < 1).
  { split; [apply Rmult_le_pos; [lra|left; apply Rinv_0_lt_compat; lra]|].
    apply Rmult_lt_reg_r with (IZR n); [lra|]. unfold Rdiv. rewrite Rmult_assoc, Rinv_l; lra. }
  assert (He : Rabs (rnd (IZR i / IZR n) - IZR i / IZR n) <= / 2 * bpow radix2 (-53)).
  { apply (rnd_error _ 0); [lia|]. rewrite Rabs_pos_eq by lra. cbn. lra. }
  pose proof (Bdiv_correct 53 1024 b64_prec_gt_0 b64_prec_lt_emax mode_NE (b64_Z i) (b64_Z n)) as H.
  rewrite Bi, Bn in H. cbn [round_mode] in H.
  change (round radix2 (SpecFloat.fexp 53 1024) ZnearestE) with rnd in H.
  specialize (H ltac:(lra)). rewrite Rlt_bool_true in H.
  - destruct H as (H1 & H2 & _). repeat split; try assumption; try lra. unfold b64_div. rewrite H2. exact Fi.
  - assert (B : / 2 * bpow radix2 (-53) < 1) by (cbn; lra).
    apply Rle_lt_trans with 2; [|apply Rlt_trans with (2 := bpow_big); cbn; lra].
    revert He. unfold Rabs. do 2 destruct Rcase_abs; lra.
Qed.

(** 2 * M_PI as a double, exactly. *)
Definition twopi64 : b64 := b64_mult (b64_Z 2) b64_pi.
Lemma twopi64_R : B2R twopi64 = IZR 884279719003555 * bpow radix2 (-47) /\ is_finite twopi64 = true.
Proof.
  unfold twopi64. split; [|vm_compute; reflexivity].
  assert (E : B2SF (b64_mult (b64_Z 2) b64_pi) = SpecFloat.S754_finite false 7074237752028440 (-50)) by (vm_compute; reflexivity).
  rewrite <- SF2R_B2SF, E. unfold SF2R, F2R. cbn [Fnum Fexp cond_Zopp].
  replace (-50)%Z with (-47 + -3)%Z by lia. rewrite bpow_plus.
  replace (IZR 7074237752028440) with (IZR 884279719003555 * 8) by lra.
  change (bpow radix2 (-3)) with (/ 8). lra.
Qed.

Definition turn64 (i n : Z) : b64 := b64_mult twopi64 (b64_div (b64_Z i) (b64_Z n)).

Lemma turn64_R : forall i n, (0 < n <= 65536)%Z -> (0 <= i < n)%Z ->
  B2R (turn64 i n) = rnd (B2R twopi64 * rnd (IZR i / IZR n)) /\ is_finite (turn64 i n) = true /\
  Rabs (B2R (turn64 i n) - B2R twopi64 * rnd (IZR i / IZR n)) <= / 2 * bpow radix2 (-50).
Proof.
  intros i n Hn Hi.
  destruct (div_64 i n Hn Hi) as (D1 & D2 & D3 & D4).
  destruct twopi64_R as [T1 T2].
  assert (T3 : 6 < B2R twopi64 < 7) by (rewrite T1; cbn; lra).
  assert (B53 : 0 < / 2 * bpow radix2 (-53) < / 100) by (cbn; lra).
  assert (Hm : Rabs (B2R twopi64 * rnd (IZR i / IZR n)) < bpow radix2 3).
  { assert (A : Rabs (rnd (IZR i / IZR n)) < 1 + /100) by (revert D4; unfold Rabs; do 2 destruct Rcase_abs; lra).
    rewrite Rabs_mult, (Rabs_pos_eq (B2R twopi64)) by lra.
    replace (bpow radix2 3) with 8 by (cbn; lra). pose proof (Rabs_pos (rnd (IZR i / IZR n))). nra. }
  pose proof (rnd_error _ 3 ltac:(lia) Hm) as He. replace (3 - 53)%Z with (-50)%Z in He by lia.
  pose proof (Bmult_correct 53 1024 b64_prec_gt_0 b64_prec_lt_emax mode_NE twopi64 (b64_div (b64_Z i) (b64_Z n))) as H.
  rewrite D1 in H. cbn [round_mode] in H.
  change (round radix2 (SpecFloat.fexp 53 1024) ZnearestE) with rnd in H.
  rewrite Rlt_bool_true in H.
  - destruct H as (H1 & H2 & _). unfold turn64, b64_mult. rewrite H1, H2, T2, D2. repeat split; exact He.
  - assert (B50 : / 2 * bpow radix2 (-50) < 1) by (cbn; lra).
    replace (bpow radix2 3) with 8 in Hm by (cbn; lra).
    apply Rle_lt_trans with 9; [|apply Rlt_trans with (2 := bpow_big); cbn; lra].
    revert He Hm. unfold Rabs. do 3 destruct Rcase_abs; lra.
Qed.

(** Strictly increasing. *)
Lemma turn64_lt : forall i j n, (0 < n <= 65536)%Z -> (0 <= i)%Z -> (i < j)%Z -> (j < n)%Z ->
  B2R (turn64 i n) < B2R (turn64 j n).
Proof.
  intros i j n Hn Hi Hij Hj.
  destruct (turn64_R i n Hn ltac:(lia)) as (_ & _ & Ei). destruct (turn64_R j n Hn ltac:(lia)) as (_ & _ & Ej).
  destruct (div_64 i n Hn ltac:(lia)) as (_ & _ & Di & Fi). destruct (div_64 j n Hn ltac:(lia)) as (_ & _ & Dj & Fj).
  destruct twopi64_R as [T1 T2].
  assert (T3 : 6 < B2R twopi64 < 7) by (rewrite T1; cbn; lra).
  assert (Hgap : / 65536 <= IZR j / IZR n - IZR i / IZR n).
  { assert (Hn' : 0 < IZR n <= 65536) by (split; [apply IZR_lt|apply IZR_le]; lia).
    assert (H1 : 1 <= IZR j - IZR i) by (rewrite <- minus_IZR; apply IZR_le; lia).
    replace (IZR j / IZR n - IZR i / IZR n) with ((IZR j - IZR i) * / IZR n) by (field; lra).
    apply Rle_trans with (1 * / IZR n).
    - rewrite Rmult_1_l. apply Rinv_le; lra.
    - apply Rmult_le_compat_r; [left; apply Rinv_0_lt_compat; lra|exact H1]. }
  assert (B53 : / 2 * bpow radix2 (-53) < / 1000000000) by (cbn; lra).
  assert (B50 : / 2 * bpow radix2 (-50) < / 1000000000) by (cbn; lra).
  set (x := rnd (IZR i / IZR n)) in *. set (y := rnd (IZR j / IZR n)) in *.
  assert (G : / 100000 <= y - x) by (revert Fi Fj; unfold Rabs; do 2 destruct Rcase_abs; lra).
  assert (G2 : 6 * / 100000 <= B2R twopi64 * y - B2R twopi64 * x) by nra.
  revert Ei Ej. unfold Rabs. do 2 destruct Rcase_abs; lra.
Qed.

Lemma turn64_inj : forall i j n, (0 < n <= 65536)%Z -> (0 <= i < n)%Z -> (0 <= j < n)%Z ->
  B2R (turn64 i n) = B2R (turn64 j n) -> i = j.
Proof.
  intros i j n Hn Hi Hj H.
  destruct (Z.lt_trichotomy i j) as [L|[E|L]]; [|exact E|].
  - pose proof (turn64_lt i j n Hn ltac:(lia) L ltac:(lia)). lra.
  - pose proof (turn64_lt j i n Hn ltac:(lia) L ltac:(lia)). lra.
Qed.

Lemma circ_vec_64 : forall fs fc ft P S ps,
  circ_vec (Num64 fs fc ft) P S ps = @V (Num64 fs fc ft) (turn64 (fst ps) P) (turn64 (snd ps) S) (b64_Z 0).
Proof. reflexivity. Qed.
