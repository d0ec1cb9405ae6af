(** Error bounds for computations in binary64. [near K x r e B]: the double x is
    finite and within K e of K r, and |r| is at most B. *)
Require Import ZArith Reals Lra Lia Psatz Machin.
From Flocq Require Import Core.Core Relative IEEE754.BinarySingleNaN.
Require Import Verif.Num Verif.Num64 Verif.Vec Verif.Alloc64Proofs Verif.Read64Proofs Verif.Float64Spec.
Local Open Scope R_scope.

Local Notation fexp := (FLT_exp (-1074) 53).
Local Notation rnd := (round radix2 fexp ZnearestE).

Lemma u_pos : 0 < u.
Proof. unfold u. lra. Qed.

Definition scale (K : R) : Prop := bpow radix2 (-300) <= K <= bpow radix2 300.
Definition near (K : R) (x : b64) (r e B : R) : Prop :=
  is_finite x = true /\ Rabs (B2R x - K * r) <= K * e /\ Rabs r <= B.

Lemma rnd_abs : forall y M, bpow radix2 (-500) <= M -> Rabs y <= M -> Rabs (rnd y - y) <= M * u.
Proof.
  intros y M HM HY. pose proof (Rabs_pos y).
  destruct (Rle_or_lt (bpow radix2 (-1022)) (Rabs y)) as [L|L].
  - destruct (relative_error_N_FLT_ex radix2 (-1074) 53 ltac:(unfold Prec_gt_0; lia) (fun x => negb (Z.even x)) y) as (e & E & H1).
    { replace (-1074 + 53 - 1)%Z with (-1022)%Z by lia. exact L. }
    rewrite H1. replace (y * (1 + e) - y) with (y * e) by ring. rewrite Rabs_mult.
    apply Rmult_le_compat; try apply Rabs_pos; [exact HY|].
    change (bpow radix2 (- (53) + 1)) with u in E. pose proof u_pos. lra.
  - apply Rle_trans with (/ 2 * bpow radix2 (-1021 - 53)).
    + apply rnd_error; [lia|]. apply Rlt_trans with (1 := L). apply bpow_lt. lia.
    + apply Rle_trans with (bpow radix2 (-500) * u).
      * change u with (bpow radix2 (-52)). rewrite <- bpow_plus. apply Rle_trans with (bpow radix2 (-1021 - 53)).
        -- pose proof (bpow_ge_0 radix2 (-1021 - 53)). lra.
        -- apply bpow_le. lia.
      * apply Rmult_le_compat_r; [pose proof u_pos; lra|exact HM].
Qed.

Lemma rnd_small : forall y M, bpow radix2 (-500) <= M <= bpow radix2 1000 -> Rabs y <= M -> Rabs (rnd y) < bpow radix2 1024.
Proof.
  intros y M [H1 H2] HY. pose proof (rnd_abs y M H1 HY) as E.
  apply Rle_lt_trans with (2 * bpow radix2 1000).
  - replace (rnd y) with (y + (rnd y - y)) by ring. eapply Rle_trans; [apply Rabs_triang|].
    assert (M * u <= M * 1) by (apply Rmult_le_compat_l; [pose proof (Rabs_pos y); lra|unfold u; lra]). lra.
  - change 2 with (bpow radix2 1). rewrite <- bpow_plus. apply bpow_lt. lia.
Qed.

(** Magnitudes of the numbers rounded below. *)
Lemma scale_mid : forall K M, scale K -> / 1024 <= M <= bpow radix2 100 -> bpow radix2 (-500) <= K * M <= bpow radix2 1000.
Proof.
  intros K M [K1 K2] [M1 M2]. pose proof (bpow_gt_0 radix2 (-300)). split.
  - apply Rle_trans with (bpow radix2 (-300) * / 1024).
    + change (/ 1024) with (bpow radix2 (-10)). rewrite <- bpow_plus. apply bpow_le. lia.
    + apply Rmult_le_compat; lra.
  - apply Rle_trans with (bpow radix2 300 * bpow radix2 100).
    + apply Rmult_le_compat; lra.
    + rewrite <- bpow_plus. apply bpow_le. lia.
Qed.
Lemma scale_pos : forall K, scale K -> 0 < K.
Proof. intros K [H _]. pose proof (bpow_gt_0 radix2 (-300)). lra. Qed.

Lemma near_value : forall K x r e B, 0 < K -> near K x r e B -> Rabs (B2R x) <= K * (B + e).
Proof.
  intros K x r e B HK (_ & H & HB). replace (B2R x) with ((B2R x - K * r) + K * r) by ring.
  eapply Rle_trans; [apply Rabs_triang|]. rewrite (Rabs_mult K r), (Rabs_pos_eq K) by lra.
  apply Rle_trans with (K * e + K * B); [|lra]. apply Rplus_le_compat; [exact H|]. apply Rmult_le_compat_l; lra.
Qed.
Lemma near_e : forall K x r e B, 0 < K -> near K x r e B -> 0 <= e /\ 0 <= B.
Proof.
  intros K x r e B HK (_ & H & HB). pose proof (Rabs_pos (B2R x - K * r)). pose proof (Rabs_pos r). split; [|lra].
  destruct (Rle_or_lt 0 e); [assumption|]. exfalso. assert (K * e < K * 0) by (apply Rmult_lt_compat_l; lra). lra.
Qed.
Lemma near_weak : forall K x r e B r' e' B', near K x r e B -> 0 < K -> r = r' -> e <= e' -> B <= B' -> near K x r' e' B'.
Proof.
  intros K x r e B r' e' B' (F & H & HB) HK <- He HB'. split; [exact F|]. split; [|lra].
  eapply Rle_trans; [exact H|]. apply Rmult_le_compat_l; lra.
Qed.
Lemma near_bound : forall K x r e B B', near K x r e B -> Rabs r <= B' -> near K x r e B'.
Proof. intros K x r e B B' (F & H & _) HB. split; auto. Qed.

Lemma near_rnd : forall K x r e B y, scale K -> is_finite x = true -> B2R x = rnd y -> Rabs (y - K * r) <= K * e -> Rabs r <= B ->
  / 1024 <= B -> B + e <= bpow radix2 100 -> near K x r (e + u * (B + e)) B.
Proof.
  intros K x r e B y SK F E H HB L U. pose proof (scale_pos K SK) as HK. split; [exact F|]. split; [|exact HB].
  assert (0 <= e).
  { pose proof (Rabs_pos (y - K * r)). destruct (Rle_or_lt 0 e); [assumption|]. exfalso. assert (K * e < K * 0) by (apply Rmult_lt_compat_l; lra). lra. }
  assert (Y : Rabs y <= K * (B + e)).
  { replace y with ((y - K * r) + K * r) by ring. eapply Rle_trans; [apply Rabs_triang|].
    rewrite (Rabs_mult K r), (Rabs_pos_eq K) by lra. apply Rle_trans with (K * e + K * B); [|lra].
    apply Rplus_le_compat; [exact H|]. apply Rmult_le_compat_l; lra. }
  pose proof (rnd_abs y (K * (B + e)) (proj1 (scale_mid K (B + e) SK ltac:(lra))) Y) as R.
  rewrite E. replace (rnd y - K * r) with ((rnd y - y) + (y - K * r)) by ring.
  eapply Rle_trans; [apply Rabs_triang|]. lra.
Qed.

(** y is what the exact operation gives on the operands. *)
Lemma near_add : forall K x r e B y s f C, near K x r e B -> near K y s f C -> scale K ->
  / 1024 <= B + C -> B + C + (e + f) <= bpow radix2 100 ->
  near K (b64_plus x y) (r + s) (e + f + u * (B + C + (e + f))) (B + C).
Proof.
  intros K x r e B y s f C (F1 & H1 & B1) (F2 & H2 & B2) SK L U.
  assert (T : Rabs (B2R x + B2R y - K * (r + s)) <= K * (e + f)).
  { replace (B2R x + B2R y - K * (r + s)) with ((B2R x - K * r) + (B2R y - K * s)) by ring. eapply Rle_trans; [apply Rabs_triang|]. lra. }
  assert (BB : Rabs (r + s) <= B + C) by (eapply Rle_trans; [apply Rabs_triang|]; lra).
  pose proof (scale_pos K SK) as HK.
  assert (E0 : 0 <= e + f).
  { destruct (near_e K x r e B HK ltac:(split; auto)). destruct (near_e K y s f C HK ltac:(split; auto)). lra. }
  assert (Y : Rabs (B2R x + B2R y) <= K * (B + C + (e + f))).
  { replace (B2R x + B2R y) with ((B2R x + B2R y - K * (r + s)) + K * (r + s)) by ring. eapply Rle_trans; [apply Rabs_triang|].
    rewrite (Rabs_mult K), (Rabs_pos_eq K) by lra. assert (K * Rabs (r + s) <= K * (B + C)) by (apply Rmult_le_compat_l; lra). lra. }
  pose proof (Bplus_correct 53 1024 b64_prec_gt_0 b64_prec_lt_emax mode_NE x y F1 F2) as P. cbn [round_mode] in P.
  change (round radix2 (SpecFloat.fexp 53 1024) ZnearestE) with rnd in P.
  rewrite Rlt_bool_true in P by (apply (rnd_small _ (K * (B + C + (e + f)))); [apply scale_mid; [exact SK|lra]|exact Y]).
  destruct P as (P1 & P2 & _). apply near_rnd with (y := B2R x + B2R y); auto.
Qed.
Lemma near_sub : forall K x r e B y s f C, near K x r e B -> near K y s f C -> scale K ->
  / 1024 <= B + C -> B + C + (e + f) <= bpow radix2 100 ->
  near K (b64_minus x y) (r - s) (e + f + u * (B + C + (e + f))) (B + C).
Proof.
  intros K x r e B y s f C (F1 & H1 & B1) (F2 & H2 & B2) SK L U.
  assert (T : Rabs (B2R x - B2R y - K * (r - s)) <= K * (e + f)).
  { replace (B2R x - B2R y - K * (r - s)) with ((B2R x - K * r) + - (B2R y - K * s)) by ring. eapply Rle_trans; [apply Rabs_triang|].
    rewrite Rabs_Ropp. lra. }
  assert (BB : Rabs (r - s) <= B + C) by (unfold Rminus; eapply Rle_trans; [apply Rabs_triang|]; rewrite Rabs_Ropp; lra).
  pose proof (scale_pos K SK) as HK.
  assert (E0 : 0 <= e + f).
  { destruct (near_e K x r e B HK ltac:(split; auto)). destruct (near_e K y s f C HK ltac:(split; auto)). lra. }
  assert (Y : Rabs (B2R x - B2R y) <= K * (B + C + (e + f))).
  { replace (B2R x - B2R y) with ((B2R x - B2R y - K * (r - s)) + K * (r - s)) by ring. eapply Rle_trans; [apply Rabs_triang|].
    rewrite (Rabs_mult K), (Rabs_pos_eq K) by lra. assert (K * Rabs (r - s) <= K * (B + C)) by (apply Rmult_le_compat_l; lra). lra. }
  pose proof (Bminus_correct 53 1024 b64_prec_gt_0 b64_prec_lt_emax mode_NE x y F1 F2) as P. cbn [round_mode] in P.
  change (round radix2 (SpecFloat.fexp 53 1024) ZnearestE) with rnd in P.
  rewrite Rlt_bool_true in P by (apply (rnd_small _ (K * (B + C + (e + f)))); [apply scale_mid; [exact SK|lra]|exact Y]).
  destruct P as (P1 & P2 & _). apply near_rnd with (y := B2R x - B2R y); auto.
Qed.
Lemma near_mul : forall K L x r e B y s f C, near K x r e B -> near L y s f C -> 0 < K -> 0 < L -> scale (K * L) ->
  / 1024 <= B * C -> (B + e) * (C + f) <= bpow radix2 100 ->
  near (K * L) (b64_mult x y) (r * s) (e * C + B * f + e * f + u * ((B + e) * (C + f))) (B * C).
Proof.
  intros K L x r e B y s f C N1 N2 HK HL SK LL U.
  destruct (near_e _ _ _ _ _ HK N1) as [E1 E2]. destruct (near_e _ _ _ _ _ HL N2) as [E3 E4].
  destruct N1 as (F1 & H1 & B1). destruct N2 as (F2 & H2 & B2).
  pose proof (Rabs_pos r). pose proof (Rabs_pos s).
  assert (T : Rabs (B2R x * B2R y - K * L * (r * s)) <= K * L * (e * C + B * f + e * f)).
  { set (dx := B2R x - K * r) in *. set (dy := B2R y - L * s) in *.
    replace (B2R x) with (dx + K * r) by (unfold dx; ring). replace (B2R y) with (dy + L * s) by (unfold dy; ring).
    replace ((dx + K * r) * (dy + L * s) - K * L * (r * s)) with (dx * (L * s) + K * r * dy + dx * dy) by ring.
    eapply Rle_trans; [apply Rabs_triang|]. eapply Rle_trans; [apply Rplus_le_compat_r, Rabs_triang|].
    rewrite !Rabs_mult, (Rabs_pos_eq K), (Rabs_pos_eq L) by lra.
    assert (Rabs dx * (L * Rabs s) <= K * e * (L * C)).
    { apply Rmult_le_compat; try apply Rabs_pos; auto. - apply Rmult_le_pos; lra. - apply Rmult_le_compat_l; lra. }
    assert (K * Rabs r * Rabs dy <= K * B * (L * f)).
    { apply Rmult_le_compat; try apply Rabs_pos; auto. - apply Rmult_le_pos; lra. - apply Rmult_le_compat_l; lra. }
    assert (Rabs dx * Rabs dy <= K * e * (L * f)) by (apply Rmult_le_compat; try apply Rabs_pos; auto).
    replace (K * L * (e * C + B * f + e * f)) with (K * e * (L * C) + K * B * (L * f) + K * e * (L * f)) by ring. lra. }
  assert (BB : Rabs (r * s) <= B * C) by (rewrite Rabs_mult; apply Rmult_le_compat; lra).
  pose proof (scale_pos _ SK) as HKL.
  assert (EQ : (B + e) * (C + f) = B * C + (e * C + B * f + e * f)) by ring.
  assert (E0 : 0 <= e * C + B * f + e * f) by nra.
  assert (Y : Rabs (B2R x * B2R y) <= K * L * ((B + e) * (C + f))).
  { replace (B2R x * B2R y) with ((B2R x * B2R y - K * L * (r * s)) + K * L * (r * s)) by ring. eapply Rle_trans; [apply Rabs_triang|].
    rewrite (Rabs_mult (K * L)), (Rabs_pos_eq (K * L)) by lra. assert (K * L * Rabs (r * s) <= K * L * (B * C)) by (apply Rmult_le_compat_l; lra).
    rewrite EQ, (Rmult_plus_distr_l (K * L)). lra. }
  pose proof (Bmult_correct 53 1024 b64_prec_gt_0 b64_prec_lt_emax mode_NE x y) as P. cbn [round_mode] in P.
  change (round radix2 (SpecFloat.fexp 53 1024) ZnearestE) with rnd in P.
  rewrite Rlt_bool_true in P by (apply (rnd_small _ (K * L * ((B + e) * (C + f)))); [apply scale_mid; [exact SK|lra]|exact Y]).
  destruct P as (P1 & P2 & _). rewrite EQ. apply near_rnd with (y := B2R x * B2R y); auto; [|lra].
  unfold b64_mult. rewrite P2, F1, F2. reflexivity.
Qed.
Lemma near_div : forall K L x r e B y s f C m, near K x r e B -> near L y s f C -> 0 < K -> 0 < L -> scale (K / L) ->
  m <= Rabs s -> f < m -> / 1024 <= B / m -> B / m + (e + B / m * f) / (m - f) <= bpow radix2 100 ->
  near (K / L) (b64_div x y) (r / s) ((e + B / m * f) / (m - f) + u * (B / m + (e + B / m * f) / (m - f))) (B / m).
Proof.
  intros K L x r e B y s f C m N1 N2 HK HL SK Hm Hf LL U.
  destruct (near_e _ _ _ _ _ HK N1) as [E1 E2]. destruct (near_e _ _ _ _ _ HL N2) as [E3 E4].
  destruct N1 as (F1 & H1 & B1). destruct N2 as (F2 & H2 & B2).
  assert (S0 : s <> 0) by (intros ->; rewrite Rabs_R0 in Hm; lra).
  assert (YL : L * (m - f) <= Rabs (B2R y)).
  { assert (L * m <= Rabs (L * s)) by (rewrite Rabs_mult, (Rabs_pos_eq L) by lra; apply Rmult_le_compat_l; lra).
    pose proof (Rabs_triang_inv (L * s) (L * s - B2R y)) as T. replace (L * s - (L * s - B2R y)) with (B2R y) in T by ring.
    rewrite (Rabs_minus_sym (L * s)) in T. lra. }
  assert (P0 : 0 < L * (m - f)) by (apply Rmult_lt_0_compat; lra).
  assert (Y0 : B2R y <> 0) by (intros Z; rewrite Z, Rabs_R0 in YL; lra).
  assert (Q : Rabs (r / s) <= B / m).
  { unfold Rdiv. rewrite Rabs_mult, Rabs_inv by exact S0. apply Rmult_le_compat; try apply Rabs_pos; auto.
    - apply Rlt_le, Rinv_0_lt_compat, Rabs_pos_lt, S0.
    - apply Rinv_le_contravar; lra. }
  assert (T : Rabs (B2R x / B2R y - K / L * (r / s)) <= K / L * ((e + B / m * f) / (m - f))).
  { set (dx := B2R x - K * r) in *. set (dy := B2R y - L * s) in *.
    replace (B2R x / B2R y - K / L * (r / s)) with ((dx - K / L * (r / s) * dy) / B2R y).
    2:{ unfold dx, dy. field. repeat split; auto. lra. }
    unfold Rdiv at 1. rewrite Rabs_mult, Rabs_inv by exact Y0.
    replace (K / L * ((e + B / m * f) / (m - f))) with ((K * e + K / L * (B / m) * (L * f)) * / (L * (m - f))).
    2:{ field. pose proof (Rabs_pos s). repeat split; lra. }
    apply Rmult_le_compat; try apply Rabs_pos.
    - apply Rlt_le, Rinv_0_lt_compat, Rabs_pos_lt, Y0.
    - unfold Rminus at 1. eapply Rle_trans; [apply Rabs_triang|]. rewrite Rabs_Ropp. apply Rplus_le_compat; [exact H1|].
      rewrite !Rabs_mult. pose proof (scale_pos _ SK). rewrite (Rabs_pos_eq (K / L)) by lra.
      apply Rmult_le_compat; try apply Rabs_pos; auto.
      + apply Rmult_le_pos; [lra|apply Rabs_pos].
      + apply Rmult_le_compat_l; lra.
    - apply Rinv_le_contravar; lra. }
  assert (QP : 0 <= B / m) by (pose proof (Rabs_pos (r / s)); lra).
  assert (E0 : 0 <= (e + B / m * f) / (m - f)).
  { apply Rmult_le_pos; [|apply Rlt_le, Rinv_0_lt_compat; lra]. apply Rplus_le_le_0_compat; [lra|]. apply Rmult_le_pos; lra. }
  pose proof (scale_pos _ SK) as HKL.
  assert (Y : Rabs (B2R x / B2R y) <= K / L * (B / m + (e + B / m * f) / (m - f))).
  { replace (B2R x / B2R y) with ((B2R x / B2R y - K / L * (r / s)) + K / L * (r / s)) by ring. eapply Rle_trans; [apply Rabs_triang|].
    rewrite (Rabs_mult (K / L) (r / s)), (Rabs_pos_eq (K / L)) by lra.
    assert (K / L * Rabs (r / s) <= K / L * (B / m)) by (apply Rmult_le_compat_l; lra). rewrite (Rmult_plus_distr_l (K / L)). lra. }
  pose proof (Bdiv_correct 53 1024 b64_prec_gt_0 b64_prec_lt_emax mode_NE x y Y0) as P. cbn [round_mode] in P.
  change (round radix2 (SpecFloat.fexp 53 1024) ZnearestE) with rnd in P.
  rewrite Rlt_bool_true in P by (apply (rnd_small _ (K / L * (B / m + (e + B / m * f) / (m - f)))); [apply scale_mid; [exact SK|lra]|exact Y]).
  destruct P as (P1 & P2 & _). apply near_rnd with (y := B2R x / B2R y); auto.
  unfold b64_div. rewrite P2. exact F1.
Qed.
(** Square roots of numbers of at least q^2. *)
Lemma near_sqrt : forall K x r e B q C, near (K * K) x r e B -> scale K -> 0 < q -> q * q <= r -> e <= q * q -> B <= C * C -> 0 <= C ->
  / 1024 <= C -> C + e / q <= bpow radix2 100 ->
  near K (b64_sqrt x) (sqrt r) (e / q + u * (C + e / q)) C.
Proof.
  intros K x r e B q C N1 SK Hq Hr He HB HC LL U. pose proof (scale_pos K SK) as HK.
  destruct (near_e (K * K) _ _ _ _ ltac:(nra) N1) as [E1 E2]. destruct N1 as (F1 & H1 & B1).
  assert (R0 : 0 <= r) by nra. assert (X0 : 0 <= B2R x).
  { assert (K * K * (r - e) <= B2R x) by (apply Rabs_le_inv in H1; lra). assert (0 <= K * K * (r - e)) by (apply Rmult_le_pos; nra). lra. }
  assert (BB : Rabs (sqrt r) <= C).
  { rewrite Rabs_pos_eq by apply sqrt_pos. rewrite <- (sqrt_square C) by exact HC. apply sqrt_le_1_alt. rewrite Rabs_pos_eq in B1 by exact R0. lra. }
  assert (SQ : q <= sqrt r) by (rewrite <- (sqrt_square q) by lra; apply sqrt_le_1_alt; exact Hr).
  assert (T : Rabs (sqrt (B2R x) - K * sqrt r) <= K * (e / q)).
  { assert (KS : K * sqrt r = sqrt (K * K * r)).
    { rewrite sqrt_mult_alt, sqrt_square by nra. reflexivity. }
    rewrite KS. set (X := B2R x) in *. set (Y := K * K * r) in *.
    assert (YP : K * q <= sqrt Y) by (rewrite <- KS; apply Rmult_le_compat_l; lra).
    assert (XP : 0 <= sqrt X) by apply sqrt_pos. assert (KQ : 0 < K * q) by (apply Rmult_lt_0_compat; lra).
    assert (Y0 : 0 <= Y) by (unfold Y; apply Rmult_le_pos; nra).
    replace (sqrt X - sqrt Y) with ((X - Y) / (sqrt X + sqrt Y)).
    2:{ rewrite <- (sqrt_sqrt X) at 1 by exact X0. rewrite <- (sqrt_sqrt Y) at 1 by exact Y0. field. lra. }
    unfold Rdiv at 1. rewrite Rabs_mult, Rabs_inv by lra. rewrite (Rabs_pos_eq (sqrt X + sqrt Y)) by lra.
    replace (K * (e / q)) with (K * K * e * / (K * q)) by (field; lra).
    apply Rmult_le_compat; try apply Rabs_pos; [apply Rlt_le, Rinv_0_lt_compat; lra|exact H1|apply Rinv_le_contravar; lra]. }
  assert (E0 : 0 <= e / q) by (apply Rmult_le_pos; [lra|apply Rlt_le, Rinv_0_lt_compat; lra]).
  pose proof (Bsqrt_correct 53 1024 b64_prec_gt_0 b64_prec_lt_emax mode_NE x) as (P1 & P2 & _). cbn [round_mode] in P1.
  change (round radix2 (SpecFloat.fexp 53 1024) ZnearestE) with rnd in P1.
  apply near_rnd with (y := sqrt (B2R x)); auto.
  unfold b64_sqrt. rewrite P2. destruct x as [s| | |s m e0 HH]; try reflexivity; try discriminate.
  destruct s; [|reflexivity]. exfalso. cbn in X0. pose proof (F2R_lt_0 radix2 (Float radix2 (Zneg m) e0) ltac:(reflexivity)) as Z. cbn in Z. cbn [cond_Zopp] in X0.
  change (- Z.pos m)%Z with (Z.neg m) in X0. lra.
Qed.
Lemma near_opp : forall K x r e B, near K x r e B -> near K (Bopp x) (- r) e B.
Proof.
  intros K x r e B (F & H & HB). split; [|split].
  - rewrite is_finite_Bopp. exact F.
  - rewrite B2R_Bopp. replace (- B2R x - K * - r) with (- (B2R x - K * r)) by ring. rewrite Rabs_Ropp. exact H.
  - rewrite Rabs_Ropp. exact HB.
Qed.

(** ** Constants *)
Lemma near_self : forall x B, is_finite x = true -> Rabs (B2R x) <= B -> near 1 x (B2R x) 0 B.
Proof. intros x B F H. split; [exact F|]. split; [|exact H]. replace (B2R x - 1 * B2R x) with 0 by ring. rewrite Rabs_R0. lra. Qed.
Lemma near_Z : forall z, (Z.abs z <= 2 ^ 53)%Z -> near 1 (b64_Z z) (IZR z) 0 (IZR (Z.abs z)).
Proof.
  intros z H. destruct (Z_exact_64 z H) as [E F]. split; [exact F|]. rewrite E. split.
  - replace (IZR z - 1 * IZR z) with 0 by ring. rewrite Rabs_R0. lra.
  - rewrite <- abs_IZR. lra.
Qed.
Lemma near_rescale : forall K c x r e B, near K x r e B -> 0 < c -> near (K / c) x (c * r) (c * e) (c * B).
Proof.
  intros K c x r e B (F & H & HB) HC. split; [exact F|]. split.
  - replace (K / c * (c * r)) with (K * r) by (field; lra). replace (K / c * (c * e)) with (K * e) by (field; lra). exact H.
  - rewrite Rabs_mult, (Rabs_pos_eq c) by lra. apply Rmult_le_compat_l; lra.
Qed.

(** ** Sine and cosine *)
Lemma sin_abs : forall x, Rabs (sin x) <= Rabs x.
Proof.
  assert (P : forall x, 0 < x -> Rabs (sin x) <= x).
  { intros x Hx. destruct (Rle_or_lt x 1) as [H|H].
    - rewrite Rabs_pos_eq; [left; apply sin_lt_x; exact Hx|]. apply sin_ge_0; [lra|]. pose proof PI2_1. lra.
    - pose proof (SIN_bound x). apply Rabs_le. lra. }
  intros x. destruct (Rtotal_order x 0) as [H|[->|H]].
  - rewrite <- (Ropp_involutive x) at 1. rewrite sin_neg, Rabs_Ropp, (Rabs_left x) by exact H. apply P. lra.
  - rewrite sin_0. lra.
  - rewrite (Rabs_right x) by lra. apply P, H.
Qed.
Lemma sin_lip : forall a b, Rabs (sin a - sin b) <= Rabs (a - b).
Proof.
  intros a b. rewrite form4. rewrite !Rabs_mult, (Rabs_pos_eq 2) by lra.
  pose proof (sin_abs ((a - b) / 2)) as S. pose proof (COS_bound ((a + b) / 2)) as C.
  assert (Rabs (cos ((a + b) / 2)) <= 1) by (apply Rabs_le; lra).
  assert (E : Rabs (a - b) = 2 * Rabs ((a - b) / 2)).
  { unfold Rdiv. rewrite Rabs_mult, (Rabs_pos_eq (/ 2)) by lra. lra. }
  rewrite E. pose proof (Rabs_pos (sin ((a - b) / 2))). pose proof (Rabs_pos (cos ((a + b) / 2))). nra.
Qed.
Lemma cos_lip : forall a b, Rabs (cos a - cos b) <= Rabs (a - b).
Proof.
  intros a b. rewrite <- !sin_shift. eapply Rle_trans; [apply sin_lip|]. right.
  replace (PI / 2 - a - (PI / 2 - b)) with (- (a - b)) by ring. apply Rabs_Ropp.
Qed.
Section Trig.
  Variables fsin fcos : b64 -> b64.
  Hypothesis ACC : accurate fsin fcos.
  Lemma near_sin : forall x r e B, near 1 x r e B -> near 1 (fsin x) (sin r) (e + u) 1.
  Proof.
    intros x r e B (F & H & _). destruct (ACC x F) as (F1 & _ & A & _). split; [exact F1|]. rewrite !Rmult_1_l in *. split.
    - replace (B2R (fsin x) - sin r) with ((sin (B2R x) - sin r) + (B2R (fsin x) - sin (B2R x))) by ring.
      eapply Rle_trans; [apply Rabs_triang|]. apply Rplus_le_compat; [|exact A]. eapply Rle_trans; [apply sin_lip|exact H].
    - apply Rabs_le. pose proof (SIN_bound r). lra.
  Qed.
  Lemma near_cos : forall x r e B, near 1 x r e B -> near 1 (fcos x) (cos r) (e + u) 1.
  Proof.
    intros x r e B (F & H & _). destruct (ACC x F) as (_ & F1 & _ & A). split; [exact F1|]. rewrite !Rmult_1_l in *. split.
    - replace (B2R (fcos x) - cos r) with ((cos (B2R x) - cos r) + (B2R (fcos x) - cos (B2R x))) by ring.
      eapply Rle_trans; [apply Rabs_triang|]. apply Rplus_le_compat; [|exact A]. eapply Rle_trans; [apply cos_lip|exact H].
    - apply Rabs_le. pose proof (COS_bound r). lra.
  Qed.
End Trig.

(** M_PI *)
Lemma PI_64 : 0 < PI - B2R b64_pi < u.
Proof.
  destruct pi64_R as [-> _]. pose proof (PI_2_3_7_ineq 8) as [L U]. change (2 * 8)%nat with 16%nat in L, U.
  cbv [sum_f_R0 tg_alt PI_2_3_7_tg Ratan_seq] in L, U. repeat rewrite INR_IZR_INZ in L. repeat rewrite INR_IZR_INZ in U.
  cbn [plus mult Nat.mul Nat.add Z.of_nat Pos.of_succ_nat Pos.succ pow] in L, U. unfold u. change (bpow radix2 (-48)) with (/ 281474976710656).
  split; lra.
Qed.

(** ** The same with errors counted in units u *)
Lemma big100 : bpow radix2 100 = 1267650600228229401496703205376.
Proof. reflexivity. Qed.
Lemma addu : forall K x r a B y s b C c D, near K x r (a * u) B -> near K y s (b * u) C -> scale K ->
  / 1024 <= B + C -> a + b + (B + C + (a + b) * u) <= c -> c <= 100000000000000000000 -> B + C <= D ->
  near K (b64_plus x y) (r + s) (c * u) D.
Proof.
  intros K x r a B y s b C c D N1 N2 SK L H1 H2 H3. pose proof (scale_pos K SK) as HK.
  destruct (near_e _ _ _ _ _ HK N1) as [E1 _]. destruct (near_e _ _ _ _ _ HK N2) as [E2 _]. pose proof u_pos.
  assert (0 <= a) by nra. assert (0 <= b) by nra.
  eapply near_weak; [apply (near_add K _ _ _ _ _ _ _ _ N1 N2 SK L)|exact HK|reflexivity| |exact H3].
  - rewrite big100. lra.
  - replace (a * u + b * u + u * (B + C + (a * u + b * u))) with ((a + b + (B + C + (a + b) * u)) * u) by ring.
    apply Rmult_le_compat_r; lra.
Qed.
Lemma subu : forall K x r a B y s b C c D, near K x r (a * u) B -> near K y s (b * u) C -> scale K ->
  / 1024 <= B + C -> a + b + (B + C + (a + b) * u) <= c -> c <= 100000000000000000000 -> B + C <= D ->
  near K (b64_minus x y) (r - s) (c * u) D.
Proof.
  intros K x r a B y s b C c D N1 N2 SK L H1 H2 H3. pose proof (scale_pos K SK) as HK.
  destruct (near_e _ _ _ _ _ HK N1) as [E1 _]. destruct (near_e _ _ _ _ _ HK N2) as [E2 _]. pose proof u_pos.
  assert (0 <= a) by nra. assert (0 <= b) by nra.
  eapply near_weak; [apply (near_sub K _ _ _ _ _ _ _ _ N1 N2 SK L)|exact HK|reflexivity| |exact H3].
  - rewrite big100. lra.
  - replace (a * u + b * u + u * (B + C + (a * u + b * u))) with ((a + b + (B + C + (a + b) * u)) * u) by ring.
    apply Rmult_le_compat_r; lra.
Qed.
Lemma mulu : forall K L x r a B y s b C c D, near K x r (a * u) B -> near L y s (b * u) C -> 0 < K -> 0 < L -> scale (K * L) ->
  / 1024 <= B * C -> a * C + B * b + a * b * u + (B + a * u) * (C + b * u) <= c -> c <= 100000000000000000000 -> B * C <= D ->
  near (K * L) (b64_mult x y) (r * s) (c * u) D.
Proof.
  intros K L x r a B y s b C c D N1 N2 HK HL SK LL H1 H2 H3.
  destruct (near_e _ _ _ _ _ HK N1) as [E1 F1]. destruct (near_e _ _ _ _ _ HL N2) as [E2 F2]. pose proof u_pos.
  assert (0 <= a) by nra. assert (0 <= b) by nra.
  assert (0 <= a * C) by (apply Rmult_le_pos; assumption). assert (0 <= B * b) by (apply Rmult_le_pos; assumption).
  assert (0 <= a * b * u) by (repeat apply Rmult_le_pos; lra).
  eapply near_weak; [apply (near_mul K L _ _ _ _ _ _ _ _ N1 N2 HK HL SK LL)|apply scale_pos; exact SK|reflexivity| |exact H3].
  - rewrite big100. lra.
  - replace (a * u * C + B * (b * u) + a * u * (b * u) + u * ((B + a * u) * (C + b * u)))
      with ((a * C + B * b + a * b * u + (B + a * u) * (C + b * u)) * u) by ring.
    apply Rmult_le_compat_r; lra.
Qed.
Lemma scale_1 : scale 1.
Proof. split; change 1 with (bpow radix2 0); apply bpow_le; lia. Qed.
