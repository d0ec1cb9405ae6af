(** The line of sight test in doubles. *)
Require Import ZArith Reals Lra Lia Psatz Bool.
From Flocq Require Import Core.Core IEEE754.BinarySingleNaN.
Require Import Verif.Num Verif.NumR Verif.Num64 Verif.Vec Verif.LossModel Verif.GeomSpec Verif.Float64Spec
  Verif.LossProofs Verif.LeoLossProofs Verif.Alloc64Proofs Verif.Read64Proofs Verif.Float64Proofs Verif.Orbit64Proofs Verif.Orbit64Api.
Local Open Scope R_scope.
Local Notation Rad := 6371009.
Local Notation scaled := Float64Proofs.scale.
Local Notation rnd := (round radix2 (FLT_exp (-1074) 53) ZnearestE).

(** ** The decision, given approximations *)
(** [x * x - 2 * m * x + c] is the squared distance from the centre less Rad^2 at
    the distance [x] from the outer satellite; [D] is four times the square of half
    the chord. *)
Lemma clear_decision : forall s m c D del, 0 < del -> 0 < m -> D = 4 * (m * m - c) -> D <= 4 * (Rad * Rad) ->
  (forall x, 0 <= x <= s -> (Rad + del) * (Rad + del) - Rad * Rad <= x * x - 2 * m * x + c) -> 0 <= s ->
  forall D', Rabs (D' - D) <= 4 * Rad * del -> 0 <= D' -> s + del <= m - sqrt (Rmax D 0) / 2.
Proof.
  intros s m c D del Hd Hm ED DB Hf Hs D' HD H0. apply Rabs_le_inv in HD.
  destruct (Rle_or_lt m s) as [L|L].
  { exfalso. pose proof (Hf m ltac:(lra)). nra. }
  pose proof (Hf s ltac:(lra)) as F.
  unfold Rmax. destruct (Rle_dec D 0) as [G|G].
  - rewrite sqrt_0. nra.
  - set (q := sqrt D). assert (Q0 : 0 <= q) by apply sqrt_pos. assert (QQ : q * q = D) by (apply sqrt_sqrt; lra).
    assert (Q1 : q <= 2 * Rad) by nra.
    set (w := m - q / 2 - s). assert (W : w * (w + q) = s * s - 2 * m * s + c) by (unfold w; nra).
    assert (W0 : 0 < w).
    { destruct (Rle_or_lt w 0) as [X|X]; [exfalso|exact X]. assert (0 <= w + q) by (unfold w; lra). nra. }
    assert (del <= w) by nra. unfold w in *. lra.
Qed.

Lemma sqrt_diff : forall a b e, 0 <= a -> 0 <= b -> Rabs (a - b) <= e * e -> 0 <= e -> Rabs (sqrt a - sqrt b) <= e.
Proof.
  intros a b e Ha Hb H He. apply Rabs_le_inv in H.
  pose proof (sqrt_pos a). pose proof (sqrt_pos b). pose proof (sqrt_sqrt a Ha). pose proof (sqrt_sqrt b Hb).
  apply Rabs_le. split; nra.
Qed.

(** [e]: bound on the error of the square root; [g]: of the remaining arithmetic. *)
Lemma clear_ok : forall s m c D del D' e g s' t1 t2, 0 < del -> 0 < m -> D = 4 * (m * m - c) -> D <= 4 * (Rad * Rad) ->
  (forall x, 0 <= x <= s -> (Rad + del) * (Rad + del) - Rad * Rad <= x * x - 2 * m * x + c) -> 0 <= s ->
  Rabs (D' - D) <= e * e -> 0 <= e -> e * e <= 4 * Rad * del -> 0 <= D' ->
  Rabs (s' - s) <= g -> Rabs (t1 - (m - sqrt D' / 2)) <= g -> Rabs (t2 - (m + sqrt D' / 2)) <= g -> e / 2 + 2 * g < del ->
  s' < Rabs t1 /\ s' < Rabs t2.
Proof.
  intros s m c D del D' e g s' t1 t2 Hd Hm ED DB Hf Hs HD He H1 H0 Gs G1 G2 Hg.
  pose proof (clear_decision s m c D del Hd Hm ED DB Hf Hs D' ltac:(lra) H0) as Q.
  assert (HM : 0 <= Rmax D 0) by apply Rmax_r.
  assert (HS : Rabs (sqrt D' - sqrt (Rmax D 0)) <= e).
  { apply sqrt_diff; try assumption. apply Rabs_le_inv in HD. apply Rabs_le. unfold Rmax. destruct (Rle_dec D 0); lra. }
  apply Rabs_le_inv in HS, Gs, G1, G2. pose proof (sqrt_pos D'). pose proof (sqrt_pos (Rmax D 0)).
  rewrite !Rabs_pos_eq; lra.
Qed.

Lemma blocked_ok : forall s m c D del D' e g s' t1, 0 < del < Rad -> D = 4 * (m * m - c) ->
  (exists x, 0 <= x <= s /\ x * x - 2 * m * x + c <= (Rad - del) * (Rad - del) - Rad * Rad) ->
  0 <= c -> 0 <= s * s - 2 * m * s + c ->
  Rabs (D' - D) <= e * e -> 0 <= e -> e * e <= Rad * del / 4 -> 0 <= g -> g * g <= Rad * del / 4 ->
  Rabs (s' - s) <= g -> Rabs (t1 - (m - sqrt D' / 2)) <= g ->
  0 < D' /\ Rabs t1 <= s'.
Proof.
  intros s m c D del D' e g s' t1 Hd ED (x & Hx & Fx) Hc Hs HD He H1 Hg H2 Gs G1.
  assert (DD : 4 * Rad * del <= D).
  { assert (0 <= (x - m) * (x - m)) by apply Rle_0_sqr. assert (0 <= del * (Rad - del)) by (apply Rmult_le_pos; lra). lra. }
  set (q := sqrt D). assert (Q0 : 0 <= q) by apply sqrt_pos. assert (QQ : q * q = D) by (apply sqrt_sqrt; nra).
  assert (QE : 4 * e <= q) by nra. assert (QG : 4 * g <= q) by nra.
  assert (DP : 0 < D') by (apply Rabs_le_inv in HD; nra).
  assert (HS : Rabs (sqrt D' - q) <= e) by (apply sqrt_diff; nra).
  assert (X1 : m - q / 2 < x < m + q / 2).
  { assert ((x - m) * (x - m) < q / 2 * (q / 2)) by nra. split; nra. }
  assert (S1 : m + q / 2 <= s).
  { destruct (Rle_or_lt (m + q / 2) s) as [L|L]; [exact L|exfalso]. assert (m - q / 2 < s) by lra. nra. }
  assert (S0 : q / 2 <= m).
  { destruct (Rle_or_lt (q / 2) m) as [L|L]; [exact L|exfalso]. assert (0 < m + q / 2) by lra. nra. }
  split; [exact DP|]. apply Rabs_le_inv in HS, Gs, G1. apply Rabs_le. lra.
Qed.

(** ** Differences of doubles are accurate relatively *)
Lemma near_diff : forall S x y, is_finite x = true -> is_finite y = true -> Rabs (B2R x - B2R y) <= S -> scaled S ->
  near S (b64_minus x y) ((B2R x - B2R y) / S) (1 * u) 1.
Proof.
  intros S x y Fx Fy H SS. pose proof (scale_pos S SS) as HS.
  pose proof (Bminus_correct 53 1024 b64_prec_gt_0 b64_prec_lt_emax mode_NE x y Fx Fy) as C. cbn [round_mode] in C.
  change (round radix2 (SpecFloat.fexp 53 1024) ZnearestE) with rnd in C.
  assert (MID : bpow radix2 (-500) <= S <= bpow radix2 1000).
  { pose proof (scale_mid S 1 SS) as Q. rewrite Rmult_1_r in Q. apply Q. rewrite big100. lra. }
  rewrite Rlt_bool_true in C by (apply (rnd_small _ S MID H)).
  destruct C as (V & FV & _). fold (b64_minus x y) in V, FV.
  assert (E0 : Rabs (B2R x - B2R y - S * ((B2R x - B2R y) / S)) <= S * 0).
  { replace (B2R x - B2R y - S * ((B2R x - B2R y) / S)) with 0 by (field; lra). rewrite Rabs_R0. lra. }
  assert (B0 : Rabs ((B2R x - B2R y) / S) <= 1).
  { unfold Rdiv. rewrite Rabs_mult, Rabs_inv, (Rabs_pos_eq S) by lra. apply Rmult_le_reg_r with S; [lra|]. rewrite Rmult_assoc, Rinv_l; lra. }
  eapply near_weak; [apply (near_rnd S (b64_minus x y) ((B2R x - B2R y) / S) 0 1 _ SS FV V E0 B0)|lra|reflexivity| |lra];
    [lra|rewrite big100; lra|lra].
Qed.

Lemma near_scale_self : forall K x, is_finite x = true -> Rabs (B2R x) <= K -> 0 < K -> near K x (B2R x / K) (0 * u) 1.
Proof.
  intros K x F H HK. pose proof (near_rescale 1 (/ K) _ _ _ _ (near_self x K F H) ltac:(apply Rinv_0_lt_compat; lra)) as N.
  replace (1 / / K) with K in N by (field; lra).
  eapply near_weak; [exact N|lra|unfold Rdiv; ring|lra|]. rewrite Rinv_l; lra.
Qed.

(** Length of a vector relative to its exact length. *)
Section Length.
  Variables fsin fcos ftan : b64 -> b64.
  Local Notation N64 := (Num64 fsin fcos ftan).

  (** A vector with coordinates near S * (x, y, z), where (x, y, z) has length 1. *)
  Lemma length_64 : forall S (v : vec N64) x y z a, scaled S -> scaled (S * S) -> 0 <= a <= 2000 ->
    near S (vx v) x (a * u) 1 -> near S (vy v) y (a * u) 1 -> near S (vz v) z (a * u) 1 -> x * x + y * y + z * z = 1 ->
    near S (vlen v) 1 ((6 * a + 9) * u) 1.
  Proof.
    intros S v x y z a SS SSS Ha N1 N2 N3 CU. pose proof u_pos as U0. assert (U1 : u <= / 1000000) by small. pose proof (scale_pos S SS) as HS.
    assert (AU : 0 <= a * u <= / 1000000) by (split; [apply Rmult_le_pos; lra|]; apply Rle_trans with (2000 * u); [apply Rmult_le_compat_r; lra|small]).
    assert (AA : 0 <= a * a * u <= / 100).
    { split; [apply Rmult_le_pos; [nra|lra]|]. rewrite Rmult_assoc. apply Rle_trans with (2000 * (a * u)); [apply Rmult_le_compat_r; lra|lra]. }
    assert (MU : forall p r, near S p r (a * u) 1 -> near (S * S) (b64_mult p p) (r * r) ((2 * a + 11 / 10) * u) 1).
    { intros p r Np. apply (mulu S S _ _ a 1 _ _ a 1 _ 1 Np Np HS HS SSS); try lra.
      assert ((1 + a * u) * (1 + a * u) <= 1 + 3 * (a * u)) by nra. lra. }
    pose proof (MU _ _ N1) as M1. pose proof (MU _ _ N2) as M2. pose proof (MU _ _ N3) as M3.
    assert (A1 : near (S * S) (b64_plus (b64_mult (vx v) (vx v)) (b64_mult (vy v) (vy v))) (x * x + y * y) ((4 * a + 43 / 10) * u) 1).
    { apply near_bound with (B := 2); [|pose proof (Rle_0_sqr x); pose proof (Rle_0_sqr y); pose proof (Rle_0_sqr z); unfold Rsqr in *; apply Rabs_le; lra]. apply (addu (S * S) _ _ _ 1 _ _ _ 1 _ 2 M1 M2 SSS); lra. }
    assert (A2 : near (S * S) (b64_plus (b64_plus (b64_mult (vx v) (vx v)) (b64_mult (vy v) (vy v))) (b64_mult (vz v) (vz v))) 1 ((6 * a + 75 / 10) * u) 1).
    { rewrite <- CU. apply near_bound with (B := 2); [|rewrite CU, Rabs_R1; lra].
      apply (addu (S * S) _ _ _ 1 _ _ _ 1 _ 2 A1 M3 SSS); lra. }
    assert (EL : (6 * a + 75 / 10) * u <= / 100) by lra.
    pose proof (near_sqrt S _ _ _ _ 1 1 A2 SS ltac:(lra) ltac:(lra) ltac:(lra) ltac:(lra) ltac:(lra) ltac:(lra) ltac:(rewrite big100; lra)) as Q.
    rewrite sqrt_1 in Q. eapply near_weak; [exact Q|exact HS|reflexivity| |lra].
    replace ((6 * a + 75 / 10) * u / 1 + u * (1 + (6 * a + 75 / 10) * u / 1)) with ((6 * a + 75 / 10 + (1 + (6 * a + 75 / 10) * u)) * u) by field.
    apply Rmult_le_compat_r; lra.
  Qed.

  Lemma unit_of : forall p : point, 0 < norm p -> px p / norm p * (px p / norm p) + py p / norm p * (py p / norm p) + pz p / norm p * (pz p / norm p) = 1.
  Proof.
    intros p H. pose proof (norm_sq p) as E. unfold inner in E.
    transitivity ((px p * px p + py p * py p + pz p * pz p) / (norm p * norm p)); [field; lra|]. rewrite <- E. field. lra.
  Qed.
  Lemma coord_le : forall p : point, Rabs (px p) <= norm p /\ Rabs (py p) <= norm p /\ Rabs (pz p) <= norm p.
  Proof.
    intros p. pose proof (norm_sq p) as E. pose proof (norm_nonneg p). unfold inner in E. repeat split; apply Rabs_le; split; nra.
  Qed.

  Lemma vlen_64 : forall v : vec N64, finite_vec v -> / 1000000 <= norm (reals v) <= 2000000000000 ->
    near (norm (reals v)) (vlen v) 1 (9 * u) 1.
  Proof.
    intros v (F1 & F2 & F3) H. set (S := norm (reals v)) in *.
    assert (SC : scaled S) by (apply scale_mid2; exact H).
    assert (SSC : scaled (S * S)).
    { apply scale_of.
      - apply Rle_trans with (bpow radix2 (-50)); [apply bpow_le; lia|change (bpow radix2 (-50)) with (/ 1125899906842624)]. nra.
      - apply Rle_trans with (bpow radix2 100); [rewrite big100|apply bpow_le; lia]. nra. }
    destruct (coord_le (reals v)) as (C1 & C2 & C3). fold S in C1, C2, C3.
    pose proof (unit_of (reals v) ltac:(fold S; lra)) as UN. fold S in UN.
    eapply near_weak; [apply (length_64 S v (px (reals v) / S) (py (reals v) / S) (pz (reals v) / S) 0 SC SSC ltac:(lra))|lra|reflexivity|lra|lra].
    - apply (near_scale_self S (vx v) F1 C1). lra.
    - apply (near_scale_self S (vy v) F2 C2). lra.
    - apply (near_scale_self S (vz v) F3 C3). lra.
    - exact UN.
  Qed.
End Length.

Section Los.
  Variables fsin fcos ftan : b64 -> b64.
  Local Notation N64 := (Num64 fsin fcos ftan).

  (** The second half of GetLos, after the choice of the outer satellite. *)
  Definition los_core64 (oc bp : vec N64) : bool :=
    let d := vsub bp oc in
    let s2 := vlen d in
    let v := @V N64 (b64_div (vx d) s2) (b64_div (vy d) s2) (b64_div (vz d) s2) in
    let a := b64_plus (b64_plus (b64_mult (vx v) (vx v)) (b64_mult (vy v) (vy v))) (b64_mult (vz v) (vz v)) in
    let b := b64_mult (b64_Z 2) (b64_plus (b64_plus (b64_mult (vx oc) (vx v)) (b64_mult (vy oc) (vy v))) (b64_mult (vz oc) (vz v))) in
    let c := b64_minus (b64_plus (b64_plus (b64_mult (vx oc) (vx oc)) (b64_mult (vy oc) (vy oc))) (b64_mult (vz oc) (vz oc)))
               (b64_mult (b64_Z 6371009) (b64_Z 6371009)) in
    let disc := b64_minus (b64_mult b b) (b64_mult (b64_mult (b64_Z 4) a) c) in
    if nlt N64 disc (b64_Z 0) then true
    else
      nlt N64 s2 (nabs N64 (b64_div (b64_minus (Bopp b) (b64_sqrt disc)) (b64_mult (b64_Z 2) a)))
      && nlt N64 s2 (nabs N64 (b64_div (b64_plus (Bopp b) (b64_sqrt disc)) (b64_mult (b64_Z 2) a))).

  Lemma GetLos_core64 : forall a b : vec N64, GetLos a b = if nlt N64 (vlen b) (vlen a) then los_core64 a b else los_core64 b a.
  Proof. intros a b. unfold GetLos. destruct (nlt N64 (vlen b) (vlen a)); reflexivity. Qed.

  (** Six products summed twice: the inner product of o / K and the unit vector. *)
  Lemma inner_64 : forall K L (x1 y1 z1 x2 y2 z2 : b64) r1 s1 t1 r2 s2 t2 a b, 0 < K -> 0 < L -> scaled (K * L) -> 0 <= a <= 1000 -> 0 <= b <= 1000 ->
    near K x1 r1 (a * u) 1 -> near K y1 s1 (a * u) 1 -> near K z1 t1 (a * u) 1 ->
    near L x2 r2 (b * u) 1 -> near L y2 s2 (b * u) 1 -> near L z2 t2 (b * u) 1 ->
    near (K * L) (b64_plus (b64_plus (b64_mult x1 x2) (b64_mult y1 y2)) (b64_mult z1 z2))
      (r1 * r2 + s1 * s2 + t1 * t2) ((3 * (a + b) + 84 / 10) * u) 3.
  Proof.
    intros K L x1 y1 z1 x2 y2 z2 r1 s1 t1 r2 s2 t2 a b HK HL SK Ha Hb A1 A2 A3 B1 B2 B3. pose proof u_pos as U0.
    assert (U1 : u <= / 1000000000000) by small.
    assert (AU : 0 <= a * u <= / 1000000000) by (split; [apply Rmult_le_pos; lra|apply Rle_trans with (1000 * u); [apply Rmult_le_compat_r; lra|lra]]).
    assert (BU : 0 <= b * u <= / 1000000000) by (split; [apply Rmult_le_pos; lra|apply Rle_trans with (1000 * u); [apply Rmult_le_compat_r; lra|lra]]).
    assert (AB : 0 <= a * b * u <= / 1000000).
    { split; [rewrite Rmult_assoc; apply Rmult_le_pos; lra|]. rewrite Rmult_assoc. apply Rle_trans with (1000 * (b * u)); [apply Rmult_le_compat_r; lra|lra]. }
    assert (PR : (1 + a * u) * (1 + b * u) <= 1 + / 1000000).
    { assert (a * u * (b * u) <= / 1000000000 * / 1000000000) by (apply Rmult_le_compat; lra). lra. }
    assert (MU : forall p r q s, near K p r (a * u) 1 -> near L q s (b * u) 1 -> near (K * L) (b64_mult p q) (r * s) ((a + b + 11 / 10) * u) 1).
    { intros p r q s Np Nq. apply (mulu K L _ _ a 1 _ _ b 1 _ 1 Np Nq HK HL SK); lra. }
    pose proof (MU _ _ _ _ A1 B1) as M1. pose proof (MU _ _ _ _ A2 B2) as M2. pose proof (MU _ _ _ _ A3 B3) as M3.
    assert (S1 : near (K * L) (b64_plus (b64_mult x1 x2) (b64_mult y1 y2)) (r1 * r2 + s1 * s2) ((2 * (a + b) + 42.1 / 10) * u) 2)
      by (apply (addu (K * L) _ _ _ 1 _ _ _ 1 _ 2 M1 M2 SK); lra).
    apply (addu (K * L) _ _ _ 2 _ _ _ 1 _ 3 S1 M3 SK); lra.
  Qed.

  Lemma nlt_64 : forall x y : b64, is_finite x = true -> is_finite y = true -> nlt N64 x y = Rlt_bool (B2R x) (B2R y).
  Proof. intros x y Hx Hy. apply (Bltb_correct 53 1024 x y Hx Hy). Qed.

  Section Core.
    Variables (o p : vec N64) (K : R).
    Hypothesis Fo : finite_vec o.
    Hypothesis Fp : finite_vec p.
    Hypothesis No : norm (reals o) <= K.
    Hypothesis Np : norm (reals p) <= K.
    Hypothesis KB : Rad <= K <= 2000000000.
    Let s := norm (minus (reals p) (reals o)).
    Hypothesis SB : K / 1000000 <= s.
    Let m := - inner (reals o) (minus (reals p) (reals o)) / s.
    Let c := inner (reals o) (reals o) - Rad * Rad.
    Let D := 4 * (m * m - c).

    Lemma core_64 : exists s' D' : b64, is_finite s' = true /\ is_finite D' = true /\ Rabs (B2R s' - s) <= K / 1000000000 /\
      Rabs (B2R D' - D) <= K * K * (1060 * u) /\
      (B2R D' < 0 -> los_core64 o p = true) /\
      (0 <= B2R D' -> exists t1 t2, Rabs (t1 - (m - sqrt (B2R D') / 2)) <= K / 1000000000 /\ Rabs (t2 - (m + sqrt (B2R D') / 2)) <= K / 1000000000 /\
        los_core64 o p = Rlt_bool (B2R s') (Rabs t1) && Rlt_bool (B2R s') (Rabs t2)).
    Proof.
      pose proof u_pos as U0. assert (U1 : u <= / 1000000000000) by small.
      assert (HK : 0 < K) by lra.
      assert (SK : scaled K) by (apply scale_mid2; lra).
      assert (S2K : s <= 2 * K).
      { pose proof (norm_sq (minus (reals p) (reals o))) as E. fold s in E.
        pose proof (norm_sq (reals p)) as E1. pose proof (norm_sq (reals o)) as E2. pose proof (norm_nonneg (reals p)) as P1. pose proof (norm_nonneg (reals o)) as P2.
        pose proof (norm_nonneg (minus (reals p) (reals o))) as P3. fold s in P3.
        pose proof (cauchy (reals p) (reals o)) as CS. apply Rabs_le_inv in CS.
        assert (EX : inner (minus (reals p) (reals o)) (minus (reals p) (reals o)) =
          inner (reals p) (reals p) - 2 * inner (reals p) (reals o) + inner (reals o) (reals o))
          by (unfold inner, minus, pt, px, py, pz; cbn [vx vy vz]; toR; ring).
        assert (s * s <= (norm (reals p) + norm (reals o)) * (norm (reals p) + norm (reals o))) by lra.
        assert (s <= norm (reals p) + norm (reals o)) by nra. lra. }
      assert (HS : 0 < s) by lra.
      assert (SS : scaled s) by (apply scale_mid2; lra).
      assert (SSS : scaled (s * s)).
      { apply scale_of.
        - apply Rle_trans with (bpow radix2 (-50)); [apply bpow_le; lia|change (bpow radix2 (-50)) with (/ 1125899906842624)]. nra.
        - apply Rle_trans with (bpow radix2 100); [rewrite big100|apply bpow_le; lia]. nra. }
      assert (KK : scaled (K * K)).
      { apply scale_of.
        - apply Rle_trans with (bpow radix2 0); [apply bpow_le; lia|change (bpow radix2 0) with 1]. nra.
        - apply Rle_trans with (bpow radix2 100); [rewrite big100|apply bpow_le; lia]. nra. }
      destruct Fo as (O1 & O2 & O3). destruct Fp as (P1 & P2 & P3).
      destruct (coord_le (minus (reals p) (reals o))) as (C1 & C2 & C3). fold s in C1, C2, C3.
      destruct (coord_le (reals o)) as (Q1 & Q2 & Q3).
      assert (ND1 : near s (vx (vsub p o)) (px (minus (reals p) (reals o)) / s) (1 * u) 1) by (apply (near_diff s (vx p) (vx o) P1 O1 C1 SS)).
      assert (ND2 : near s (vy (vsub p o)) (py (minus (reals p) (reals o)) / s) (1 * u) 1) by (apply (near_diff s (vy p) (vy o) P2 O2 C2 SS)).
      assert (ND3 : near s (vz (vsub p o)) (pz (minus (reals p) (reals o)) / s) (1 * u) 1) by (apply (near_diff s (vz p) (vz o) P3 O3 C3 SS)).
      pose proof (unit_of (minus (reals p) (reals o)) HS) as UN. fold s in UN.
      set (x := px (minus (reals p) (reals o)) / s) in *. set (y := py (minus (reals p) (reals o)) / s) in *. set (z := pz (minus (reals p) (reals o)) / s) in *.
      pose proof (length_64 fsin fcos ftan s (vsub p o) x y z 1 SS SSS ltac:(lra) ND1 ND2 ND3 UN) as NS.
      assert (NS15 : near s (vlen (vsub p o)) 1 (15 * u) 1) by (eapply near_weak; [exact NS|lra|reflexivity|lra|lra]). clear NS.
      set (d := vsub p o) in *. set (s' := vlen d) in *.
      assert (S11 : scaled (s / s)) by (replace (s / s) with 1 by (field; lra); exact scale_1).
      assert (DV : forall q r, near s q r (1 * u) 1 -> near 1 (b64_div q s') r (18 * u) 1).
      { intros q r Nq. replace 1 with (s / s) at 1 by (field; lra).
        apply (divu s s q r 1 1 s' 1 15 18 1 Nq NS15 eq_refl HS HS S11 ltac:(lra) ltac:(lra) ltac:(small) ltac:(lra) ltac:(lra)). }
      pose proof (DV _ _ ND1) as V1. pose proof (DV _ _ ND2) as V2. pose proof (DV _ _ ND3) as V3.
      set (v1 := b64_div (vx d) s') in *. set (v2 := b64_div (vy d) s') in *. set (v3 := b64_div (vz d) s') in *.
      assert (NA : near 1 (b64_plus (b64_plus (b64_mult v1 v1) (b64_mult v2 v2)) (b64_mult v3 v3)) 1 (117 * u) 1).
      { apply near_bound with (B := 3); [|rewrite Rabs_R1; lra]. replace 1 with (1 * 1) at 1 by ring.
        eapply near_weak; [apply (inner_64 1 1 v1 v2 v3 v1 v2 v3 x y z x y z 18 18)|lra|exact UN|lra|lra]; try assumption; try lra.
        rewrite Rmult_1_r. exact scale_1. }
      set (a := b64_plus (b64_plus (b64_mult v1 v1) (b64_mult v2 v2)) (b64_mult v3 v3)) in *.
      assert (NO1 : near K (vx o) (px (reals o) / K) (0 * u) 1) by (apply near_scale_self; [exact O1|apply Rle_trans with (1 := Q1) (2 := No)|lra]).
      assert (NO2 : near K (vy o) (py (reals o) / K) (0 * u) 1) by (apply near_scale_self; [exact O2|apply Rle_trans with (1 := Q2) (2 := No)|lra]).
      assert (NO3 : near K (vz o) (pz (reals o) / K) (0 * u) 1) by (apply near_scale_self; [exact O3|apply Rle_trans with (1 := Q3) (2 := No)|lra]).
      (* b *)
      assert (MB : Rabs (m / K) <= 1).
      { pose proof (cauchy (reals o) (minus (reals p) (reals o))) as CS. fold s in CS. unfold m.
        replace (- inner (reals o) (minus (reals p) (reals o)) / s / K) with (- (inner (reals o) (minus (reals p) (reals o)) * / (s * K))) by (field; lra).
        rewrite Rabs_Ropp, Rabs_mult, Rabs_inv, (Rabs_pos_eq (s * K)) by nra.
        apply Rmult_le_reg_r with (s * K); [nra|]. rewrite Rmult_assoc, Rinv_l by nra. nra. }
      assert (K1 : scaled (K * 1)) by (rewrite Rmult_1_r; exact SK).
      assert (NI : near K (b64_plus (b64_plus (b64_mult (vx o) v1) (b64_mult (vy o) v2)) (b64_mult (vz o) v3)) (- (m / K)) (63 * u) 1).
      { apply near_bound with (B := 3); [|rewrite Rabs_Ropp; exact MB]. replace K with (K * 1) at 1 by ring.
        eapply near_weak; [apply (inner_64 K 1 (vx o) (vy o) (vz o) v1 v2 v3 _ _ _ x y z 0 18 HK ltac:(lra) K1 ltac:(lra) ltac:(lra) NO1 NO2 NO3 V1 V2 V3)|lra| |lra|lra].
        unfold m, x, y, z, inner. field. lra. }
      set (i := b64_plus (b64_plus (b64_mult (vx o) v1) (b64_mult (vy o) v2)) (b64_mult (vz o) v3)) in *.
      pose proof (near_const 2 2 ltac:(lia) ltac:(lra)) as TWO. pose proof (near_const 4 4 ltac:(lia) ltac:(lra)) as FOUR.
      assert (ONEK : scaled (1 * K)) by (rewrite Rmult_1_l; exact SK).
      assert (NB : near K (b64_mult (b64_Z 2) i) (2 * - (m / K)) (129 * u) 2).
      { replace K with (1 * K) at 1 by ring. apply (mulu 1 K _ _ 0 2 _ _ 63 1 129 2 TWO NI ltac:(lra) HK ONEK); lra. }
      set (b := b64_mult (b64_Z 2) i) in *.
      (* c *)
      assert (OO : 0 <= inner (reals o) (reals o) / (K * K) <= 1).
      { rewrite <- norm_sq. pose proof (norm_nonneg (reals o)) as PO. assert (0 < / (K * K)) by (apply Rinv_0_lt_compat; nra). split.
        - apply Rmult_le_pos; [nra|lra].
        - apply Rmult_le_reg_r with (K * K); [nra|]. unfold Rdiv. rewrite Rmult_assoc, Rinv_l by nra. nra. }
      assert (NQ : near (K * K) (b64_plus (b64_plus (b64_mult (vx o) (vx o)) (b64_mult (vy o) (vy o))) (b64_mult (vz o) (vz o)))
        (inner (reals o) (reals o) / (K * K)) (9 * u) 1).
      { apply near_bound with (B := 3); [|rewrite Rabs_pos_eq; lra].
        eapply near_weak; [apply (inner_64 K K (vx o) (vy o) (vz o) (vx o) (vy o) (vz o) _ _ _ _ _ _ 0 0 HK HK KK ltac:(lra) ltac:(lra) NO1 NO2 NO3 NO1 NO2 NO3)|nra| |lra|lra].
        unfold inner. field. lra. }
      pose proof (near_exact 6371009 ltac:(lia)) as RR.
      assert (RS : scaled (Rad * Rad)).
      { apply scale_of.
        - apply Rle_trans with (bpow radix2 0); [apply bpow_le; lia|change (bpow radix2 0) with 1; lra].
        - apply Rle_trans with (bpow radix2 100); [rewrite big100; lra|apply bpow_le; lia]. }
      assert (R2 : near (Rad * Rad) (b64_mult (b64_Z 6371009) (b64_Z 6371009)) (1 * 1) (1 * u) 1)
        by (apply (mulu Rad Rad _ _ 0 1 _ _ 0 1 1 1 RR RR ltac:(lra) ltac:(lra) RS); lra).
      assert (RK : 0 < Rad * Rad / (K * K) <= 1).
      { assert (0 < / (K * K)) by (apply Rinv_0_lt_compat; nra). split; [apply Rmult_lt_0_compat; lra|].
        apply Rmult_le_reg_r with (K * K); [nra|]. unfold Rdiv. rewrite Rmult_assoc, Rinv_l by nra. nra. }
      assert (NR : near (K * K) (b64_mult (b64_Z 6371009) (b64_Z 6371009)) (Rad * Rad / (K * K)) (1 * u) 1).
      { pose proof (near_rescale _ (Rad * Rad / (K * K)) _ _ _ _ R2 ltac:(lra)) as N.
        replace (Rad * Rad / (Rad * Rad / (K * K))) with (K * K) in N by (field; lra).
        eapply near_weak; [exact N|nra|ring| |lra]. nra. }
      assert (CE : inner (reals o) (reals o) / (K * K) - Rad * Rad / (K * K) = c / (K * K)) by (unfold c; field; lra).
      assert (CB : Rabs (c / (K * K)) <= 1) by (rewrite <- CE; apply Rabs_le; lra).
      assert (NC : near (K * K) (b64_minus (b64_plus (b64_plus (b64_mult (vx o) (vx o)) (b64_mult (vy o) (vy o))) (b64_mult (vz o) (vz o)))
        (b64_mult (b64_Z 6371009) (b64_Z 6371009))) (c / (K * K)) (13 * u) 1).
      { apply near_bound with (B := 2); [|exact CB]. rewrite <- CE. apply (subu (K * K) _ _ 9 1 _ _ 1 1 13 2 NQ NR KK); lra. }
      set (cc := b64_minus (b64_plus (b64_plus (b64_mult (vx o) (vx o)) (b64_mult (vy o) (vy o))) (b64_mult (vz o) (vz o)))
        (b64_mult (b64_Z 6371009) (b64_Z 6371009))) in *.
      (* the discriminant *)
      assert (NBB : near (K * K) (b64_mult b b) (2 * - (m / K) * (2 * - (m / K))) (521 * u) 4)
        by (apply (mulu K K _ _ 129 2 _ _ 129 2 521 4 NB NB HK HK KK); try lra; small).
      assert (N4A : near 1 (b64_mult (b64_Z 4) a) (4 * 1) (473 * u) 4).
      { replace 1 with (1 * 1) at 1 by ring. apply (mulu 1 1 _ _ 0 4 _ _ 117 1 473 4 FOUR NA ltac:(lra) ltac:(lra)); try lra. rewrite Rmult_1_r. exact scale_1. }
      assert (N4AC : near (K * K) (b64_mult (b64_mult (b64_Z 4) a) cc) (4 * 1 * (c / (K * K))) (530 * u) 4).
      { replace (K * K) with (1 * (K * K)) at 1 by ring.
        apply (mulu 1 (K * K) _ _ 473 4 _ _ 13 1 530 4 N4A NC ltac:(lra) ltac:(nra)); try lra; try small. rewrite Rmult_1_l. exact KK. }
      assert (DE : 2 * - (m / K) * (2 * - (m / K)) - 4 * 1 * (c / (K * K)) = D / (K * K)) by (unfold D; field; lra).
      assert (ND : near (K * K) (b64_minus (b64_mult b b) (b64_mult (b64_mult (b64_Z 4) a) cc)) (D / (K * K)) (1060 * u) 8).
      { rewrite <- DE. apply (subu (K * K) _ _ 521 4 _ _ 530 4 1060 8 NBB N4AC KK); lra. }
      set (disc := b64_minus (b64_mult b b) (b64_mult (b64_mult (b64_Z 4) a) cc)) in *.
      exists s', disc. destruct NS15 as (FS & ES & _). destruct ND as (FD & ED & BD).
      assert (EDD : K * K * (D / (K * K)) = D) by (field; lra). rewrite EDD in ED.
      split; [exact FS|]. split; [exact FD|]. split.
      { rewrite Rmult_1_r in ES. eapply Rle_trans; [exact ES|]. apply Rle_trans with (2 * K * (15 * u)); [apply Rmult_le_compat_r; lra|]. unfold u. lra. }
      split; [exact ED|].
      assert (ZR : is_finite (b64_Z 0) = true /\ B2R (b64_Z 0) = 0) by (split; reflexivity).
      assert (CORE : los_core64 o p = if nlt N64 disc (b64_Z 0) then true else
        nlt N64 s' (nabs N64 (b64_div (b64_minus (Bopp b) (b64_sqrt disc)) (b64_mult (b64_Z 2) a))) &&
        nlt N64 s' (nabs N64 (b64_div (b64_plus (Bopp b) (b64_sqrt disc)) (b64_mult (b64_Z 2) a)))) by reflexivity.
      rewrite nlt_64 in CORE by (try exact FD; reflexivity). destruct ZR as [_ ZR]. rewrite ZR in CORE.
      split.
      { intros L. rewrite CORE, Rlt_bool_true by exact L. reflexivity. }
      intros L. rewrite Rlt_bool_false in CORE by exact L.
      (* the square root *)
      assert (DL : 0 <= sqrt (B2R disc) <= 3 * K).
      { split; [apply sqrt_pos|]. apply Rabs_le_inv in ED, BD.
        assert (D <= 8 * (K * K)) by (rewrite <- EDD; assert (0 < K * K) by nra; nra).
        rewrite <- (sqrt_square (3 * K)) by lra. apply sqrt_le_1_alt. assert (0 <= K * K) by nra. unfold u in ED. nra. }
      destruct (Bsqrt_correct 53 1024 b64_prec_gt_0 b64_prec_lt_emax mode_NE disc) as (QV & QF & _). cbn [round_mode] in QV.
      change (round radix2 (SpecFloat.fexp 53 1024) ZnearestE) with rnd in QV.
      assert (QF' : is_finite (b64_sqrt disc) = true).
      { unfold b64_sqrt. rewrite QF. destruct disc as [[|]|[|]| |[|] mm ee Hb]; try reflexivity; try discriminate FD.
        exfalso. cbn [B2R] in L. pose proof (F2R_lt_0 radix2 (Float radix2 (SpecFloat.cond_Zopp true (Zpos mm)) ee) ltac:(cbn; lia)). lra. }
      assert (NSQ : near K (b64_sqrt disc) (sqrt (B2R disc) / K) (3 * u) 3).
      { assert (E0 : Rabs (sqrt (B2R disc) - K * (sqrt (B2R disc) / K)) <= K * 0).
        { replace (sqrt (B2R disc) - K * (sqrt (B2R disc) / K)) with 0 by (field; lra). rewrite Rabs_R0. lra. }
        assert (0 < / K) by (apply Rinv_0_lt_compat; lra).
        assert (B0 : Rabs (sqrt (B2R disc) / K) <= 3).
        { unfold Rdiv. rewrite Rabs_pos_eq by (apply Rmult_le_pos; lra). apply Rmult_le_reg_r with K; [lra|]. rewrite Rmult_assoc, Rinv_l; lra. }
        eapply near_weak; [apply (near_rnd K (b64_sqrt disc) (sqrt (B2R disc) / K) 0 3 _ SK QF' QV E0 B0)|lra|reflexivity| |lra];
          [lra|rewrite big100; lra|lra]. }
      pose proof (near_opp _ _ _ _ _ NB) as NOB.
      assert (NT1 : near K (b64_minus (Bopp b) (b64_sqrt disc)) (- (2 * - (m / K)) - sqrt (B2R disc) / K) (138 * u) 5)
        by (apply (subu K _ _ 129 2 _ _ 3 3 138 5 NOB NSQ SK); lra).
      assert (NT2 : near K (b64_plus (Bopp b) (b64_sqrt disc)) (- (2 * - (m / K)) + sqrt (B2R disc) / K) (138 * u) 5)
        by (apply (addu K _ _ 129 2 _ _ 3 3 138 5 NOB NSQ SK); lra).
      assert (N2A : near 2 (b64_mult (b64_Z 2) a) 1 (119 * u) 1).
      { assert (N : near (1 * 1) (b64_mult (b64_Z 2) a) (2 * 1) (237 * u) 2).
        { apply (mulu 1 1 _ _ 0 2 _ _ 117 1 237 2 TWO NA ltac:(lra) ltac:(lra)); try lra. rewrite Rmult_1_r. exact scale_1. }
        pose proof (near_rescale _ (/ 2) _ _ _ _ N ltac:(lra)) as M. replace (1 * 1 / / 2) with 2 in M by field.
        eapply near_weak; [exact M|lra|field|lra|lra]. }
      assert (K2 : scaled (K / 2)) by (apply scale_mid2; lra).
      assert (TT : forall q r, near K q r (138 * u) 5 -> is_finite (b64_div q (b64_mult (b64_Z 2) a)) = true /\
        Rabs (B2R (b64_div q (b64_mult (b64_Z 2) a)) - K / 2 * r) <= K / 1000000000).
      { intros q r Nq.
        destruct (divu K 2 q r 138 5 _ 1 119 740 5 Nq N2A eq_refl HK ltac:(lra) K2 ltac:(lra) ltac:(lra) ltac:(small) ltac:(lra) ltac:(lra)) as (F & E & _).
        split; [exact F|]. eapply Rle_trans; [exact E|]. unfold u. lra. }
      destruct (TT _ _ NT1) as [FT1 ET1]. destruct (TT _ _ NT2) as [FT2 ET2].
      set (t1 := b64_div (b64_minus (Bopp b) (b64_sqrt disc)) (b64_mult (b64_Z 2) a)) in *.
      set (t2 := b64_div (b64_plus (Bopp b) (b64_sqrt disc)) (b64_mult (b64_Z 2) a)) in *.
      exists (B2R t1), (B2R t2).
      replace (K / 2 * (- (2 * - (m / K)) - sqrt (B2R disc) / K)) with (m - sqrt (B2R disc) / 2) in ET1 by (field; lra).
      replace (K / 2 * (- (2 * - (m / K)) + sqrt (B2R disc) / K)) with (m + sqrt (B2R disc) / 2) in ET2 by (field; lra).
      split; [exact ET1|]. split; [exact ET2|].
      rewrite CORE. rewrite !nlt_64 by (try exact FS; change (nabs N64) with (@Babs 53 1024); rewrite is_finite_Babs; assumption).
      change (nabs N64) with (@Babs 53 1024). rewrite !B2R_Babs. reflexivity.
    Qed.
  End Core.

  Lemma seg_poly : forall (o p : point) x, 0 < norm (minus p o) ->
    norm (on_segment o p (x / norm (minus p o))) * norm (on_segment o p (x / norm (minus p o))) =
    x * x - 2 * (- inner o (minus p o) / norm (minus p o)) * x + inner o o.
  Proof.
    intros o p x H. rewrite norm_sq. pose proof (norm_sq (minus p o)) as E. set (s := norm (minus p o)) in *.
    set (d := minus p o) in *.
    transitivity (inner o o + 2 * (x / s) * inner o d + (x / s) * (x / s) * inner d d).
    - unfold d. rewrite on_segment_sq. reflexivity.
    - rewrite <- E. field. lra.
  Qed.
  Lemma seg_end : forall o p : point, on_segment o p 1 = p.
  Proof. intros o p. unfold on_segment, plus, GeomSpec.scale, minus, pt, px, py, pz. destruct p; cbn. f_equal; toR; ring. Qed.

  Lemma los_core64_correct : forall (o p : vec N64) K, finite_vec o -> finite_vec p ->
    Rad <= norm (reals o) <= K -> Rad <= norm (reals p) <= K -> K <= 2000000000 -> K / 1000000 <= distance (reals o) (reals p) ->
    norm (reals p) <= norm (reals o) * (1 + 20 * u) ->
    (unobstructed (Rad + K / 1000000) (reals o) (reals p) -> los_core64 o p = true) /\
    (~ unobstructed (Rad - K / 1000000) (reals o) (reals p) -> los_core64 o p = false).
  Proof.
    intros o p K Fo Fp Ho Hp HK HS HN. unfold distance in HS. pose proof u_pos as U0.
    destruct (core_64 o p K Fo Fp ltac:(lra) ltac:(lra) ltac:(lra) HS) as (s' & D' & _ & _ & Es & ED & NEG & POS).
    set (s := norm (minus (reals p) (reals o))) in *. assert (S0 : 0 < s) by lra.
    set (m := - inner (reals o) (minus (reals p) (reals o)) / s) in *.
    set (c := inner (reals o) (reals o) - Rad * Rad) in *. set (D := 4 * (m * m - c)) in *.
    set (del := K / 1000000) in *. assert (HD : 0 < del <= 2000) by (unfold del; lra).
    assert (KD : K = 1000000 * del) by (unfold del; field).
    assert (POLY : forall x, norm (on_segment (reals o) (reals p) (x / s)) * norm (on_segment (reals o) (reals p) (x / s)) = x * x - 2 * m * x + c + Rad * Rad).
    { intros x. unfold c. unfold s, m. rewrite (seg_poly (reals o) (reals p) x S0). fold s. fold m. ring. }
    assert (EE : Rabs (B2R D' - D) <= del / 2 * (del / 2)).
    { eapply Rle_trans; [exact ED|]. rewrite KD. unfold u. nra. }
    assert (FR : forall x, 0 <= x <= s -> 0 <= x / s <= 1).
    { intros x Hx. assert (0 < / s) by (apply Rinv_0_lt_compat; lra). unfold Rdiv. split; [apply Rmult_le_pos; lra|].
      apply Rmult_le_reg_r with s; [lra|]. rewrite Rmult_assoc, Rinv_l; lra. }
    split.
    - intros UO. destruct (Rle_or_lt 0 (B2R D')) as [L|L]; [|exact (NEG L)].
      destruct (POS L) as (t1 & t2 & E1 & E2 & ->).
      assert (MS : m * s = - inner (reals o) (minus (reals p) (reals o))) by (unfold m; field; lra).
      assert (PP : inner (reals p) (reals p) = inner (reals o) (reals o) + 2 * inner (reals o) (minus (reals p) (reals o)) + s * s).
      { unfold s. rewrite norm_sq. unfold inner, minus, pt, px, py, pz. cbn. toR. ring. }
      rewrite <- !norm_sq in PP.
      assert (M0 : 0 < m).
      { assert (norm (reals p) * norm (reals p) <= norm (reals o) * (1 + 20 * u) * (norm (reals o) * (1 + 20 * u))) by (apply Rmult_le_compat; lra).
        assert (norm (reals o) * norm (reals o) <= K * K) by nra.
        assert (del * del <= s * s) by nra.
        assert (norm (reals o) * (1 + 20 * u) * (norm (reals o) * (1 + 20 * u)) <= norm (reals o) * norm (reals o) + K * K * (50 * u)).
        { replace (norm (reals o) * (1 + 20 * u) * (norm (reals o) * (1 + 20 * u))) with (norm (reals o) * norm (reals o) + norm (reals o) * norm (reals o) * (40 * u + 400 * u * u)) by ring.
          apply Rplus_le_compat_l. apply Rmult_le_compat; [nra|unfold u; lra|assumption|unfold u; lra]. }
        assert (K * K * (50 * u) < del * del) by (rewrite KD; unfold u; nra).
        assert (0 < m * s) by lra. nra. }
      assert (DB : D <= 4 * (Rad * Rad)).
      { pose proof (cauchy (reals o) (minus (reals p) (reals o))) as CS. fold s in CS. rewrite <- (Rabs_Ropp (inner _ _)), <- MS in CS.
        rewrite Rabs_pos_eq in CS by nra. assert (m <= norm (reals o)) by nra. unfold D, c. rewrite <- norm_sq. nra. }
      assert (FX : forall x, 0 <= x <= s -> (Rad + del) * (Rad + del) - Rad * Rad <= x * x - 2 * m * x + c).
      { intros x Hx. pose proof (UO (x / s) (FR x Hx)) as Q. pose proof (POLY x) as P. fold del in Q. nra. }
      destruct (clear_ok s m c D del (B2R D') (del / 2) (K / 1000000000) (B2R s') t1 t2) as [A B]; try assumption; try lra; try reflexivity.
      { nra. }
      rewrite !Rlt_bool_true by assumption. reflexivity.
    - intros NU.
      destruct (Classical_Pred_Type.not_all_ex_not _ _ NU) as (t & Ht). apply Classical_Prop.imply_to_and in Ht. destruct Ht as [T01 Ht]. apply Rnot_lt_le in Ht.
      assert (F0 : 0 <= c) by (unfold c; rewrite <- norm_sq; nra).
      assert (F1 : 0 <= s * s - 2 * m * s + c).
      { pose proof (POLY s) as P. replace (s / s) with 1 in P by (field; lra). rewrite seg_end in P. nra. }
      assert (FX : exists x, 0 <= x <= s /\ x * x - 2 * m * x + c <= (Rad - del) * (Rad - del) - Rad * Rad).
      { exists (t * s). split; [split; nra|]. pose proof (POLY (t * s)) as P. replace (t * s / s) with t in P by (field; lra).
        pose proof (norm_nonneg (on_segment (reals o) (reals p) t)). fold del in Ht. nra. }
      assert (DP : 0 < B2R D').
      { destruct (blocked_ok s m c D del (B2R D') (del / 2) (K / 1000000000) (B2R s') (m - sqrt (B2R D') / 2)) as [A B]; try assumption; try lra; try reflexivity; try nra.
        replace (m - sqrt (B2R D') / 2 - (m - sqrt (B2R D') / 2)) with 0 by ring. rewrite Rabs_R0. lra. }
      destruct (POS (Rlt_le _ _ DP)) as (t1 & t2 & E1 & E2 & ->).
      destruct (blocked_ok s m c D del (B2R D') (del / 2) (K / 1000000000) (B2R s') t1) as [A B]; try assumption; try lra; try reflexivity; try nra.
      rewrite Rlt_bool_false by exact B. reflexivity.
  Qed.

  Lemma los_64 : forall (a b : vec N64) K, finite_vec a -> finite_vec b ->
    Rad <= norm (reals a) <= K -> Rad <= norm (reals b) <= K -> K <= 2000000000 -> K / 1000000 <= distance (reals a) (reals b) ->
    (unobstructed (Rad + K / 1000000) (reals a) (reals b) -> GetLos a b = true) /\
    (~ unobstructed (Rad - K / 1000000) (reals a) (reals b) -> GetLos a b = false).
  Proof.
    intros a b K Fa Fb Ha Hb HK HD. pose proof u_pos as U0. assert (U1 : u <= / 1000000000000) by small.
    destruct (vlen_64 fsin fcos ftan a Fa ltac:(lra)) as (Va & Ea & _). destruct (vlen_64 fsin fcos ftan b Fb ltac:(lra)) as (Vb & Eb & _).
    apply Rabs_le_inv in Ea, Eb.
    rewrite GetLos_core64, nlt_64 by assumption. case Rlt_bool_spec; intros L.
    - apply los_core64_correct; try assumption.
      assert (norm (reals b) * (1 - 9 * u) <= norm (reals a) * (1 + 9 * u)) by lra.
      apply Rmult_le_reg_r with (1 - 9 * u); [lra|]. eapply Rle_trans; [eassumption|]. rewrite Rmult_assoc. apply Rmult_le_compat_l; [lra|]. unfold u. lra.
    - assert (HD' : K / 1000000 <= distance (reals b) (reals a)).
      { unfold distance in *. replace (norm (minus (reals a) (reals b))) with (norm (minus (reals b) (reals a))); [exact HD|].
        unfold norm. f_equal. unfold inner, minus, pt, px, py, pz. cbn. toR. ring. }
      assert (HN : norm (reals a) <= norm (reals b) * (1 + 20 * u)).
      { assert (norm (reals a) * (1 - 9 * u) <= norm (reals b) * (1 + 9 * u)) by lra.
        apply Rmult_le_reg_r with (1 - 9 * u); [lra|]. eapply Rle_trans; [eassumption|]. rewrite Rmult_assoc. apply Rmult_le_compat_l; [lra|]. unfold u. lra. }
      destruct (los_core64_correct b a K Fb Fa Hb Ha HK HD' HN) as [A B]. split; intros H; [apply A|apply B].
      + apply unobstructed_sym. exact H.
      + intros C. apply H. apply unobstructed_sym. exact C.
  Qed.
End Los.
