Require Import ZArith Reals Lra Lia Psatz Bool.
Require Import Verif.Num Verif.NumR Verif.Vec Verif.LossModel Verif.GeomSpec.
Local Open Scope R_scope.

Ltac toR := cbn; change (num NumR) with R in *.

Lemma Rltb_true : forall a b, Rltb a b = true <-> a < b.
Proof. intros a b. unfold Rltb. destruct (Rlt_dec a b); split; intros H; try lra; try discriminate; auto. Qed.

Lemma Rltb_false : forall a b, Rltb a b = false <-> b <= a.
Proof. intros a b. unfold Rltb. destruct (Rlt_dec a b); split; intros H; try lra; try discriminate; auto. Qed.

Lemma inner_nonneg : forall a, 0 <= inner a a.
Proof. intros a. unfold inner. nra. Qed.

Lemma norm_nonneg : forall a, 0 <= norm a.
Proof. intros a. apply sqrt_pos. Qed.

Lemma norm_sq : forall a, norm a * norm a = inner a a.
Proof. intros a. apply sqrt_sqrt, inner_nonneg. Qed.

Lemma vlen_norm : forall a : point, vlen a = norm a.
Proof. reflexivity. Qed.

Lemma vdist_distance : forall a b : point, vdist a b = distance a b.
Proof. reflexivity. Qed.

Lemma point_eq : forall a b : point, px a = px b -> py a = py b -> pz a = pz b -> a = b.
Proof. intros [a1 a2 a3] [b1 b2 b3]; cbn; intros; subst; reflexivity. Qed.

Lemma sum_sq_0 : forall x y z : R, x * x + y * y + z * z = 0 -> x = 0 /\ y = 0 /\ z = 0.
Proof.
  intros x y z H.
  assert (forall w, w * w = 0 -> w = 0) by (intros w Hw; apply Rsqr_0_uniq; exact Hw).
  repeat split; apply H0; nra.
Qed.

Lemma norm_minus_pos : forall a b, a <> b -> 0 < norm (minus a b).
Proof.
  intros a b Hab.
  destruct (Rle_lt_or_eq_dec 0 (norm (minus a b)) (norm_nonneg _)) as [H|H]; [exact H|exfalso].
  apply Hab.
  assert (Hz : inner (minus a b) (minus a b) = 0) by (rewrite <- norm_sq, <- H; ring).
  apply sum_sq_0 in Hz. unfold minus, pt, px, py, pz in Hz; cbn in Hz.
  destruct Hz as (H1 & H2 & H3).
  apply point_eq; unfold px, py, pz; apply Rminus_diag_uniq; assumption.
Qed.

Lemma norm_lt_sq : forall r a, 0 <= r -> (r < norm a <-> r * r < inner a a).
Proof.
  intros r a Hr. pose proof (norm_sq a). pose proof (norm_nonneg a).
  split; intros; nra.
Qed.

Lemma norm_le_sq : forall r a, 0 <= r -> (r <= norm a <-> r * r <= inner a a).
Proof.
  intros r a Hr. pose proof (norm_sq a). pose proof (norm_nonneg a).
  split; intros; nra.
Qed.

Lemma inner_scale_l : forall k a b, inner (scale k a) b = k * inner a b.
Proof. intros. unfold inner, scale, pt, px, py, pz; cbn. ring. Qed.

Lemma inner_scale_r : forall k a b, inner a (scale k b) = k * inner a b.
Proof. intros. unfold inner, scale, pt, px, py, pz; cbn. ring. Qed.

(** The quadratic along the line from the upper point [o] to [p]. *)
Definition los_core (o p : point) : bool :=
  let s2 := norm (minus p o) in
  let u := pt (px (minus p o) / s2) (py (minus p o) / s2) (pz (minus p o) / s2) in
  let a := inner u u in
  let b := 2 * inner o u in
  let c := inner o o - 6371009 * 6371009 in
  let discriminant := b * b - 4 * a * c in
  if Rltb discriminant 0 then true
  else
    let t1 := (- b - sqrt discriminant) / (2 * a) in
    let t2 := (- b + sqrt discriminant) / (2 * a) in
    Rltb s2 (Rabs t1) && Rltb s2 (Rabs t2).

Lemma GetLos_core : forall a b : point,
  GetLos a b = if Rltb (norm b) (norm a) then los_core a b else los_core b a.
Proof.
  intros a b. unfold GetLos.
  change (nlt NumR (vlen b) (vlen a)) with (Rltb (norm b) (norm a)).
  destruct (Rltb (norm b) (norm a)); reflexivity.
Qed.

Lemma unobstructed_sym : forall r a b, unobstructed r a b -> unobstructed r b a.
Proof.
  intros r a b H t Ht.
  specialize (H (1 - t)).
  replace (on_segment b a t) with (on_segment a b (1 - t)).
  - apply H. lra.
  - unfold on_segment, plus, scale, minus, pt, px, py, pz; cbn. f_equal; toR; ring.
Qed.

Lemma on_segment_sq : forall o p t,
  inner (on_segment o p t) (on_segment o p t)
  = inner o o + 2 * t * inner o (minus p o) + t * t * inner (minus p o) (minus p o).
Proof.
  intros o p t. unfold on_segment, plus, scale, minus, inner, pt, px, py, pz; cbn. ring.
Qed.

Lemma los_core_correct : forall o p : point,
  o <> p -> norm p <= norm o -> 6371009 <= norm o ->
  (los_core o p = true <-> unobstructed 6371009 o p).
Proof.
  intros o p Hne Hle Hr.
  assert (Hs : 0 < norm (minus p o)) by (apply norm_minus_pos; congruence).
  unfold los_core.
  set (s := norm (minus p o)) in *.
  set (u := pt (px (minus p o) / s) (py (minus p o) / s) (pz (minus p o) / s)).
  assert (Hss : s * s = inner (minus p o) (minus p o)) by apply norm_sq.
  assert (Hu : u = scale (/ s) (minus p o)).
  { unfold u, scale, pt. f_equal; toR; unfold Rdiv; ring. }
  assert (Ha : inner u u = 1).
  { rewrite Hu, inner_scale_l, inner_scale_r, <- Hss. field. lra. }
  rewrite Ha.
  assert (Hou : inner o (minus p o) = s * inner o u).
  { rewrite Hu, inner_scale_r. field. lra. }
  set (b := 2 * inner o u) in *.
  set (c := inner o o - 6371009 * 6371009) in *.
  (* squared norm of the point at parameter t *)
  assert (Hf : forall t, inner (on_segment o p t) (on_segment o p t) - 6371009 * 6371009
                         = (t * s) * (t * s) + b * (t * s) + c).
  { intros t. rewrite on_segment_sq, Hou, <- Hss. unfold b, c. ring. }
  assert (Hc : 0 <= c).
  { unfold c. apply norm_le_sq in Hr; lra. }
  assert (Hb : b <= - s).
  { assert (Hp : inner p p = inner o o + s * b + s * s).
    { specialize (Hf 1).
      replace (on_segment o p 1) with p in Hf.
      - unfold c in Hf. lra.
      - unfold on_segment, plus, scale, minus, pt, px, py, pz; destruct p; cbn. f_equal; toR; ring. }
    assert (inner p p <= inner o o).
    { rewrite <- !norm_sq. pose proof (norm_nonneg p). nra. }
    nra. }
  assert (Hun : unobstructed 6371009 o p <-> forall x, 0 <= x <= s -> 0 < x * x + b * x + c).
  { split.
    - intros H x Hx. specialize (H (x / s)).
      assert (Hxs : 0 <= x / s <= 1).
      { split.
        - apply Rmult_le_pos; [lra|]. left. apply Rinv_0_lt_compat. lra.
        - apply Rmult_le_reg_r with s; [lra|]. unfold Rdiv. rewrite Rmult_assoc, Rinv_l; lra. }
      apply H in Hxs. apply norm_lt_sq in Hxs; [|lra].
      specialize (Hf (x / s)). replace (x / s * s) with x in Hf by (field; lra). lra.
    - intros H t Ht. apply norm_lt_sq; [lra|].
      specialize (H (t * s)). specialize (Hf t).
      assert (0 <= t * s <= s) by nra. specialize (H H0). lra. }
  rewrite Hun. clear Hun.
  replace (b * b - 4 * 1 * c) with (b * b - 4 * c) by ring.
  set (disc := b * b - 4 * c).
  destruct (Rltb disc 0) eqn:Hd.
  - apply Rltb_true in Hd. split; [|reflexivity]. intros _ x Hx. unfold disc in Hd.
    pose proof (Rle_0_sqr (2 * x + b)) as Hsq. unfold Rsqr in Hsq. nra.
  - apply Rltb_false in Hd.
    set (q := sqrt disc).
    assert (Hq : 0 <= q) by apply sqrt_pos.
    assert (Hqq : q * q = disc) by (apply sqrt_sqrt; exact Hd).
    assert (Hqb : q <= - b) by (unfold disc in Hqq; nra).
    replace ((- b - q) / (2 * 1)) with ((- b - q) / 2) by field.
    replace ((- b + q) / (2 * 1)) with ((- b + q) / 2) by field.
    rewrite (Rabs_pos_eq ((- b - q) / 2)) by lra.
    rewrite (Rabs_pos_eq ((- b + q) / 2)) by lra.
    rewrite andb_true_iff, !Rltb_true.
    assert (Hfac : forall x, x * x + b * x + c = (x - (- b - q) / 2) * (x - (- b + q) / 2)).
    { intros x. unfold disc in Hqq.
      replace c with ((b * b - q * q) / 4) by lra. field. }
    split.
    + intros [H1 H2] x Hx. rewrite Hfac. nra.
    + intros H.
      assert (s < (- b - q) / 2).
      { destruct (Rlt_le_dec s ((- b - q) / 2)) as [|Hge]; [assumption|exfalso].
        specialize (H ((- b - q) / 2)). rewrite Hfac in H.
        assert (0 <= (- b - q) / 2 <= s) by lra. specialize (H H0). nra. }
      lra.
Qed.

Lemma GetLos_correct : forall a b : point,
  a <> b -> (6371009 <= norm a \/ 6371009 <= norm b) ->
  (GetLos a b = true <-> unobstructed 6371009 a b).
Proof.
  intros a b Hne Hr. rewrite GetLos_core.
  destruct (Rltb (norm b) (norm a)) eqn:E.
  - apply Rltb_true in E. apply los_core_correct; [assumption|lra|lra].
  - apply Rltb_false in E.
    rewrite los_core_correct; [|congruence|lra|lra].
    split; apply unobstructed_sym.
Qed.

Lemma GetLos_symmetric : forall a b : point,
  (6371009 <= norm a \/ 6371009 <= norm b) -> GetLos a b = GetLos b a.
Proof.
  intros a b Hr.
  destruct (Rlt_le_dec (norm b) (norm a)) as [H|H].
  - rewrite !GetLos_core. rewrite (proj2 (Rltb_true (norm b) (norm a)) H).
    rewrite (proj2 (Rltb_false (norm a) (norm b))); [reflexivity|lra].
  - destruct (Rle_lt_or_eq_dec _ _ H) as [H'|H'].
    + rewrite !GetLos_core. rewrite (proj2 (Rltb_true (norm a) (norm b)) H').
      rewrite (proj2 (Rltb_false (norm b) (norm a))); [reflexivity|lra].
    + rewrite !GetLos_core, H'.
      rewrite (proj2 (Rltb_false (norm b) (norm b))) by lra.
      assert (Hd : a = b \/ a <> b).
      { destruct a as [a1 a2 a3], b as [b1 b2 b3].
        destruct (Req_dec a1 b1), (Req_dec a2 b2), (Req_dec a3 b3); subst;
          try (left; reflexivity); right; intros Heq; injection Heq; congruence. }
      destruct Hd as [->|Hne]; [reflexivity|].
      assert (Hiff : los_core b a = true <-> los_core a b = true).
      { rewrite !los_core_correct; try congruence; try lra.
        split; apply unobstructed_sym. }
      destruct (los_core b a), (los_core a b); intuition congruence.
Qed.
