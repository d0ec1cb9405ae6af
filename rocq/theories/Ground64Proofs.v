(** Positions of ground stations in IEEE-754 doubles. *)
Require Import ZArith Reals Lra Lia Psatz List.
From Flocq Require Import Core.Core IEEE754.BinarySingleNaN.
Require Import Verif.Base Verif.Num Verif.NumR Verif.Num64 Verif.Vec Verif.AllocModel Verif.GeomSpec Verif.LossSpec Verif.AllocSpec Verif.Float64Spec
  Verif.AllocProofs Verif.AllocApiProofs Verif.Alloc64Proofs Verif.Read64Proofs Verif.Float64Proofs Verif.Orbit64Proofs Verif.Orbit64Api.
Import ListNotations.
Local Open Scope R_scope.

Lemma scale_mid_range : forall K, bpow radix2 (-64) <= K <= bpow radix2 64 -> Float64Proofs.scale K.
Proof.
  intros K [A B]. split.
  - apply Rle_trans with (2 := A). apply bpow_le. lia.
  - apply Rle_trans with (1 := B). apply bpow_le. lia.
Qed.
Lemma scale_simple : forall K, / 18446744073709551616 <= K <= 18446744073709551616 -> Float64Proofs.scale K.
Proof.
  intros K H. apply scale_mid_range. change (bpow radix2 (-64)) with (/ 18446744073709551616).
  change (bpow radix2 64) with 18446744073709551616. exact H.
Qed.

Lemma sphere_norm : forall th lam, norm (sphere_point th lam) = 6371000.
Proof.
  intros th lam. unfold norm, sphere_point, inner, ground_radius, px, py, pz, pt. cbn [vx vy vz].
  pose proof (sin2_cos2 th) as A. pose proof (sin2_cos2 lam) as B. unfold Rsqr in A, B.
  match goal with |- sqrt ?x = _ => replace x with (6371000 * 6371000) end.
  - apply sqrt_square. lra.
  - transitivity (6371000 * 6371000 * ((sin th * sin th) * (sin lam * sin lam + cos lam * cos lam) + cos th * cos th)).
    + rewrite B, Rmult_1_r, A. ring.
    + ring.
Qed.

Section Ground.
  Variables fsin fcos ftan : b64 -> b64.
  Hypothesis ACC : accurate fsin fcos.
  Local Notation N64 := (Num64 fsin fcos ftan).

  (** A point of the sphere from angles with errors of up to 50 units. *)
  Lemma sphere_64 : forall (lat lon : b64) (th lam : R) A B, near 1 lat th (50 * u) A -> near 1 lon lam (50 * u) B ->
    let P : vec N64 := V (nmul N64 (nmul N64 (nZ N64 6371000) (nsin N64 lat)) (ncos N64 lon))
      (nmul N64 (nmul N64 (nZ N64 6371000) (nsin N64 lat)) (nsin N64 lon)) (nmul N64 (nZ N64 6371000) (ncos N64 lat)) in
    finite_vec P /\ within (/ 5000000) (reals P) (sphere_point th lam).
  Proof.
    intros lat lon th lam A B NA NB P. pose proof u_pos as U0.
    assert (SK : Float64Proofs.scale 6371000) by (apply scale_simple; lra).
    pose proof (near_exact 6371000 ltac:(lia)) as NK.
    assert (T : forall (f : b64 -> b64) x r e, near 1 (f x) r (50 * u + u) e -> near 1 (f x) r (51 * u) e) by (intros f x r e H; replace (51 * u) with (50 * u + u) by ring; exact H).
    pose proof (T fsin _ _ _ (near_sin fsin fcos ACC _ _ _ _ NA)) as S1. pose proof (T fcos _ _ _ (near_cos fsin fcos ACC _ _ _ _ NA)) as C1.
    pose proof (T fsin _ _ _ (near_sin fsin fcos ACC _ _ _ _ NB)) as S2. pose proof (T fcos _ _ _ (near_cos fsin fcos ACC _ _ _ _ NB)) as C2.
    assert (KS : near 6371000 (b64_mult (b64_Z 6371000) (fsin lat)) (1 * sin th) (53 * u) 1) by (apply (mul1r 6371000 _ _ 0 _ _ 51 53 NK S1 SK); small).
    assert (KC : near 6371000 (b64_mult (b64_Z 6371000) (fcos lat)) (1 * cos th) (53 * u) 1) by (apply (mul1r 6371000 _ _ 0 _ _ 51 53 NK C1 SK); small).
    assert (X : near 6371000 (b64_mult (b64_mult (b64_Z 6371000) (fsin lat)) (fcos lon)) (1 * sin th * cos lam) (106 * u) 1) by (apply (mul1r 6371000 _ _ 53 _ _ 51 106 KS C2 SK); small).
    assert (Y : near 6371000 (b64_mult (b64_mult (b64_Z 6371000) (fsin lat)) (fsin lon)) (1 * sin th * sin lam) (106 * u) 1) by (apply (mul1r 6371000 _ _ 53 _ _ 51 106 KS S2 SK); small).
    destruct X as (FX & EX & _). destruct Y as (FY & EY & _). destruct KC as (FZ & EZ & _). rewrite !Rmult_1_l in *.
    split; [repeat split; assumption|]. unfold within, reals, sphere_point, ground_radius, pt, px, py, pz. cbn [vx vy vz P]. cbn [nmul nZ nsin ncos Num64].
    assert (LE : forall x c, x <= 6371000 * (c * u) -> 0 <= c <= 106 -> x <= / 5000000).
    { intros x c H Hc. apply Rle_trans with (1 := H). assert (c * u <= 106 * u) by (apply Rmult_le_compat_r; lra). unfold u in *. lra. }
    split; [|split]; eapply LE; try eassumption; lra.
  Qed.

  Lemma near_part : forall i n, (0 <= i <= n)%Z -> (0 < n <= 2 ^ 53)%Z -> near (IZR n) (b64_Z i) (IZR i / IZR n) (0 * u) 1.
  Proof.
    intros i n Hi Hn. destruct (Z_exact_64 i) as [E F]; [lia|]. assert (N0 : 0 < IZR n) by (apply IZR_lt; lia).
    split; [exact F|]. rewrite E. split.
    - replace (IZR i - IZR n * (IZR i / IZR n)) with 0 by (field; lra). rewrite Rabs_R0. lra.
    - assert (0 <= IZR i <= IZR n) by (split; apply IZR_le; lia).
      assert (0 < / IZR n) by (apply Rinv_0_lt_compat; lra). unfold Rdiv. rewrite Rabs_pos_eq by nra.
      apply Rmult_le_reg_r with (IZR n); [lra|]. rewrite Rmult_assoc, Rinv_l by lra. lra.
  Qed.
  Lemma inv_scale : forall L, (0 < L < 4294967296)%Z -> Float64Proofs.scale (1 / IZR L).
  Proof.
    intros L HL. assert (1 <= IZR L) by (apply IZR_le; lia). assert (IZR L < 4294967296) by (apply IZR_lt; lia).
    apply scale_simple. unfold Rdiv. rewrite Rmult_1_l. split.
    - apply Rinv_le_contravar; lra.
    - apply Rle_trans with (/ 1); [apply Rinv_le_contravar; lra|lra].
  Qed.

  (** [i] n-ths of an angle. *)
  Lemma part_64 : forall (x : b64) r a B c i n, near 1 x r (a * u) B -> (0 <= i <= n)%Z -> (0 < n < 4294967296)%Z -> / 1024 <= B <= 10 -> 0 <= a <= 20 ->
    a + 2 * B + 1 <= c -> c <= 50 ->
    near 1 (b64_mult (b64_Z i) (b64_div x (b64_Z n))) (r * (IZR i / IZR n)) (c * u) B.
  Proof.
    intros x r a B c i n NX Hi Hn HB Ha Hc HC. pose proof u_pos as U0. assert (N0 : 0 < IZR n) by (apply IZR_lt; lia).
    assert (AU : 0 <= a * u <= 20 * u) by (split; [apply Rmult_le_pos; lra|apply Rmult_le_compat_r; lra]).
    assert (D : near (1 / IZR n) (b64_div x (b64_Z n)) r ((a + B + / 4) * u) B).
    { apply (divu 1 (IZR n) x r a B (b64_Z n) 1 0 (a + B + / 4) B NX (near_exact n ltac:(lia)) eq_refl ltac:(lra) N0 (inv_scale n Hn) ltac:(lra) ltac:(lra)); try lra.
      replace ((a + B * 0) / (1 - 0 * u)) with a by field. unfold u in *. lra. }
    assert (BU : 0 <= (a + B + / 4) * u <= 31 * u) by (split; [apply Rmult_le_pos; lra|apply Rmult_le_compat_r; lra]).
    replace 1 with (IZR n * (1 / IZR n)) by (field; lra). rewrite (Rmult_comm r).
    assert (P0 : 0 < 1 / IZR n) by (unfold Rdiv; rewrite Rmult_1_l; apply Rinv_0_lt_compat; lra).
    apply (mulu (IZR n) (1 / IZR n) _ _ 0 1 _ _ (a + B + / 4) B c B (near_part i n Hi ltac:(lia)) D N0 P0); try lra.
    - replace (IZR n * (1 / IZR n)) with 1 by (field; lra). apply scale_1.
    - unfold u in *. lra.
  Qed.

  Lemma polar_64 : forall L M r c, (0 < L < 4294967296)%Z -> (0 < M < 4294967296)%Z -> (0 <= r <= L)%Z -> (0 <= c < M)%Z ->
    finite_vec (polar_vec N64 L M (r, c)) /\ within (/ 5000000) (reals (polar_vec N64 L M (r, c))) (grid_point L M (r, c)).
  Proof.
    intros L M r c HL HM Hr Hc. pose proof u_pos as U0.
    assert (N2 : near 1 (b64_mult (b64_Z 2) b64_pi) (2 * PI) (11 * u) 8).
    { replace 1 with (1 * 1) by ring. apply (mulu 1 1 _ _ 0 2 _ _ 1 4 11 8 (near_const 2 2 ltac:(lia) eq_refl) near_pi); try small.
      replace (1 * 1) with 1 by ring. apply scale_1. }
    pose proof (part_64 b64_pi PI 1 4 50 r L near_pi Hr HL ltac:(lra) ltac:(lra) ltac:(lra) ltac:(lra)) as NA.
    pose proof (part_64 _ (2 * PI) 11 8 50 c M N2 ltac:(lia) HM ltac:(lra) ltac:(lra) ltac:(lra) ltac:(lra)) as NB.
    exact (sphere_64 _ _ _ _ _ _ NA NB).
  Qed.

  (** Degrees. *)
  Lemma degrees_64 : forall (x : b64) d, (d = 90 \/ d = 180)%Z -> is_finite x = true -> Rabs (B2R x) <= 360 ->
    near 1 (b64_mult x (b64_div b64_pi (b64_Z d))) (B2R x * PI / IZR d) (50 * u) 20.
  Proof.
    intros x d Hd F HX. pose proof u_pos as U0.
    assert (D0 : 90 <= IZR d <= 180) by (destruct Hd as [-> | ->]; lra).
    assert (D : near (1 / IZR d) (b64_div b64_pi (b64_Z d)) PI (6 * u) 4).
    { apply (divu 1 (IZR d) b64_pi PI 1 4 (b64_Z d) 1 0 6 4 near_pi (near_exact d ltac:(lia)) eq_refl ltac:(lra) ltac:(lra) (inv_scale d ltac:(lia)) ltac:(lra) ltac:(lra)); try lra.
      replace ((1 + 4 * 0) / (1 - 0 * u)) with 1 by field. small. }
    assert (X : near 360 x (B2R x / 360) (0 * u) 1).
    { split; [exact F|]. split.
      - replace (B2R x - 360 * (B2R x / 360)) with 0 by field. rewrite Rabs_R0. lra.
      - unfold Rdiv. rewrite Rabs_mult, (Rabs_pos_eq (/ 360)) by lra. lra. }
    assert (P0 : / 180 <= 1 / IZR d <= / 90) by (unfold Rdiv; rewrite Rmult_1_l; split; apply Rinv_le_contravar; lra).
    assert (SC : Float64Proofs.scale (360 * (1 / IZR d))) by (apply scale_simple; lra).
    assert (Y : near (360 * (1 / IZR d)) (b64_mult x (b64_div b64_pi (b64_Z d))) (B2R x / 360 * PI) (11 * u) 4).
    { apply (mulu 360 (1 / IZR d) _ _ 0 1 _ _ 6 4 11 4 X D); [lra|lra|exact SC|small|small|small|small]. }
    apply near_unscale in Y; [|lra]. eapply near_weak; [exact Y|lra| | |lra].
    - field. lra.
    - apply Rmult_le_compat_r; lra.
  Qed.

  Lemma earth_64 : forall lat lon : b64, is_finite lat = true -> Rabs (B2R lat) <= 360 -> is_finite lon = true -> Rabs (B2R lon) <= 360 ->
    let P := @GetEarthPosition N64 (@mkLatLong N64 lat lon) in
    finite_vec P /\ within (/ 5000000) (reals P) (sphere_point (2 * B2R lat * PI / 180) (B2R lon * PI / 180)).
  Proof.
    intros lat lon FA HA FO HO P.
    pose proof (degrees_64 lat 90 ltac:(auto) FA HA) as NA. pose proof (degrees_64 lon 180 ltac:(auto) FO HO) as NB.
    replace (2 * B2R lat * PI / 180) with (B2R lat * PI / 90) by field.
    exact (sphere_64 _ _ _ _ _ _ NA NB).
  Qed.

  Lemma station_height : forall (P : vec N64) th lam, within (/ 5000000) (reals P) (sphere_point th lam) -> 6370999 <= norm (reals P) <= 6371001.
  Proof.
    intros P th lam W. apply norm_within in W; [|lra]. rewrite sphere_norm in W. apply Rabs_le_inv in W. lra.
  Qed.
End Ground.
