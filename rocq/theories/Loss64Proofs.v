(** Facts about the loss models that hold for every binary64 input. *)
Require Import ZArith Reals Lra Lia Bool.
From Flocq Require Import Core.Zaux Core.Raux Core.Defs Core.Round_pred Core.Generic_fmt Core.Round_NE Core.FLX Core.FLT
  IEEE754.BinarySingleNaN.
Require Import Verif.Num Verif.Num64 Verif.Vec Verif.LossModel.
Local Open Scope Z_scope.

(** Zero of either sign, or NaN. *)
Definition zn (x : b64) : Prop := x = B754_nan \/ exists s, x = B754_zero s.

Lemma zn_minus_self : forall x : b64, zn (b64_minus x x).
Proof.
  intros x. unfold b64_minus.
  destruct (is_finite x) eqn:Hf.
  - pose proof (Bminus_correct 53 1024 _ _ mode_NE x x Hf Hf) as H.
    replace (B2R x - B2R x)%R with 0%R in H by ring.
    rewrite round_0 in H by apply valid_rnd_round_mode.
    rewrite Rabs_R0 in H.
    rewrite Rlt_bool_true in H by apply bpow_gt_0.
    destruct H as [H1 [H2 _]]. right.
    destruct (Bminus mode_NE x x) as [s| | |s m e He]; try discriminate; [exists s; reflexivity|exfalso].
    pose proof (is_finite_strict_B2R 53 1024 (B754_finite s m e He)) as H3.
    cbn in H1. unfold Defs.F2R in H1; cbn in H1.
    apply Rmult_integral in H1. destruct H1 as [H1|H1].
    + apply eq_IZR_R0 in H1. destruct s; discriminate.
    + pose proof (bpow_gt_0 radix2 e) as H4. cbn in H4. lra.
  - left. destruct x as [s|s| |s m e He]; try discriminate; [|reflexivity].
    destruct s; reflexivity.
Qed.

Lemma zn_mult : forall x y, zn x -> zn y -> zn (b64_mult x y).
Proof.
  intros x y [->|[s ->]] [->|[t ->]]; try (left; reflexivity).
  right. exists (xorb s t). reflexivity.
Qed.

Lemma zn_plus : forall x y, zn x -> zn y -> zn (b64_plus x y).
Proof.
  intros x y [->|[s ->]] [->|[t ->]]; try (left; reflexivity).
  right. destruct s, t; eexists; reflexivity.
Qed.

Lemma zn_sqrt : forall x, zn x -> zn (b64_sqrt x).
Proof.
  intros x [->|[s ->]]; [left; reflexivity|right; exists s; reflexivity].
Qed.

Lemma zn_div : forall x y, zn x -> zn y -> b64_div x y = B754_nan.
Proof.
  intros x y [->|[s ->]] [->|[t ->]]; reflexivity.
Qed.

Lemma nan_plus_l : forall x, b64_plus B754_nan x = B754_nan.
Proof. intros x; destruct x; reflexivity. Qed.
Lemma nan_minus_r : forall x, b64_minus x B754_nan = B754_nan.
Proof. intros x; destruct x; reflexivity. Qed.
Lemma nan_minus_l : forall x, b64_minus B754_nan x = B754_nan.
Proof. intros x; destruct x; reflexivity. Qed.
Lemma nan_mult_l : forall x, b64_mult B754_nan x = B754_nan.
Proof. intros x; destruct x; reflexivity. Qed.
Lemma nan_mult_r : forall x, b64_mult x B754_nan = B754_nan.
Proof. intros x; destruct x; reflexivity. Qed.
Lemma nan_div_r : forall x, b64_div x B754_nan = B754_nan.
Proof. intros x; destruct x; reflexivity. Qed.
Lemma nan_ltb_r : forall x : b64, Bltb x B754_nan = false.
Proof. intros x; destruct x; reflexivity. Qed.
Lemma nan_ltb_l : forall x : b64, Bltb B754_nan x = false.
Proof. intros x; destruct x; reflexivity. Qed.

Lemma GetLos_self_64 : forall fs fc ft (p : vec (Num64 fs fc ft)), GetLos p p = false.
Proof.
  intros fs fc ft [x y z]. unfold GetLos.
  assert (E : (if nlt (Num64 fs fc ft) (vlen (V x y z)) (vlen (V x y z)) then V x y z else V x y z)
              = @V (Num64 fs fc ft) x y z) by (destruct (nlt _ _ _); reflexivity).
  rewrite !E. clear E. unfold vsub, vlen; cbn [vx vy vz].
  cbn [nsub nmul nadd ndiv nsqrt nlt nopp nabs nZ Num64].
  pose proof (zn_minus_self x) as Hx. pose proof (zn_minus_self y) as Hy.
  pose proof (zn_minus_self z) as Hz.
  set (ux := b64_minus x x) in *. set (uy := b64_minus y y) in *. set (uz := b64_minus z z) in *.
  assert (Hs : zn (b64_sqrt (b64_plus (b64_plus (b64_mult ux ux) (b64_mult uy uy)) (b64_mult uz uz)))).
  { apply zn_sqrt. apply zn_plus; [apply zn_plus|]; apply zn_mult; assumption. }
  set (s2 := b64_sqrt _) in *.
  rewrite (zn_div ux s2 Hx Hs), (zn_div uy s2 Hy Hs), (zn_div uz s2 Hz Hs).
  repeat first [rewrite nan_mult_r | rewrite nan_mult_l | rewrite nan_plus_l
               | rewrite nan_minus_l | rewrite nan_minus_r | rewrite nan_div_r
               | rewrite nan_ltb_l].
  cbn [Babs]. rewrite nan_ltb_r. reflexivity.
Qed.

(** ** Symmetry of the LEO loss model *)

Lemma abs_minus_swap : forall x y : b64, Babs (b64_minus x y) = Babs (b64_minus y x).
Proof.
  intros x y. unfold b64_minus.
  destruct (is_finite x) eqn:Hx, (is_finite y) eqn:Hy.
  - pose proof (Bminus_correct 53 1024 _ _ mode_NE x y Hx Hy) as H1.
    pose proof (Bminus_correct 53 1024 _ _ mode_NE y x Hy Hx) as H2.
    assert (Hopp : round radix2 (SpecFloat.fexp 53 1024) (round_mode mode_NE) (B2R y - B2R x)
                   = (- round radix2 (SpecFloat.fexp 53 1024) (round_mode mode_NE) (B2R x - B2R y))%R).
    { replace (B2R y - B2R x)%R with (- (B2R x - B2R y))%R by ring. apply round_NE_opp. }
    rewrite Hopp, Rabs_Ropp in H2.
    destruct (Rlt_bool _ _).
    + destruct H1 as [R1 [F1 _]], H2 as [R2 [F2 _]].
      apply B2R_Bsign_inj.
      * rewrite is_finite_Babs; exact F1.
      * rewrite is_finite_Babs; exact F2.
      * rewrite !B2R_Babs, R1, R2, Rabs_Ropp. reflexivity.
      * destruct (Bminus mode_NE x y), (Bminus mode_NE y x); try discriminate; reflexivity.
    + destruct H1 as [E1 _], H2 as [E2 _].
      destruct (Bminus mode_NE x y), (Bminus mode_NE y x); try discriminate; reflexivity.
  - destruct x as [s|s| |s m e He], y as [t|t| |t m' e' He']; try discriminate; reflexivity.
  - destruct x as [s|s| |s m e He], y as [t|t| |t m' e' He']; try discriminate; reflexivity.
  - destruct x as [s|s| |s m e He], y as [t|t| |t m' e' He']; try discriminate;
      try reflexivity; destruct s, t; reflexivity.
Qed.

Lemma mult_self_abs : forall x : b64, b64_mult x x = b64_mult (Babs x) (Babs x).
Proof.
  intros x. destruct x as [s|s| |s m e He]; try reflexivity.
  - destruct s; reflexivity.
  - destruct s; reflexivity.
  - apply B2SF_inj. unfold b64_mult, Bmult, Babs. rewrite !B2SF_SF2B.
    destruct s; reflexivity.
Qed.

Lemma minus_swap_sq : forall x y : b64,
  b64_mult (b64_minus x y) (b64_minus x y) = b64_mult (b64_minus y x) (b64_minus y x).
Proof.
  intros x y. rewrite mult_self_abs, abs_minus_swap, <- mult_self_abs. reflexivity.
Qed.

Lemma vdist_sym_64 : forall fs fc ft (a b : vec (Num64 fs fc ft)), vdist a b = vdist b a.
Proof.
  intros fs fc ft [ax ay az] [bx by_ bz]. unfold vdist, vlen, vsub; cbn [vx vy vz].
  cbn [nsub nmul nadd nsqrt Num64].
  rewrite (minus_swap_sq bx ax), (minus_swap_sq by_ ay), (minus_swap_sq bz az). reflexivity.
Qed.

(** Not NaN and without a minus sign. *)
Definition nn (x : b64) : Prop := is_nan x = false /\ Bsign x = false.

Lemma nn_B2R : forall x, nn x -> is_finite x = true -> (0 <= B2R x)%R.
Proof.
  intros [s|s| |s m e He] [Hn Hs] Hf; cbn in *; try lra; try discriminate.
  subst s. unfold Defs.F2R; cbn.
  apply Rmult_le_pos; [apply IZR_le; lia|]. pose proof (bpow_gt_0 radix2 e) as H. cbn in H. lra.
Qed.

Lemma nn_mult_self : forall x, is_nan x = false -> nn (b64_mult x x).
Proof.
  intros x Hx. unfold b64_mult.
  destruct (is_finite x) eqn:Hf.
  - pose proof (Bmult_correct 53 1024 _ _ mode_NE x x) as H.
    destruct (Rlt_bool _ _).
    + destruct H as [_ [H2 H3]]. rewrite Hf in H2.
      assert (Hn : is_nan (Bmult mode_NE x x) = false) by (destruct (Bmult mode_NE x x); discriminate || reflexivity).
      split; [exact Hn|]. rewrite (H3 Hn). apply xorb_nilpotent.
    + rewrite xorb_nilpotent in H.
      destruct (Bmult mode_NE x x) as [| | |]; cbn in H; try discriminate.
      injection H as ->. split; reflexivity.
  - destruct x as [s|s| |s m e He]; try discriminate. split; [reflexivity|]. destruct s; reflexivity.
Qed.

Lemma nn_plus : forall x y, nn x -> nn y -> nn (b64_plus x y).
Proof.
  intros x y Hx Hy. unfold b64_plus.
  destruct (is_finite x) eqn:Fx, (is_finite y) eqn:Fy.
  - pose proof (Bplus_correct 53 1024 _ _ mode_NE x y Fx Fy) as H.
    pose proof (nn_B2R x Hx Fx) as Px. pose proof (nn_B2R y Hy Fy) as Py.
    destruct Hx as [_ Sx], Hy as [_ Sy].
    destruct (Rlt_bool _ _).
    + destruct H as [_ [H2 H3]]. rewrite Sx, Sy in H3. cbn in H3.
      split; [destruct (Bplus mode_NE x y); discriminate || reflexivity|].
      rewrite H3. destruct (Rcompare _ _) eqn:E; try reflexivity.
      apply Rcompare_Lt_inv in E. lra.
    + destruct H as [H _]. rewrite Sx in H.
      destruct (Bplus mode_NE x y); cbn in H; try discriminate.
      injection H as ->. split; reflexivity.
  - destruct Hx as [Nx Sx], Hy as [Ny Sy].
    destruct x, y; cbn in *; try discriminate; subst; split; reflexivity.
  - destruct Hx as [Nx Sx], Hy as [Ny Sy].
    destruct x, y; cbn in *; try discriminate; subst; split; reflexivity.
  - destruct Hx as [Nx Sx], Hy as [Ny Sy].
    destruct x, y; cbn in *; try discriminate; subst; split; reflexivity.
Qed.

Lemma nn_sqrt : forall x, nn x -> nn (b64_sqrt x).
Proof.
  intros x [Nx Sx]. unfold b64_sqrt.
  pose proof (Bsqrt_correct 53 1024 _ _ mode_NE x) as [_ [H2 H3]].
  destruct x as [s|s| |s m e He]; cbn in Nx, Sx; subst; try discriminate; try (split; reflexivity).
  assert (Hn : is_nan (Bsqrt mode_NE (B754_finite false m e He)) = false).
  { destruct (Bsqrt mode_NE _); cbn in *; try discriminate; reflexivity. }
  split; [exact Hn|]. rewrite (H3 Hn). reflexivity.
Qed.

Lemma nan_plus_r : forall x, b64_plus x B754_nan = B754_nan.
Proof. intros x; destruct x; reflexivity. Qed.
Lemma nan_sqrt : b64_sqrt B754_nan = B754_nan.
Proof. reflexivity. Qed.

Lemma is_nan_eq : forall x : b64, is_nan x = true -> x = B754_nan.
Proof. intros [s|s| |s m e He]; try discriminate; reflexivity. Qed.

Section Sym.
  Variables fs fc ft : b64 -> b64.
  Let N := Num64 fs fc ft.

  Lemma vdist_sym : forall a b : vec N, vdist a b = vdist b a.
  Proof. exact (vdist_sym_64 fs fc ft). Qed.

  Lemma vlen_cases : forall v : vec N,
    nn (vlen v) \/ (vlen v = B754_nan /\ (vx v = B754_nan \/ vy v = B754_nan \/ vz v = B754_nan)).
  Proof.
    intros [x y z]. unfold vlen; cbn [vx vy vz]. subst N. cbn [nsqrt nadd nmul Num64] in *.
    destruct (is_nan x) eqn:Ex.
    { right. apply is_nan_eq in Ex. rewrite Ex. split; [|left; reflexivity].
      rewrite nan_mult_l, !nan_plus_l. reflexivity. }
    destruct (is_nan y) eqn:Ey.
    { right. apply is_nan_eq in Ey. rewrite Ey. split; [|right; left; reflexivity].
      rewrite nan_mult_l, nan_plus_r, !nan_plus_l. reflexivity. }
    destruct (is_nan z) eqn:Ez.
    { right. apply is_nan_eq in Ez. rewrite Ez. split; [|right; right; reflexivity].
      rewrite nan_mult_l, nan_plus_r. reflexivity. }
    left. apply nn_sqrt. apply nn_plus; [apply nn_plus|]; apply nn_mult_self; assumption.
  Qed.

  Lemma vdist_nan_l : forall a b : vec N,
    (vx a = B754_nan \/ vy a = B754_nan \/ vz a = B754_nan) -> vdist a b = B754_nan.
  Proof.
    intros [ax ay az] [bx by_ bz]. unfold vdist, vlen, vsub; cbn [vx vy vz].
    subst N; cbn [nsqrt nadd nmul nsub Num64] in *.
    intros [->|[->| ->]];
      repeat first [rewrite nan_minus_r | rewrite nan_mult_l | rewrite nan_plus_l | rewrite nan_plus_r];
      reflexivity.
  Qed.

  Lemma nn_tie : forall x y : b64, nn x -> nn y -> Bltb x y = false -> Bltb y x = false -> x = y.
  Proof.
    intros x y Hx Hy H1 H2.
    destruct (is_finite x) eqn:Fx, (is_finite y) eqn:Fy.
    - rewrite Bltb_correct in H1, H2 by assumption.
      apply B2R_Bsign_inj; try assumption.
      + destruct (Rlt_bool_spec (B2R x) (B2R y)); [discriminate|].
        destruct (Rlt_bool_spec (B2R y) (B2R x)); [discriminate|]. lra.
      + destruct Hx as [_ ->], Hy as [_ ->]. reflexivity.
    - destruct Hx as [Nx Sx], Hy as [Ny Sy].
      destruct x, y; cbn in *; subst; try discriminate.
    - destruct Hx as [Nx Sx], Hy as [Ny Sy].
      destruct x, y; cbn in *; subst; try discriminate.
    - destruct Hx as [Nx Sx], Hy as [Ny Sy].
      destruct x, y; cbn in *; subst; try discriminate; reflexivity.
  Qed.

  Lemma Bltb_asym : forall x y : b64, Bltb x y = true -> Bltb y x = false.
  Proof.
    intros x y H. unfold Bltb, SpecFloat.SFltb in *.
    change (SpecFloat.SFcompare (B2SF x) (B2SF y)) with (Bcompare x y) in H.
    change (SpecFloat.SFcompare (B2SF y) (B2SF x)) with (Bcompare y x).
    rewrite Bcompare_swap. destruct (Bcompare x y) as [[]|]; try discriminate. reflexivity.
  Qed.

  Lemma cutoff_len : forall (m : leoloss N) (a b : vec N), vlen a = vlen b ->
    GetCutoffDistance m a = GetCutoffDistance m b.
  Proof. intros m a b H. unfold GetCutoffDistance. rewrite H. reflexivity. Qed.

  Lemma LeoCalcRxPower_sym_64 : forall (m : leoloss N) (tx : b64) (a b : vec N),
    LeoCalcRxPower m (tx : num N) a b = LeoCalcRxPower m (tx : num N) b a.
  Proof.
    intros m tx a b. unfold LeoCalcRxPower. rewrite (vdist_sym b a).
    change (nlt N) with (@Bltb 53 1024).
    destruct (Bltb (vlen b) (vlen a)) eqn:E1.
    - rewrite (Bltb_asym _ _ E1). reflexivity.
    - destruct (Bltb (vlen a) (vlen b)) eqn:E2; [reflexivity|].
      destruct (vlen_cases a) as [Ha|[Ha Na]].
      + destruct (vlen_cases b) as [Hb|[Hb Nb]].
        * rewrite (cutoff_len m b a); [reflexivity|]. symmetry. apply nn_tie; assumption.
        * rewrite (vdist_sym a b), (vdist_nan_l b a Nb).
          rewrite !nan_ltb_r. reflexivity.
      + rewrite (vdist_nan_l a b Na). rewrite !nan_ltb_r. reflexivity.
  Qed.
End Sym.
