(** Decimal numbers of six digits survive the conversion to binary64 and back. *)
Require Import ZArith Reals Lra Lia.
From Flocq Require Import Core.Core IEEE754.BinarySingleNaN Relative.
Require Import QArith Qreals Qreduction Qpower Verif.Num Verif.Num64 Verif.ParseModel Verif.Decimal64Model.
Local Open Scope R_scope.

(** m * 10^e *)
Definition dec (m e : Z) : R := IZR m * bpow radix10 e.
(** At most six significant digits, no trailing zero *)
Definition six (m e : Z) : Prop := (0 < m < 1000000)%Z /\ (m mod 10 <> 0)%Z.

(** Stretched to exactly six digits. *)
Lemma stretch : forall n m e, (0 < m < 1000000)%Z -> (100000 <= m * 10 ^ Z.of_nat n)%Z ->
  exists M E, (100000 <= M < 1000000)%Z /\ dec M E = dec m e /\ exists k, (0 <= k)%Z /\ M = (m * 10 ^ k)%Z /\ E = (e - k)%Z.
Proof.
  induction n as [|n IH]; intros m e H L.
  - exists m, e. split; [cbn in L; lia|]. split; [reflexivity|]. exists 0%Z. split; [lia|]. split; [cbn; lia|lia].
  - destruct (Z_lt_ge_dec m 100000) as [S|S].
    + destruct (IH (m * 10)%Z (e - 1)%Z) as (M & E & A & B & k & K1 & K2 & K3); [lia| |].
      * rewrite Nat2Z.inj_succ, Z.pow_succ_r in L by lia. lia.
      * exists M, E. split; [assumption|]. split.
        -- rewrite B. unfold dec. rewrite mult_IZR. replace e with (e - 1 + 1)%Z at 2 by lia. rewrite bpow_plus. change (bpow radix10 1) with 10. ring.
        -- exists (k + 1)%Z. split; [lia|]. split; [rewrite K2, Z.pow_add_r by lia; lia|lia].
    + exists m, e. split; [lia|]. split; [reflexivity|]. exists 0%Z. split; [lia|]. split; [cbn; lia|lia].
Qed.
Lemma six_stretch : forall m e, six m e -> exists M E, (100000 <= M < 1000000)%Z /\ dec M E = dec m e /\
  exists k, (0 <= k)%Z /\ M = (m * 10 ^ k)%Z /\ E = (e - k)%Z.
Proof. intros m e [H _]. apply (stretch 5); [assumption|]. change (10 ^ Z.of_nat 5)%Z with 100000%Z. lia. Qed.

(** The stretched number determines the digits. *)
Lemma stretch_unique : forall m e k m' e' k', six m e -> six m' e' -> (0 <= k)%Z -> (0 <= k')%Z ->
  (m * 10 ^ k = m' * 10 ^ k')%Z -> (e - k = e' - k')%Z -> m = m' /\ e = e'.
Proof.
  assert (W : forall m e k m' e' k', six m e -> six m' e' -> (0 <= k <= k')%Z ->
    (m * 10 ^ k = m' * 10 ^ k')%Z -> (e - k = e' - k')%Z -> m = m' /\ e = e').
  { intros m e k m' e' k' [H N] [H' N'] K E F. replace k' with (k' - k + k)%Z in E by lia. rewrite Z.pow_add_r in E by lia.
    assert (P : (0 < 10 ^ k)%Z) by (apply Z.pow_pos_nonneg; lia).
    assert (X : (m = m' * 10 ^ (k' - k))%Z) by (apply (Z.mul_reg_r _ _ (10 ^ k)%Z); lia).
    destruct (Z.eq_dec k' k) as [->|NE].
    - rewrite Z.sub_diag in X. cbn in X. lia.
    - exfalso. apply N. replace (k' - k)%Z with (k' - k - 1 + 1)%Z in X by lia. rewrite Z.pow_add_r in X by lia.
      rewrite X. change (10 ^ 1)%Z with 10%Z. rewrite Z.mul_assoc. apply Z_mod_mult. }
  intros m e k m' e' k' S S' K K' E F. destruct (Z_le_gt_dec k k') as [L|G]; [eapply W; eauto|].
  destruct (W m' e' k' m e k) as [A B]; auto; lia.
Qed.

(** Different numbers of six digits differ by more than 1/2000001 of either. *)
Lemma gap_lt : forall M E M' E', (100000 <= M < 1000000)%Z -> (100000 <= M' < 1000000)%Z -> (E' < E)%Z ->
  dec M E - dec M' E' >= dec M E / 2000000 /\ 0 < dec M' E' <= dec M E.
Proof.
  intros M E M' E' H H' L. unfold dec.
  assert (P : 0 < bpow radix10 E') by apply bpow_gt_0.
  assert (Q : 10 * bpow radix10 E' <= bpow radix10 E).
  { change 10 with (bpow radix10 1). rewrite <- bpow_plus. apply bpow_le. lia. }
  assert (A : 100000 <= IZR M) by (apply IZR_le; lia).
  assert (B : IZR M' <= 999999) by (apply IZR_le; lia).
  assert (C : 100000 <= IZR M') by (apply IZR_le; lia).
  set (u := bpow radix10 E') in *. set (w := bpow radix10 E) in *.
  assert (X1 : 100000 * w <= IZR M * w) by (apply Rmult_le_compat_r; lra).
  assert (X2 : IZR M' * u <= 999999 * u) by (apply Rmult_le_compat_r; lra).
  assert (X3 : 100000 * u <= IZR M' * u) by (apply Rmult_le_compat_r; lra).
  lra.
Qed.
Lemma gap_eq : forall M M' E, (100000 <= M < 1000000)%Z -> (100000 <= M' < 1000000)%Z -> (M' < M)%Z ->
  dec M E - dec M' E >= dec M E / 2000000 /\ 0 < dec M' E <= dec M E.
Proof.
  intros M M' E H H' L. unfold dec. assert (P : 0 < bpow radix10 E) by apply bpow_gt_0.
  assert (A : IZR M' + 1 <= IZR M) by (rewrite <- plus_IZR; apply IZR_le; lia).
  assert (B : IZR M <= 999999) by (apply IZR_le; lia). assert (C : 100000 <= IZR M') by (apply IZR_le; lia).
  set (w := bpow radix10 E) in *.
  assert (X1 : (IZR M' + 1) * w <= IZR M * w) by (apply Rmult_le_compat_r; lra).
  assert (X2 : IZR M * w <= 999999 * w) by (apply Rmult_le_compat_r; lra).
  assert (X3 : 100000 * w <= IZR M' * w) by (apply Rmult_le_compat_r; lra).
  lra.
Qed.
Lemma gap : forall m e m' e', six m e -> six m' e' -> (m = m' /\ e = e') \/ Rabs (dec m e - dec m' e') >= dec m e / 2000000.
Proof.
  intros m e m' e' S S'. destruct (six_stretch m e S) as (M & E & H & V & k & K1 & K2 & K3).
  destruct (six_stretch m' e' S') as (M' & E' & H' & V' & k' & K1' & K2' & K3'). rewrite <- V, <- V'.
  assert (B : forall M E M' E', dec M E - dec M' E' >= dec M E / 2000000 /\ 0 < dec M' E' <= dec M E ->
            Rabs (dec M E - dec M' E') >= dec M E / 2000000 /\ Rabs (dec M' E' - dec M E) >= dec M' E' / 2000000).
  { intros a b c d [X Y]. split; [rewrite Rabs_pos_eq|rewrite Rabs_minus_sym, Rabs_pos_eq]; lra. }
  destruct (Z_lt_ge_dec E' E) as [L|G]; [right; exact (proj1 (B _ _ _ _ (gap_lt _ _ _ _ H H' L)))|].
  destruct (Z_lt_ge_dec E E') as [L|G']; [right; exact (proj2 (B _ _ _ _ (gap_lt _ _ _ _ H' H L)))|].
  assert (EE : E = E') by lia. rewrite <- EE in *.
  destruct (Z_lt_ge_dec M' M) as [L|GM]; [right; exact (proj1 (B _ _ _ _ (gap_eq _ _ E H H' L)))|].
  destruct (Z_lt_ge_dec M M') as [L|GM']; [right; exact (proj2 (B _ _ _ _ (gap_eq _ _ E H' H L)))|].
  left. apply (stretch_unique m e k m' e' k'); auto; lia.
Qed.

(** A number close to a six digit number has no nearer one. *)
Lemma nearest_six : forall y m e m' e', six m e -> six m' e' -> Rabs (y - dec m e) <= dec m e / 10000000 ->
  Rabs (y - dec m' e') <= Rabs (y - dec m e) -> m' = m /\ e' = e.
Proof.
  intros y m e m' e' S S' A B. destruct (gap m e m' e' S S') as [[-> ->]|G]; [auto|]. exfalso.
  assert (P : 0 < dec m e).
  { unfold dec. apply Rmult_lt_0_compat; [apply IZR_lt; destruct S; lia|apply bpow_gt_0]. }
  pose proof (Rabs_triang (dec m e - y) (y - dec m' e')) as T. replace (dec m e - y + (y - dec m' e')) with (dec m e - dec m' e') in T by ring.
  rewrite (Rabs_minus_sym (dec m e) y) in T. lra.
Qed.

(** Correct rounding to binary64 is accurate enough. *)
Lemma round64_close : forall r, bpow radix2 (-1022) <= r -> Rabs (round radix2 (FLT_exp (-1074) 53) ZnearestE r - r) <= r / 10000000.
Proof.
  intros r H. assert (P : 0 < r) by (eapply Rlt_le_trans; [apply bpow_gt_0|exact H]).
  destruct (relative_error_N_FLT_ex radix2 (-1074) 53 ltac:(unfold Prec_gt_0; lia) (fun x => negb (Z.even x)) r) as (eps & E & ->).
  { rewrite Rabs_pos_eq by lra. replace (-1074 + 53 - 1)%Z with (-1022)%Z by lia. exact H. }
  replace (r * (1 + eps) - r) with (r * eps) by ring. rewrite Rabs_mult, (Rabs_pos_eq r) by lra.
  assert (B : / 2 * bpow radix2 (- (53) + 1) <= / 10000000).
  { change (bpow radix2 (- (53) + 1)) with (/ IZR 4503599627370496). lra. }
  unfold Rdiv. apply Rmult_le_compat_l; lra.
Qed.

(** ** Rational and real values *)
Lemma Q2R_pow_nat : forall n, Q2R (Qpower (10 # 1) (Z.of_nat n)) = bpow radix10 (Z.of_nat n).
Proof.
  induction n as [|n IH]; [cbn; unfold Q2R; cbn; lra|]. rewrite Nat2Z.inj_succ. unfold Z.succ.
  rewrite (Qeq_eqR _ _ (Qpower_plus (10 # 1) (Z.of_nat n) 1 ltac:(discriminate))), Q2R_mult, IH, bpow_plus. f_equal.
  unfold Q2R. cbn. lra.
Qed.
Lemma Q2R_pow : forall e, Q2R (Qpower (10 # 1) e) = bpow radix10 e.
Proof.
  intros e. destruct (Z_le_gt_dec 0 e) as [H|H].
  - rewrite <- (Z2Nat.id e H). apply Q2R_pow_nat.
  - pose proof (Q2R_pow_nat (Z.to_nat (- e))) as X. rewrite Z2Nat.id in X by lia.
    assert (Y : Q2R (Qpower (10 # 1) e) * Q2R (Qpower (10 # 1) (- e)) = 1).
    { rewrite <- Q2R_mult, <- (Qeq_eqR _ _ (Qpower_plus (10 # 1) e (- e) ltac:(discriminate))), Z.add_opp_diag_r. unfold Q2R. cbn. lra. }
    rewrite X in Y. assert (Z0 : bpow radix10 e * bpow radix10 (- e) = 1) by (rewrite <- bpow_plus, Z.add_opp_diag_r; reflexivity).
    apply (Rmult_eq_reg_r (bpow radix10 (- e))); [congruence|]. apply Rgt_not_eq, bpow_gt_0.
Qed.
Lemma Q2R_decimal : forall m e, Q2R (decimal m e) = dec m e.
Proof.
  intros m e. unfold decimal, dec. rewrite (Qeq_eqR _ _ (Qred_correct _)), Q2R_mult, Q2R_pow. f_equal. unfold Q2R, inject_Z. cbn. lra.
Qed.

(** ** strtod *)
Lemma strtod64_value : forall neg q x, 0 <= Q2R q -> strtod64 neg q = Some x ->
  is_finite x = true /\ B2R x = (if neg then - 1 else 1) * round radix2 exp64 ZnearestE (Q2R q) /\ Bsign x = neg.
Proof.
  intros neg q x P H. unfold strtod64 in H. set (y := round radix2 exp64 ZnearestE (Q2R q)) in *.
  assert (VE : Valid_exp exp64) by (apply FLT_exp_valid; unfold Prec_gt_0; lia).
  assert (G : generic_format radix2 exp64 y) by (apply generic_format_round; [assumption|apply valid_rnd_N]).
  assert (Y0 : 0 <= y) by (apply round_ge_generic; [assumption|apply valid_rnd_N|apply generic_format_0|assumption]).
  destruct (Rlt_bool (Rabs y) (bpow radix2 1024)) eqn:L; [|discriminate]. injection H as <-.
  set (m := Ztrunc (scaled_mantissa radix2 exp64 y)). set (e := cexp radix2 exp64 y).
  assert (F : F2R (Float radix2 (if neg then - m else m)%Z e) = (if neg then - 1 else 1) * y).
  { unfold generic_format in G. fold m e in G. destruct neg; [rewrite F2R_Zopp|]; rewrite <- G; ring. }
  pose proof (binary_normalize_correct 53 1024 _ _ mode_NE (if neg then - m else m)%Z e neg) as C. cbv zeta in C.
  change (SpecFloat.fexp 53 1024) with exp64 in C. change (round_mode mode_NE) with ZnearestE in C.
  assert (R : round radix2 exp64 ZnearestE (F2R (Float radix2 (if neg then - m else m)%Z e)) = (if neg then - 1 else 1) * y).
  { rewrite F. apply round_generic; [apply valid_rnd_N|]. destruct neg; [|rewrite Rmult_1_l; assumption].
    replace (-1 * y) with (- y) by ring. apply generic_format_opp. assumption. }
  rewrite R in C. assert (AB : Rabs ((if neg then - 1 else 1) * y) = Rabs y) by (destruct neg; [replace (-1 * y) with (- y) by ring; apply Rabs_Ropp|rewrite Rmult_1_l; reflexivity]).
  rewrite AB, L in C. destruct C as (C1 & C2 & C3). split; [assumption|]. split; [assumption|]. rewrite C3, F.
  destruct neg; destruct (Req_dec y 0) as [Z|NZ].
  - rewrite Z, Rmult_0_r, Rcompare_Eq; reflexivity.
  - rewrite Rcompare_Lt; [reflexivity|]. lra.
  - rewrite Z, Rmult_0_r, Rcompare_Eq; reflexivity.
  - rewrite Rcompare_Gt; [reflexivity|]. lra.
Qed.

(** ** printf *)
Lemma strip_spec : forall f m e, (0 < m < 10 ^ Z.of_nat f)%Z ->
  let (m', e') := strip f m e in (0 < m' <= m)%Z /\ (m' mod 10 <> 0)%Z /\ dec m' e' = dec m e.
Proof.
  induction f as [|f IH]; intros m e H; [cbn in H; lia|]. cbn [strip]. destruct (Z.eqb_spec (m mod 10) 0) as [Z0|NZ].
  - pose proof (Z.div_mod m 10 ltac:(lia)) as D. rewrite Nat2Z.inj_succ, Z.pow_succ_r in H by lia.
    specialize (IH (m / 10)%Z (e + 1)%Z ltac:(lia)). destruct (strip f (m / 10) (e + 1)) as [m' e']. destruct IH as (A & B & C).
    split; [lia|]. split; [assumption|]. rewrite C. unfold dec. rewrite bpow_plus. change (bpow radix10 1) with 10.
    replace (IZR m) with (10 * IZR (m / 10)) by (rewrite <- mult_IZR; f_equal; lia). ring.
  - split; [lia|]. auto.
Qed.

Lemma six_format : forall m e, six m e -> generic_format radix10 (FLX_exp 6) (dec m e).
Proof.
  intros m e [H _]. apply generic_format_FLX. exists (Float radix10 m e); [reflexivity|]. cbn. lia.
Qed.

Lemma printf64_six : forall x m e, six m e -> B2R x <> 0 -> Rabs (Rabs (B2R x) - dec m e) <= dec m e / 10000000 -> printf64 x = (Bsign x, m, e).
Proof.
  intros x m e S NZ C. unfold printf64. rewrite Req_bool_false by assumption.
  set (y := Rabs (B2R x)) in *. set (z := round radix10 (FLX_exp 6) ZnearestE y).
  assert (VE : Valid_exp (FLX_exp 6)) by (apply FLX_exp_valid; unfold Prec_gt_0; lia).
  assert (G : generic_format radix10 (FLX_exp 6) z) by (apply generic_format_round; [assumption|apply valid_rnd_N]).
  assert (DP : 0 < dec m e) by (unfold dec; apply Rmult_lt_0_compat; [apply IZR_lt; destruct S; lia|apply bpow_gt_0]).
  assert (NR : Rabs (z - y) <= Rabs (dec m e - y)).
  { destruct (round_N_pt radix10 (FLX_exp 6) (fun x => negb (Z.even x)) y) as [_ X]. apply X. apply six_format. assumption. }
  assert (ZP : 0 < z).
  { assert (Rabs (z - y) <= dec m e / 10000000) by (rewrite (Rabs_minus_sym (dec m e) y) in NR; lra).
    apply Rabs_le_inv in H. apply Rabs_le_inv in C. lra. }
  set (M := Ztrunc (scaled_mantissa radix10 (FLX_exp 6) z)). set (E := cexp radix10 (FLX_exp 6) z).
  assert (ZE : z = dec M E) by exact G.
  assert (MB : (0 < M < 10 ^ Z.of_nat 6)%Z).
  { split.
    - apply lt_IZR. rewrite ZE in ZP. unfold dec in ZP. pose proof (bpow_gt_0 radix10 E). apply (Rmult_lt_reg_r (bpow radix10 E)); lra.
    - assert (X : Rabs (scaled_mantissa radix10 (FLX_exp 6) z) < bpow radix10 6).
      { unfold scaled_mantissa, cexp, FLX_exp. destruct (mag radix10 z) as [g Hg]. cbn [mag_val]. specialize (Hg (Rgt_not_eq _ _ ZP)). destruct Hg as [_ Hg].
        rewrite Rabs_mult, (Rabs_pos_eq (bpow radix10 _)) by (apply bpow_ge_0).
        replace 6%Z with (g + - (g - 6))%Z at 2 by lia. rewrite (bpow_plus radix10 g (- (g - 6))). apply Rmult_lt_compat_r; [apply bpow_gt_0|assumption]. }
      rewrite (scaled_mantissa_generic _ _ _ G) in X. fold M in X. change (bpow radix10 6) with (IZR (10 ^ Z.of_nat 6)) in X.
      apply lt_IZR. eapply Rle_lt_trans; [apply Rle_abs|exact X]. }
  pose proof (strip_spec 6 M E MB) as ST. destruct (strip 6 M E) as [m' e']. destruct ST as (A & B & D).
  destruct (nearest_six y m e m' e') as [-> ->]; [assumption| |assumption| |reflexivity].
  - split; [|assumption]. change (10 ^ Z.of_nat 6)%Z with 1000000%Z in MB. lia.
  - rewrite D, <- ZE, (Rabs_minus_sym y z), (Rabs_minus_sym y (dec m e)). exact NR.
Qed.

(** A double read from a number of six digits is printed as this number. *)
Lemma six_round_trip : forall neg m e x, six m e -> bpow radix2 (-1022) <= dec m e -> strtod64 neg (decimal m e) = Some x ->
  printf64 x = (neg, m, e).
Proof.
  intros neg m e x S L H. assert (DP : 0 < dec m e) by (eapply Rlt_le_trans; [apply bpow_gt_0|exact L]).
  destruct (strtod64_value neg (decimal m e) x) as (_ & V & SG); [rewrite Q2R_decimal; lra|assumption|]. rewrite Q2R_decimal in V.
  pose proof (round64_close (dec m e) L) as C. fold exp64 in C.
  set (y := round radix2 exp64 ZnearestE (dec m e)) in *.
  assert (YP : 0 < y) by (apply Rabs_le_inv in C; lra).
  assert (AV : Rabs (B2R x) = y).
  { rewrite V. destruct neg; [replace (-1 * y) with (- y) by ring; rewrite Rabs_Ropp|rewrite Rmult_1_l]; apply Rabs_pos_eq; lra. }
  rewrite <- SG. apply printf64_six; [assumption| |rewrite AV; exact C]. intros Z. rewrite Z, Rabs_R0 in AV. lra.
Qed.
Lemma zero_round_trip : forall neg x, strtod64 neg (decimal 0 0) = Some x -> printf64 x = (neg, 0, 0)%Z.
Proof.
  intros neg x H. assert (D0 : Q2R (decimal 0 0) = 0) by (rewrite Q2R_decimal; unfold dec; ring).
  destruct (strtod64_value neg (decimal 0 0) x) as (_ & V & SG); [lra|assumption|]. rewrite D0, round_0, Rmult_0_r in V by apply valid_rnd_N.
  unfold printf64. rewrite Req_bool_true by assumption. rewrite SG. reflexivity.
Qed.
(** Everything up to 10^308 is in range. *)
Lemma strtod64_total : forall neg m e, six m e -> dec m e <= bpow radix2 1023 -> exists x, strtod64 neg (decimal m e) = Some x.
Proof.
  intros neg m e S L. unfold strtod64. rewrite Q2R_decimal.
  assert (DP : 0 < dec m e) by (unfold dec; apply Rmult_lt_0_compat; [apply IZR_lt; destruct S; lia|apply bpow_gt_0]).
  assert (VE : Valid_exp exp64) by (apply FLT_exp_valid; unfold Prec_gt_0; lia).
  rewrite Rlt_bool_true; [eauto|]. eapply Rle_lt_trans; [|apply (bpow_lt radix2 1023 1024); lia].
  rewrite Rabs_pos_eq; [|apply round_ge_generic; [assumption|apply valid_rnd_N|apply generic_format_0|lra]].
  apply round_le_generic; [assumption|apply valid_rnd_N| |exact L]. apply generic_format_bpow. unfold exp64, FLT_exp. lia.
Qed.
