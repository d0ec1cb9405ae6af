(** The numbers printed by the tracing program, in doubles. *)
Require Import Ascii String ZArith QArith Qreals List Bool Reals Lra Lia.
From Flocq Require Import Core.Core IEEE754.BinarySingleNaN Relative.
Require Import Verif.Base Verif.Num Verif.NumR Verif.Num64 Verif.Vec Verif.OrbitModel Verif.MobilityModel Verif.AllocModel Verif.ParseModel
  Verif.Decimal64Model Verif.TracingModel Verif.GeomSpec Verif.OrbitSpec Verif.MobilitySpec Verif.AllocSpec Verif.ParseSpec Verif.Float64Spec Verif.TracingSpec
  Verif.OrbitProofs Verif.MobilityProofs Verif.AllocProofs Verif.Alloc64Proofs Verif.ParseRecordProofs Verif.SixDigitsProofs
  Verif.Read64Proofs Verif.Float64Proofs Verif.Orbit64Proofs Verif.Orbit64Api Verif.Los64Proofs Verif.TracingProofs.
Import ListNotations.
Local Open Scope R_scope.

(** ** Printing *)
Lemma dec_decimal : forall m e m' e', decimal m e = decimal m' e' -> dec m e = dec m' e'.
Proof. intros m e m' e' H. rewrite <- !Q2R_decimal, H. reflexivity. Qed.

Lemma bpow_powerRZ10 : forall e, bpow radix10 e = powerRZ 10 e.
Proof. intros e. rewrite bpow_powerRZ. reflexivity. Qed.

Lemma Bsign_neg : forall x : b64, is_finite x = true -> B2R x <> 0 -> B2R x = (if Bsign x then -1 else 1) * Rabs (B2R x).
Proof.
  intros [s|s| |s m e B] F NZ; try discriminate; [exfalso; apply NZ; reflexivity|].
  cbn [Bsign B2R]. unfold F2R. cbn [Fnum Fexp]. pose proof (bpow_gt_0 radix2 e) as P.
  rewrite Rabs_mult, (Rabs_pos_eq (bpow radix2 e)) by lra. rewrite <- abs_IZR.
  destruct s; cbn [cond_Zopp Z.opp Z.abs]; [change (IZR (Z.neg m)) with (- IZR (Z.pos m))|]; ring.
Qed.

Lemma printf64_close : forall x : b64, is_finite x = true ->
  exists neg m e, printf64 x = (neg, m, e) /\ (0 <= m)%Z /\
    Rabs ((if neg then -1 else 1) * dec m e - B2R x) <= Rabs (B2R x) * (5 / 1000000).
Proof.
  intros x F. unfold printf64. destruct (Req_bool_spec (B2R x) 0) as [E|NZ].
  - exists (Bsign x), 0%Z, 0%Z. split; [reflexivity|]. split; [lia|]. rewrite E. unfold dec.
    replace ((if Bsign x then -1 else 1) * (0 * bpow radix10 0) - 0) with 0 by ring. rewrite Rabs_R0. lra.
  - set (y := Rabs (B2R x)). set (z := round radix10 (FLX_exp 6) ZnearestE y).
    assert (VE : Valid_exp (FLX_exp 6)) by (apply FLX_exp_valid; unfold Prec_gt_0; lia).
    assert (G : generic_format radix10 (FLX_exp 6) z) by (apply generic_format_round; [assumption|apply valid_rnd_N]).
    assert (YP : 0 < y) by (apply Rabs_pos_lt; exact NZ).
    assert (RE : Rabs (z - y) <= 5 / 1000000 * y).
    { pose proof (relative_error_N_FLX radix10 6 ltac:(lia) (fun x => negb (Z.even x)) y) as R.
      rewrite (Rabs_pos_eq y) in R by lra. change (bpow radix10 (- (6) + 1)) with (/ 100000) in R.
      fold z in R. lra. }
    assert (ZP : 0 < z) by (apply Rabs_le_inv in RE; lra).
    set (M := Ztrunc (scaled_mantissa radix10 (FLX_exp 6) z)). set (E := cexp radix10 (FLX_exp 6) z).
    assert (ZE : z = dec M E) by exact G.
    assert (MB : (0 < M < 10 ^ Z.of_nat 6)%Z).
    { split.
      - apply lt_IZR. rewrite ZE in ZP. unfold dec in ZP. pose proof (bpow_gt_0 radix10 E). apply (Rmult_lt_reg_r (bpow radix10 E)); lra.
      - assert (X : Rabs (scaled_mantissa radix10 (FLX_exp 6) z) < bpow radix10 6).
        { unfold scaled_mantissa, cexp, FLX_exp. destruct (mag radix10 z) as [g Hg]. cbn [mag_val]. specialize (Hg (Rgt_not_eq _ _ ZP)). destruct Hg as [_ Hg].
          rewrite Rabs_mult, (Rabs_pos_eq (bpow radix10 _)) by (apply bpow_ge_0).
          replace 6%Z with (g + - (g - 6))%Z at 2 by lia. rewrite (bpow_plus radix10 g (- (g - 6))). apply Rmult_lt_compat_r; [apply bpow_gt_0|assumption]. }
        rewrite (scaled_mantissa_generic _ _ _ G) in X. fold M in X. change (bpow radix10 6) with (IZR (10 ^ Z.of_nat 6)) in X.
        apply lt_IZR. eapply Rle_lt_trans; [apply Rle_abs|exact X]. }
    pose proof (strip_spec 6 M E MB) as ST. destruct (strip 6 M E) as [m' e']. destruct ST as (A & B & D).
    exists (Bsign x), m', e'. split; [reflexivity|]. split; [lia|]. rewrite D, <- ZE.
    rewrite (Bsign_neg x F NZ) at 1. fold y. rewrite <- Rmult_minus_distr_l, Rabs_mult.
    replace (Rabs (if Bsign x then -1 else 1)) with 1; [lra|]. destruct (Bsign x); [rewrite Rabs_left|rewrite Rabs_pos_eq]; lra.
Qed.

Lemma put_says : forall (N : Num) (sd : num N -> bool * Z * Z) x neg m e, sd x = (neg, m, e) -> (0 <= m)%Z ->
  says (put_double sd x) ((if neg then -1 else 1) * dec m e).
Proof.
  intros N sd x neg m e E Hm. unfold put_double. rewrite E. destruct (show_g_denotes neg m e Hm) as (m' & e' & D & V).
  exists neg, m', e'. split; [exact D|]. rewrite <- (dec_decimal _ _ _ _ V). unfold dec. rewrite bpow_powerRZ10. reflexivity.
Qed.

Lemma put_close : forall fs fc ft (x : b64), is_finite x = true ->
  exists r, says (@put_double (Num64 fs fc ft) printf64 x) r /\ Rabs (r - B2R x) <= Rabs (B2R x) * (5 / 1000000).
Proof.
  intros fs fc ft x F. destruct (printf64_close x F) as (neg & m & e & E & Hm & C).
  eexists. split; [eapply put_says; eassumption|exact C].
Qed.

(** ** The start angles *)
Lemma turn64_near : forall i n, (0 < n <= 65536)%Z -> (0 <= i < n)%Z ->
  is_finite (turn64 i n) = true /\ Rabs (B2R (turn64 i n) - turn i n) <= 1 / 100000000000000 /\ Rabs (B2R (turn64 i n)) <= 10.
Proof.
  intros i n Hn Hi. destruct (turn64_R i n Hn Hi) as (_ & F & E). destruct (div_64 i n Hn Hi) as (_ & _ & D3 & D4).
  destruct twopi64_R as [T1 _]. split; [exact F|].
  assert (P : Rabs (B2R twopi64 - 2 * PI) <= 2 * u).
  { pose proof PI_64 as P. assert (EP : B2R twopi64 = 2 * B2R b64_pi).
    { rewrite T1. destruct pi64_R as [E2 _].
      rewrite E2. replace (-47)%Z with (-48 + 1)%Z by lia. rewrite bpow_plus. change (bpow radix2 1) with 2. ring. }
    rewrite EP. rewrite Rabs_left; lra. }
  assert (Q : 0 <= IZR i / IZR n < 1).
  { assert (0 < IZR n) by (apply IZR_lt; lia). assert (0 <= IZR i) by (apply IZR_le; lia). assert (IZR i < IZR n) by (apply IZR_lt; lia).
    split; [unfold Rdiv; apply Rmult_le_pos; [lra|left; apply Rinv_0_lt_compat; lra]|]. apply Rmult_lt_reg_r with (IZR n); [lra|]. unfold Rdiv. rewrite Rmult_assoc, Rinv_l; lra. }
  set (q := IZR i / IZR n) in *.
  change (bpow radix2 (-50)) with (/ 1125899906842624) in E. change (bpow radix2 (-53)) with (/ 9007199254740992) in D4.
  unfold turn. fold q. set (y := round radix2 (FLT_exp (-1074) 53) ZnearestE q) in *.
  assert (YB : Rabs (y - q) <= u) by (unfold u; lra).
  assert (C : Rabs (B2R twopi64 * y - 2 * PI * q) <= 10 * u).
  { replace (B2R twopi64 * y - 2 * PI * q) with (B2R twopi64 * (y - q) + (B2R twopi64 - 2 * PI) * q) by ring.
    eapply Rle_trans; [apply Rabs_triang|]. rewrite !Rabs_mult. rewrite (Rabs_pos_eq q) by lra.
    assert (T3 : 6 < B2R twopi64 < 7) by (rewrite T1; cbn; lra). rewrite (Rabs_pos_eq (B2R twopi64)) by lra.
    assert (B2R twopi64 * Rabs (y - q) <= 7 * u) by (apply Rmult_le_compat; try lra; apply Rabs_pos).
    assert (Rabs (B2R twopi64 - 2 * PI) * q <= 2 * u * 1) by (apply Rmult_le_compat; try lra; apply Rabs_pos). unfold u in *. lra. }
  assert (W : Rabs (B2R (turn64 i n) - 2 * PI * q) <= 1 / 100000000000000).
  { replace (B2R (turn64 i n) - 2 * PI * q) with ((B2R (turn64 i n) - B2R twopi64 * y) + (B2R twopi64 * y - 2 * PI * q)) by ring.
    eapply Rle_trans; [apply Rabs_triang|]. unfold u in C. lra. }
  split; [exact W|]. replace (B2R (turn64 i n)) with ((B2R (turn64 i n) - 2 * PI * q) + 2 * PI * q) by ring.
  eapply Rle_trans; [apply Rabs_triang|]. pose proof PI_RGT_0. pose proof PI_4. rewrite (Rabs_pos_eq (2 * PI * q)) by (apply Rmult_le_pos; lra).
  assert (2 * PI * q <= 8 * 1) by (apply Rmult_le_compat; lra). lra.
Qed.

(** ** A line *)
Section Line.
  Variables fsin fcos ftan : b64 -> b64.
  Hypothesis ACC : accurate fsin fcos.
  Local Notation N64 := (Num64 fsin fcos ftan).

  Lemma speed_bounds : forall h, 6371 <= h <= 1006372 -> 600 <= circular_speed h <= 8000.
  Proof.
    intros h H. unfold circular_speed. split.
    - assert (6 / 1000 <= sqrt (39.8600436 / h)); [|lra]. rewrite <- (sqrt_square (6 / 1000)) by lra. apply sqrt_le_1_alt.
      apply Rmult_le_reg_r with h; [lra|]. replace (39.8600436 / h * h) with 39.8600436 by (field; lra). lra.
    - assert (sqrt (39.8600436 / h) <= 8 / 100); [|lra]. rewrite <- (sqrt_square (8 / 100)) by lra. apply sqrt_le_1_alt.
      apply Rmult_le_reg_r with h; [lra|]. replace (39.8600436 / h * h) with 39.8600436 by (field; lra). lra.
  Qed.

  Lemma within_sym : forall d p q, within d p q -> within d q p.
  Proof. intros d p q (A & B & C). unfold within. rewrite (Rabs_minus_sym (px q)), (Rabs_minus_sym (py q)), (Rabs_minus_sym (pz q)). auto. Qed.

  Lemma line_64 : forall (o : leoorbit N64) ps sh t i (n : R),
    is_finite (lo_alt o : b64) = true -> 0 <= B2R (lo_alt o) <= 1000000 ->
    is_finite (lo_inc o : b64) = true -> Rabs (B2R (lo_inc o)) <= 360 ->
    (0 < lo_planes o <= 65535)%Z -> (0 < lo_sats o <= 65535)%Z -> (0 <= fst ps < lo_planes o)%Z -> (0 <= snd ps < lo_sats o)%Z ->
    1 <= n <= 100000 -> (0 <= t)%Z -> IZR t <= n * 86400000000000 ->
    let h := earth_radius_km + B2R (lo_alt o) in
    exists p v, row (obs_line N64 printf64 sh (t, (i, sat_orbit (o, ps)))) (sh t) i p v /\
      within (1000 * h * (5 / 1000000 + n * 2 / 1000000000000)) p
        (trajectory h (B2R (lo_inc o) * PI / 180) (turn (fst ps) (lo_planes o)) (turn (snd ps) (lo_sats o)) (sec t)) /\
      Rabs (v - circular_speed h) <= circular_speed h * (6 / 1000000).
  Proof.
    intros o ps sh t i n FA HA FI HI HP HS Hp Hs Hn Ht HT h.
    destruct (turn64_near (fst ps) (lo_planes o) ltac:(lia) Hp) as (FL & EL & BL).
    destruct (turn64_near (snd ps) (lo_sats o) ltac:(lia) Hs) as (FO & EO & BO).
    assert (HT' : Rabs (IZR t) <= n * 86400000000000) by (rewrite Rabs_pos_eq; [exact HT|apply IZR_le; exact Ht]).
    destruct (calc_64 fsin fcos ftan ACC _ _ _ _ t n FA HA FI HI FL BL FO BO Hn HT') as ((F1 & F2 & F3) & SP & W).
    destruct (velocity_api_64 fsin fcos ftan ACC _ _ _ _ t n FA HA FI HI FL BL FO BO Hn HT') as (FV & SV & _).
    fold h in SP, W, SV.
    assert (Hh : 6371 <= h <= 1006372) by (unfold h, earth_radius_km; lra).
    unfold obs_line. unfold sat_orbit. cbn [fst snd]. rewrite circ_vec_64. cbn [vx vy vz].
    set (orb := mkOrbit (@HeightOf N64 (lo_alt o)) (@RadiansOf N64 (lo_inc o)) (turn64 (fst ps) (lo_planes o)) (turn64 (snd ps) (lo_sats o)) : orbit N64) in *.
    set (P := @CalcPosition N64 orb t t) in *. set (Vel := @VelocityAt N64 orb t P) in *.
    pose proof (speed_bounds h Hh) as SB.
    assert (NV : / 1000000 <= norm (reals Vel) <= 2000000000000) by (apply Rabs_le_inv in SV; lra).
    destruct (vlen_64 fsin fcos ftan Vel FV NV) as (FS & ES & _). rewrite Rmult_1_r in ES.
    destruct (put_close fsin fcos ftan (vx P) F1) as (x & X1 & X2).
    destruct (put_close fsin fcos ftan (vy P) F2) as (y & Y1 & Y2).
    destruct (put_close fsin fcos ftan (vz P) F3) as (z & Z1 & Z2).
    destruct (put_close fsin fcos ftan (vlen Vel) FS) as (v & V1 & V2).
    destruct (show_spec (Z.of_nat i) ltac:(lia)) as (SD & _ & SVal).
    exists (pt x y z), v. split; [|split].
    - exists (show (Z.of_nat i)), (@put_double N64 printf64 (vx P)), (@put_double N64 printf64 (vy P)), (@put_double N64 printf64 (vz P)), (@put_double N64 printf64 (vlen Vel)).
      split; [reflexivity|]. auto 10.
    - assert (LP : within (1000 * h / 10000000000000) (trajectory h (B2R (lo_inc o) * PI / 180) (B2R (turn64 (fst ps) (lo_planes o))) (B2R (turn64 (snd ps) (lo_sats o))) (sec t))
        (trajectory h (B2R (lo_inc o) * PI / 180) (turn (fst ps) (lo_planes o)) (turn (snd ps) (lo_sats o)) (sec t))).
      { unfold trajectory. eapply within_le; [apply circle_point_lip; lra|].
        rewrite !Rminus_diag_eq, !Rabs_R0, !Rplus_0_l by reflexivity.
        match goal with |- context [Rabs ?a + Rabs ?b] => replace a with (B2R (turn64 (fst ps) (lo_planes o)) - turn (fst ps) (lo_planes o)) by ring;
          replace b with (B2R (turn64 (snd ps) (lo_sats o)) - turn (snd ps) (lo_sats o)) by ring end.
        unfold Rdiv at 1. apply Rmult_le_compat_l; [lra|]. lra. }
      pose proof (within_trans _ _ _ _ _ W LP) as WW.
      pose proof (coord_le (reals P)) as (C1 & C2 & C3).
      assert (NP : norm (reals P) <= 1000 * h * (1 + / 10000000000)) by (apply Rabs_le_inv in SP; lra).
      assert (PR : within (1000 * h * (1 + / 10000000000) * (5 / 1000000)) (pt x y z) (reals P)).
      { change (px (reals P)) with (B2R (vx P)) in C1. change (py (reals P)) with (B2R (vy P)) in C2. change (pz (reals P)) with (B2R (vz P)) in C3.
        unfold within. cbn [px py pz pt vx vy vz]. change (px (reals P)) with (B2R (vx P)). change (py (reals P)) with (B2R (vy P)). change (pz (reals P)) with (B2R (vz P)).
        change (px (pt x y z)) with x. change (py (pt x y z)) with y. change (pz (pt x y z)) with z.
        split; [|split]; (eapply Rle_trans; [eassumption|]; apply Rmult_le_compat_r; lra). }
      eapply within_le; [eapply within_trans; [exact PR|exact WW]|].
      assert (0 <= h * n) by (apply Rmult_le_pos; lra). assert (h * 1 <= h * n) by (apply Rmult_le_compat_l; lra). lra.
    - apply Rabs_le_inv in SV. apply Rabs_le_inv in ES.
      assert (U9 : 9 * u <= / 10000000000000) by (unfold u; lra).
      assert (norm (reals Vel) * (9 * u) <= norm (reals Vel) * / 10000000000000) by (apply Rmult_le_compat_l; lra).
      rewrite (Rabs_pos_eq (B2R (vlen Vel))) in V2 by lra.
      apply Rabs_le_inv in V2. apply Rabs_le. lra.
  Qed.
  (** The position alone. *)
  Lemma position_64 : forall (o : leoorbit N64) ps t (n : R),
    is_finite (lo_alt o : b64) = true -> 0 <= B2R (lo_alt o) <= 1000000 ->
    is_finite (lo_inc o : b64) = true -> Rabs (B2R (lo_inc o)) <= 360 ->
    (0 < lo_planes o <= 65535)%Z -> (0 < lo_sats o <= 65535)%Z -> (0 <= fst ps < lo_planes o)%Z -> (0 <= snd ps < lo_sats o)%Z ->
    1 <= n <= 100000 -> Rabs (IZR t) <= n * 86400000000000 ->
    let h := earth_radius_km + B2R (lo_alt o) in
    let P := @CalcPosition N64 (sat_orbit (o, ps)) t t in
    finite_vec P /\ within (1000 * h * n * 2 / 1000000000000) (reals P)
        (trajectory h (B2R (lo_inc o) * PI / 180) (turn (fst ps) (lo_planes o)) (turn (snd ps) (lo_sats o)) (sec t)).
  Proof.
    intros o ps t n FA HA FI HI HP HS Hp Hs Hn HT h.
    destruct (turn64_near (fst ps) (lo_planes o) ltac:(lia) Hp) as (FL & EL & BL).
    destruct (turn64_near (snd ps) (lo_sats o) ltac:(lia) Hs) as (FO & EO & BO).
    destruct (calc_64 fsin fcos ftan ACC _ _ _ _ t n FA HA FI HI FL BL FO BO Hn HT) as (F & _ & W).
    fold h in W. assert (Hh : 6371 <= h <= 1006372) by (unfold h, earth_radius_km; lra).
    unfold sat_orbit. cbn [fst snd]. rewrite circ_vec_64. cbn [vx vy vz].
    assert (LP : within (1000 * h / 10000000000000) (trajectory h (B2R (lo_inc o) * PI / 180) (B2R (turn64 (fst ps) (lo_planes o))) (B2R (turn64 (snd ps) (lo_sats o))) (sec t))
        (trajectory h (B2R (lo_inc o) * PI / 180) (turn (fst ps) (lo_planes o)) (turn (snd ps) (lo_sats o)) (sec t))).
    { unfold trajectory. eapply within_le; [apply circle_point_lip; lra|].
      rewrite !Rminus_diag_eq, !Rabs_R0, !Rplus_0_l by reflexivity.
      match goal with |- context [Rabs ?a + Rabs ?b] => replace a with (B2R (turn64 (fst ps) (lo_planes o)) - turn (fst ps) (lo_planes o)) by ring;
        replace b with (B2R (turn64 (snd ps) (lo_sats o)) - turn (snd ps) (lo_sats o)) by ring end.
      unfold Rdiv at 1. apply Rmult_le_compat_l; [lra|]. lra. }
    split; [exact F|]. eapply within_le; [eapply within_trans; [exact W|exact LP]|].
    assert (0 <= h * n) by (apply Rmult_le_pos; lra). assert (h * 1 <= h * n) by (apply Rmult_le_compat_l; lra). lra.
  Qed.
End Line.
