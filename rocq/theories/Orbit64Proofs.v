(** Positions of satellites computed in doubles. *)
Require Import ZArith Reals Lra Lia Psatz.
From Flocq Require Import Core.Core IEEE754.BinarySingleNaN.
Require Import Verif.Num Verif.NumR Verif.Num64 Verif.Vec Verif.OrbitModel Verif.GeomSpec Verif.OrbitSpec Verif.OrbitProofs
  Verif.Alloc64Proofs Verif.Read64Proofs Verif.Float64Spec Verif.Float64Proofs.
Local Open Scope R_scope.

(** Rn and 1 * R are the same scale. *)
Lemma near_l : forall K x r e B, near (1 * K) x r e B -> near K x r e B.
Proof. intros K x r e B. rewrite Rmult_1_l. auto. Qed.
Lemma near_r : forall K x r e B, near (K * 1) x r e B -> near K x r e B.
Proof. intros K x r e B. rewrite Rmult_1_r. auto. Qed.
Lemma scale_l : forall K, scale K -> scale (1 * K).
Proof. intros K. rewrite Rmult_1_l. auto. Qed.
Lemma scale_r : forall K, scale K -> scale (K * 1).
Proof. intros K. rewrite Rmult_1_r. auto. Qed.

Ltac small := unfold u; lra.

Section Position.
  Variables fsin fcos ftan : b64 -> b64.
  Hypothesis ACC : accurate fsin fcos.
  Local Notation N64 := (Num64 fsin fcos ftan).

  Lemma mul1 : forall K x r a y s b c, near 1 x r (a * u) 1 -> near K y s (b * u) 1 -> scale K -> 0 <= a -> 0 <= b ->
    a + b + a * b * u + (1 + a * u) * (1 + b * u) <= c -> c <= 1000 -> near K (b64_mult x y) (r * s) (c * u) 1.
  Proof.
    intros K x r a y s b c N1 N2 SK Ha Hb H HC. apply near_l. apply (mulu 1 K x r a 1 y s b 1 c 1 N1 N2); try lra.
    - apply scale_pos, SK.
    - apply scale_l, SK.
  Qed.
  Lemma mul1r : forall K x r a y s b c, near K x r (a * u) 1 -> near 1 y s (b * u) 1 -> scale K -> 0 <= a -> 0 <= b ->
    a + b + a * b * u + (1 + a * u) * (1 + b * u) <= c -> c <= 1000 -> near K (b64_mult x y) (r * s) (c * u) 1.
  Proof.
    intros K x r a y s b c N1 N2 SK Ha Hb H HC. apply near_r. apply (mulu K 1 x r a 1 y s b 1 c 1 N1 N2); try lra.
    - apply scale_pos, SK.
    - apply scale_r, SK.
  Qed.

  Lemma near_finite : forall x : b64, is_finite x = true -> near 1 x (B2R x) (0 * u) (Rabs (B2R x)).
  Proof. intros x F. rewrite Rmult_0_l. apply near_self; [exact F|lra]. Qed.
  Lemma sin1 : forall x : b64, is_finite x = true -> near 1 (fsin x) (sin (B2R x)) (1 * u) 1.
  Proof.
    intros x F. eapply near_weak; [apply (near_sin fsin fcos ACC x _ _ _ (near_finite x F))|lra|reflexivity| |lra]. lra.
  Qed.
  Lemma cos1 : forall x : b64, is_finite x = true -> near 1 (fcos x) (cos (B2R x)) (1 * u) 1.
  Proof.
    intros x F. eapply near_weak; [apply (near_cos fsin fcos ACC x _ _ _ (near_finite x F))|lra|reflexivity| |lra]. lra.
  Qed.

  (** A difference of products, as in the cross product. *)
  Lemma cross1 : forall K a1 r1 a2 r2 b1 s1 b2 s2, near 1 a1 r1 (4 * u) 1 -> near 1 a2 r2 (4 * u) 1 ->
    near K b1 s1 (6 * u) 1 -> near K b2 s2 (6 * u) 1 -> scale K -> Rabs (r1 * s1 - r2 * s2) <= 1 ->
    near K (b64_minus (b64_mult a1 b1) (b64_mult a2 b2)) (r1 * s1 - r2 * s2) (27 * u) 1.
  Proof.
    intros K a1 r1 a2 r2 b1 s1 b2 s2 A1 A2 B1 B2 SK H.
    assert (P1 : near K (b64_mult a1 b1) (r1 * s1) (12 * u) 1) by (apply (mul1 K _ _ 4 _ _ 6 12 A1 B1 SK); small).
    assert (P2 : near K (b64_mult a2 b2) (r2 * s2) (12 * u) 1) by (apply (mul1 K _ _ 4 _ _ 6 12 A2 B2 SK); small).
    apply near_bound with (B := 2); [|exact H]. apply (subu K _ _ 12 1 _ _ 12 1 27 2 P1 P2 SK); small.
  Qed.
  Lemma cross2 : forall K a1 r1 a2 r2 b1 s1 b2 s2, near K a1 r1 (27 * u) 1 -> near K a2 r2 (27 * u) 1 ->
    near 1 b1 s1 (4 * u) 1 -> near 1 b2 s2 (4 * u) 1 -> scale K -> Rabs (r1 * s1 - r2 * s2) <= 1 ->
    near K (b64_minus (b64_mult a1 b1) (b64_mult a2 b2)) (r1 * s1 - r2 * s2) (69 * u) 1.
  Proof.
    intros K a1 r1 a2 r2 b1 s1 b2 s2 A1 A2 B1 B2 SK H.
    assert (P1 : near K (b64_mult a1 b1) (r1 * s1) (33 * u) 1) by (apply (mul1r K _ _ 27 _ _ 4 33 A1 B1 SK); small).
    assert (P2 : near K (b64_mult a2 b2) (r2 * s2) (33 * u) 1) by (apply (mul1r K _ _ 27 _ _ 4 33 A2 B2 SK); small).
    apply near_bound with (B := 2); [|exact H]. apply (subu K _ _ 33 1 _ _ 33 1 69 2 P1 P2 SK); small.
  Qed.
  Lemma dot1 : forall K a1 r1 a2 r2 a3 r3 b1 s1 b2 s2 b3 s3, near 1 a1 r1 (4 * u) 1 -> near 1 a2 r2 (4 * u) 1 -> near 1 a3 r3 (4 * u) 1 ->
    near K b1 s1 (6 * u) 1 -> near K b2 s2 (6 * u) 1 -> near K b3 s3 (6 * u) 1 -> scale K -> r1 * s1 + r2 * s2 + r3 * s3 = 0 ->
    near K (b64_plus (b64_plus (b64_mult a1 b1) (b64_mult a2 b2)) (b64_mult a3 b3)) 0 (43 * u) (/ 4).
  Proof.
    intros K a1 r1 a2 r2 a3 r3 b1 s1 b2 s2 b3 s3 A1 A2 A3 B1 B2 B3 SK H.
    assert (P1 : near K (b64_mult a1 b1) (r1 * s1) (12 * u) 1) by (apply (mul1 K _ _ 4 _ _ 6 12 A1 B1 SK); small).
    assert (P2 : near K (b64_mult a2 b2) (r2 * s2) (12 * u) 1) by (apply (mul1 K _ _ 4 _ _ 6 12 A2 B2 SK); small).
    assert (P3 : near K (b64_mult a3 b3) (r3 * s3) (12 * u) 1) by (apply (mul1 K _ _ 4 _ _ 6 12 A3 B3 SK); small).
    assert (Q : near K (b64_plus (b64_mult a1 b1) (b64_mult a2 b2)) (r1 * s1 + r2 * s2) (27 * u) 2)
      by (apply (addu K _ _ 12 1 _ _ 12 1 27 2 P1 P2 SK); small).
    rewrite <- H. apply near_bound with (B := 3); [|rewrite H, Rabs_R0; lra].
    apply (addu K _ _ 27 2 _ _ 12 1 43 3 Q P3 SK); small.
  Qed.
  (** A coordinate of the rotated vector. *)
  Lemma rotate1 : forall K d n p ca C q y sa S c z, near K d 0 (43 * u) (/ 4) -> near 1 n p (4 * u) 1 ->
    near 1 ca C (1 * u) 1 -> near K q y (69 * u) 1 -> near 1 sa S (1 * u) 1 -> near K c z (27 * u) 1 -> scale K ->
    near K (b64_plus (b64_plus (b64_mult d n) (b64_mult ca q)) (b64_mult sa c)) (C * y + S * z) (156 * u) 3.
  Proof.
    intros K d n p ca C q y sa S c z Hd Hn Hc Hq Hs Hz SK.
    assert (P1 : near K (b64_mult d n) (0 * p) (46 * u) (/ 4)).
    { apply near_r. apply (mulu K 1 d 0 43 (/ 4) n p 4 1 46 (/ 4) Hd Hn); try small; [apply scale_pos, SK|apply scale_r, SK]. }
    assert (P2 : near K (b64_mult ca q) (C * y) (72 * u) 1) by (apply (mul1 K _ _ 1 _ _ 69 72 Hc Hq SK); small).
    assert (P3 : near K (b64_mult sa c) (S * z) (30 * u) 1) by (apply (mul1 K _ _ 1 _ _ 27 30 Hs Hz SK); small).
    assert (Q : near K (b64_plus (b64_mult d n) (b64_mult ca q)) (0 * p + C * y) (120 * u) (5 / 4))
      by (apply (addu K _ _ 46 (/ 4) _ _ 72 1 120 (5 / 4) P1 P2 SK); small).
    replace (C * y + S * z) with (0 * p + C * y + S * z) by ring.
    apply (addu K _ _ 120 (5 / 4) _ _ 30 1 156 3 Q P3 SK); small.
  Qed.

  Lemma near_46 : forall K x r a b B, near K x r (a * u) B -> 0 < K -> a <= b -> near K x r (b * u) B.
  Proof. intros K x r a b B H HK L. eapply near_weak; [exact H|exact HK|reflexivity| |lra]. pose proof u_pos. nra. Qed.

  (** The position for the angles computed. *)
  Lemma position_64 : forall (o : orbit N64) now t, let K := B2R (b64_mult (o_height o) (b64_Z 1000)) in
    let lam := B2R (CalcLatitude o now) in let th := B2R (GetProgress o t) in
    is_finite (b64_mult (o_height o) (b64_Z 1000)) = true -> scale K ->
    is_finite (o_incl o) = true -> is_finite (CalcLatitude o now) = true -> is_finite (GetProgress o t) = true ->
    let P := CalcPosition o now t in let C := circle_point 1 (B2R (o_incl o)) lam th in
    near K (vx P) (px C) (156 * u) 3 /\ near K (vy P) (py C) (156 * u) 3 /\ near K (vz P) (pz C) (156 * u) 3.
  Proof.
    intros o now t K lam th FK SK FI FL FT P C.
    pose proof (scale_pos K SK) as HK.
    unfold P, CalcPosition, RotatePlane, PlaneNorm.
    set (lat := CalcLatitude o now) in *. set (a := GetProgress o t) in *. set (i := o_incl o) in *.
    cbn [vx vy vz vadd Product DotProduct CrossProduct nadd nsub nmul nsin ncos nopp nZ Num64].
    set (k := b64_mult (o_height o) (b64_Z 1000)) in *.
    assert (FO : is_finite (Bopp i) = true) by (rewrite is_finite_Bopp; exact FI).
    pose proof (sin1 _ FO) as S0. rewrite B2R_Bopp, sin_neg in S0.
    pose proof (sin1 _ FI) as Si. pose proof (cos1 _ FI) as Ci. pose proof (sin1 _ FL) as Sl. pose proof (cos1 _ FL) as Cl.
    pose proof (sin1 _ FT) as Sa. pose proof (cos1 _ FT) as Ca. fold lam in Sl, Cl. fold th in Sa, Ca.
    set (si := sin (B2R i)) in *. set (ci := cos (B2R i)) in *. set (sl := sin lam) in *. set (cl := cos lam) in *.
    assert (TI : si * si + ci * ci = 1) by (pose proof (sin2_cos2 (B2R i)); unfold Rsqr in *; exact H).
    assert (TL : sl * sl + cl * cl = 1) by (pose proof (sin2_cos2 lam); unfold Rsqr in *; exact H).
    assert (n1 : near 1 (b64_mult (fsin (Bopp i)) (fcos lat)) (- si * cl) (4 * u) 1) by (apply (mul1 1 _ _ 1 _ _ 1 4 S0 Cl scale_1); small).
    assert (n2 : near 1 (b64_mult (fsin (Bopp i)) (fsin lat)) (- si * sl) (4 * u) 1) by (apply (mul1 1 _ _ 1 _ _ 1 4 S0 Sl scale_1); small).
    assert (n3 : near 1 (fcos i) ci (4 * u) 1) by (eapply near_46; [exact Ci|lra|lra]).
    assert (w1 : near 1 (b64_mult (fcos i) (fcos lat)) (ci * cl) (4 * u) 1) by (apply (mul1 1 _ _ 1 _ _ 1 4 Ci Cl scale_1); small).
    assert (w2 : near 1 (b64_mult (fcos i) (fsin lat)) (ci * sl) (4 * u) 1) by (apply (mul1 1 _ _ 1 _ _ 1 4 Ci Sl scale_1); small).
    assert (w3 : near 1 (fsin i) si (4 * u) 1) by (eapply near_46; [exact Si|lra|lra]).
    assert (k1 : near K k 1 (0 * u) 1).
    { split; [exact FK|]. split; [|rewrite Rabs_R1; lra]. unfold K. replace (B2R k - B2R k * 1) with 0 by ring. rewrite Rabs_R0. lra. }
    assert (X : forall w s, near 1 w s (4 * u) 1 -> near K (b64_mult k w) s (6 * u) 1).
    { intros w s W. rewrite <- (Rmult_1_l s). apply (mul1r K _ _ 0 _ _ 4 6 k1 W SK); small. }
    pose proof (X _ _ w1) as x1. pose proof (X _ _ w2) as x2. pose proof (X _ _ w3) as x3. clear X w1 w2 w3 k1.
    set (nx := b64_mult (fsin (Bopp i)) (fcos lat)) in *. set (ny := b64_mult (fsin (Bopp i)) (fsin lat)) in *. set (nz := fcos i) in *.
    set (xx := b64_mult k (b64_mult nz (fcos lat))) in *. set (xy := b64_mult k (b64_mult nz (fsin lat))) in *. set (xz := b64_mult k (fsin i)) in *.
    assert (BL : Rabs sl <= 1 /\ Rabs cl <= 1 /\ Rabs si <= 1 /\ Rabs ci <= 1).
    { pose proof (SIN_bound lam). pose proof (COS_bound lam). pose proof (SIN_bound (B2R i)). pose proof (COS_bound (B2R i)).
      unfold sl, cl, si, ci. repeat split; apply Rabs_le; lra. }
    destruct BL as (Bsl & Bcl & Bsi & Bci).
    assert (PR : forall a b, Rabs a <= 1 -> Rabs b <= 1 -> Rabs (a * b) <= 1).
    { intros a' b' Ha Hb. rewrite Rabs_mult. pose proof (Rabs_pos a'). pose proof (Rabs_pos b'). nra. }
    pose proof (dot1 K nx _ ny _ nz _ xx _ xy _ xz _ n1 n2 n3 x1 x2 x3 SK ltac:(transitivity (- si * ci * (sl * sl + cl * cl) + ci * si); [ring|rewrite TL; ring])) as D.
    (* n x x = (- sin lam, cos lam, 0) *)
    assert (E1 : - si * sl * si - ci * (ci * sl) = - sl) by (transitivity (- sl * (si * si + ci * ci)); [ring|rewrite TI; ring]).
    assert (E2 : ci * (ci * cl) - - si * cl * si = cl) by (transitivity (cl * (si * si + ci * ci)); [ring|rewrite TI; ring]).
    assert (E3 : - si * cl * (ci * sl) - - si * sl * (ci * cl) = 0) by ring.
    pose proof (cross1 K ny _ nz _ xz _ xy _ n2 n3 x3 x2 SK ltac:(rewrite E1, Rabs_Ropp; assumption)) as c1. rewrite E1 in c1.
    pose proof (cross1 K nz _ nx _ xx _ xz _ n3 n1 x1 x3 SK ltac:(rewrite E2; assumption)) as c2. rewrite E2 in c2.
    pose proof (cross1 K nx _ ny _ xy _ xx _ n1 n2 x2 x1 SK ltac:(rewrite E3, Rabs_R0; lra)) as c3. rewrite E3 in c3.
    (* (n x x) x n = (cos i cos lam, cos i sin lam, sin i) *)
    assert (G1 : cl * ci - 0 * (- si * sl) = ci * cl) by ring.
    assert (G2 : 0 * (- si * cl) - - sl * ci = ci * sl) by ring.
    assert (G3 : - sl * (- si * sl) - cl * (- si * cl) = si) by (transitivity (si * (sl * sl + cl * cl)); [ring|rewrite TL; ring]).
    pose proof (cross2 K _ _ _ _ _ _ _ _ c2 c3 n3 n2 SK ltac:(rewrite G1; apply PR; assumption)) as q1. rewrite G1 in q1.
    pose proof (cross2 K _ _ _ _ _ _ _ _ c3 c1 n1 n3 SK ltac:(rewrite G2; apply PR; assumption)) as q2. rewrite G2 in q2.
    pose proof (cross2 K _ _ _ _ _ _ _ _ c1 c2 n2 n1 SK ltac:(rewrite G3; assumption)) as q3. rewrite G3 in q3.
    unfold C, circle_point. cbn [px py pz pt vx vy vz]. fold si ci sl cl.
    split; [|split].
    - replace (1 * (cos th * (ci * cl) - sin th * sl)) with (cos th * (ci * cl) + sin th * - sl) by ring.
      apply (rotate1 K _ _ _ _ _ _ _ _ _ _ _ D n1 Ca q1 Sa c1 SK).
    - replace (1 * (cos th * (ci * sl) + sin th * cl)) with (cos th * (ci * sl) + sin th * cl) by ring.
      apply (rotate1 K _ _ _ _ _ _ _ _ _ _ _ D n2 Ca q2 Sa c2 SK).
    - replace (1 * (cos th * si)) with (cos th * si + sin th * 0) by ring.
      apply (rotate1 K _ _ _ _ _ _ _ _ _ _ _ D n3 Ca q3 Sa c3 SK).
  Qed.

  (** ** The angles *)
  Lemma near_int : forall z T, Rabs (IZR z) <= T -> 1 <= T <= bpow radix2 63 -> near T (b64_Z z) (IZR z / T) (1 * u) 1.
  Proof.
    intros z T HZ [T1 T2].
    assert (ST : scale T).
    { split; [apply Rle_trans with 1; [change 1 with (bpow radix2 0); apply bpow_le; lia|exact T1]|].
      apply Rle_trans with (1 := T2). apply bpow_le. lia. }
    assert (HF : F2R (Float radix2 z 0) = IZR z) by (unfold F2R; cbn; lra).
    pose proof (binary_normalize_correct 53 1024 b64_prec_gt_0 b64_prec_lt_emax mode_NE z 0 false) as H.
    cbn [round_mode] in H. rewrite HF in H. fold (b64_Z z) in H.
    change (round radix2 (SpecFloat.fexp 53 1024) ZnearestE (IZR z)) with (round radix2 (FLT_exp (-1074) 53) ZnearestE (IZR z)) in H.
    rewrite Rlt_bool_true in H.
    2:{ apply (rnd_small _ T); [|exact HZ]. split.
        - apply Rle_trans with 1; [change 1 with (bpow radix2 0); apply bpow_le; lia|exact T1].
        - apply Rle_trans with (1 := T2). apply bpow_le. lia. }
    destruct H as (H1 & H2 & _).
    assert (E0 : Rabs (IZR z - T * (IZR z / T)) <= T * 0).
    { replace (IZR z - T * (IZR z / T)) with 0 by (field; lra). rewrite Rabs_R0. lra. }
    assert (B0 : Rabs (IZR z / T) <= 1).
    { unfold Rdiv. rewrite Rabs_mult, Rabs_inv, (Rabs_pos_eq T) by lra. apply Rmult_le_reg_r with T; [lra|]. rewrite Rmult_assoc, Rinv_l; lra. }
    eapply near_weak; [apply (near_rnd T (b64_Z z) (IZR z / T) 0 1 (IZR z) ST H2 H1 E0 B0)|lra|reflexivity| |lra];
      [lra|rewrite big100; lra|lra].
  Qed.
  Lemma near_unscale : forall K x r a B, near K x r (a * u) B -> 0 < K -> near 1 x (K * r) (K * a * u) (K * B).
  Proof.
    intros K x r a B (F & H & HB) HK. split; [exact F|]. split.
    - rewrite !Rmult_1_l, Rmult_assoc. exact H.
    - rewrite Rabs_mult, (Rabs_pos_eq K) by lra. apply Rmult_le_compat_l; lra.
  Qed.
  Lemma near_pi : near 1 b64_pi PI (1 * u) 4.
  Proof.
    pose proof PI_64 as H. destruct pi64_R as [_ F]. split; [exact F|]. rewrite !Rmult_1_l. split; [apply Rabs_le; lra|].
    pose proof PI_4. pose proof PI_RGT_0. rewrite Rabs_pos_eq; lra.
  Qed.
  Lemma near_exact : forall z, (0 < z <= 2 ^ 53)%Z -> near (IZR z) (b64_Z z) 1 (0 * u) 1.
  Proof.
    intros z H. destruct (Z_exact_64 z) as [E F]; [lia|]. split; [exact F|]. rewrite E. split.
    - replace (IZR z - IZR z * 1) with 0 by ring. rewrite Rabs_R0. lra.
    - rewrite Rabs_R1. lra.
  Qed.
  Lemma near_const : forall z c, (0 <= z <= 2 ^ 53)%Z -> IZR z = c -> near 1 (b64_Z z) c (0 * u) c.
  Proof.
    intros z c H <-. destruct (Z_exact_64 z) as [E F]; [lia|]. split; [exact F|]. rewrite E. split.
    - replace (IZR z - 1 * IZR z) with 0 by ring. rewrite Rabs_R0. lra.
    - rewrite Rabs_pos_eq; [lra|]. apply IZR_le. lia.
  Qed.
  (** Division by something of size 1 in its scale. *)
  Lemma divu : forall K L x r a B y s b c D, near K x r (a * u) B -> near L y s (b * u) 1 -> s = 1 -> 0 < K -> 0 < L -> scale (K / L) ->
    0 <= b <= 1000 -> / 1024 <= B -> (a + B * b) / (1 - b * u) + (B + (a + B * b) / (1 - b * u) * u) <= c -> c <= 100000000000000000000 -> B <= D ->
    near (K / L) (b64_div x y) r (c * u) D.
  Proof.
    intros K L x r a B y s b c D N1 N2 -> HK HL SK Hb LL H1 H2 H3. pose proof u_pos as U0.
    destruct (near_e _ _ _ _ _ HK N1) as [E1 F1]. assert (A0 : 0 <= a) by nra.
    assert (UB : b * u < 1) by (assert (b * u <= 1000 * u) by (apply Rmult_le_compat_r; lra); unfold u in *; lra).
    assert (Z : 0 <= (a + B * b) / (1 - b * u)).
    { apply Rmult_le_pos; [|apply Rlt_le, Rinv_0_lt_compat; lra]. pose proof (Rmult_le_pos B b F1 (proj1 Hb)). lra. }
    assert (EQ : (a * u + B / 1 * (b * u)) / (1 - b * u) = (a + B * b) / (1 - b * u) * u) by (field; lra).
    replace r with (r / 1) by field.
    eapply near_weak; [apply (near_div K L _ _ _ _ _ _ _ _ 1 N1 N2 HK HL SK); try lra|apply scale_pos; exact SK|reflexivity| |lra].
    - rewrite Rabs_R1. lra.
    - rewrite EQ, big100. assert ((a + B * b) / (1 - b * u) * u <= (a + B * b) / (1 - b * u) * 1) by (apply Rmult_le_compat_l; [exact Z|unfold u; lra]). lra.
    - rewrite EQ. replace ((a + B * b) / (1 - b * u) * u + u * (B / 1 + (a + B * b) / (1 - b * u) * u))
        with (((a + B * b) / (1 - b * u) + (B + (a + B * b) / (1 - b * u) * u)) * u) by (field; lra).
      apply Rmult_le_compat_r; lra.
  Qed.

  Lemma scale_of : forall K, bpow radix2 (-300) <= K -> K <= bpow radix2 300 -> scale K.
  Proof. intros. split; assumption. Qed.

  (** Longitude of the plane: T ns is a bound on the time, A one on the angle. *)
  Lemma latitude_64 : forall (o : orbit N64) now T A, is_finite (o_lon o) = true -> Rabs (B2R (o_lon o)) <= A -> 1 <= A <= 1000000 ->
    Rabs (IZR now) <= T -> 1 <= T <= bpow radix2 63 ->
    let D := T / 86400000000000 in
    near 1 (CalcLatitude o now) (B2R (o_lon o) + 2 * PI * (IZR now / 86400000000000)) ((A + 56 * D) * u) (A + 8 * D).
  Proof.
    intros o now T A FL HA A1 HT T1 D. pose proof u_pos as U0.
    assert (T63 : bpow radix2 63 = 9223372036854775808) by reflexivity. rewrite T63 in T1.
    assert (SD : scale D).
    { apply scale_of; unfold D.
      - apply Rle_trans with (bpow radix2 (-50)); [apply bpow_le; lia|]. change (bpow radix2 (-50)) with (/ 1125899906842624). lra.
      - apply Rle_trans with (bpow radix2 63); [|apply bpow_le; lia]. rewrite T63. lra. }
    pose proof (scale_pos D SD) as HD.
    pose proof (near_int now T HT ltac:(rewrite T63; lra)) as N1.
    pose proof (near_exact hours24 ltac:(unfold hours24; lia)) as N2. change (IZR hours24) with 86400000000000 in N2.
    assert (Q1 : near D (b64_div (b64_Z now) (b64_Z hours24)) (IZR now / T) (3 * u) 1).
    { apply (divu T 86400000000000 _ _ 1 1 _ 1 0 3 1 N1 N2 eq_refl); try small. fold D. exact SD. }
    pose proof (near_const 2 2 ltac:(lia) eq_refl) as N3.
    assert (Q2 : near D (b64_mult (b64_div (b64_Z now) (b64_Z hours24)) (b64_Z 2)) (IZR now / T * 2) (9 * u) 2).
    { apply near_r. apply (mulu D 1 _ _ 3 1 _ _ 0 2 9 2 Q1 N3); try small. apply scale_r, SD. }
    assert (Q3 : near D (b64_mult (b64_mult (b64_div (b64_Z now) (b64_Z hours24)) (b64_Z 2)) b64_pi) (IZR now / T * 2 * PI) (47 * u) 8).
    { apply near_r. apply (mulu D 1 _ _ 9 2 _ _ 1 4 47 8 Q2 near_pi); try small. apply scale_r, SD. }
    apply near_unscale in Q3; [|exact HD].
    assert (N0 : near 1 (o_lon o) (B2R (o_lon o)) (0 * u) A) by (rewrite Rmult_0_l; apply near_self; assumption).
    assert (DM : D <= 1000000) by (unfold D; lra).
    unfold CalcLatitude. cbn [nadd nmul ndiv nZ npi Num64].
    eapply near_weak; [apply (addu 1 _ _ 0 A _ _ (D * 47) (D * 8) (A + 56 * D) (A + 8 * D) N0 Q3 scale_1)|lra| | |lra].
    - lra.
    - assert (D * 47 * u <= D * 1) by (rewrite Rmult_assoc; apply Rmult_le_compat_l; unfold u; lra). lra.
    - lra.
    - lra.
    - unfold D. field. lra.
    - lra.
  Qed.

  (** ** Speed and progress *)
  Lemma near_gm : near 1 (LEO_EARTH_GM_KM_E10 N64) 39.8600436 (40 * u) 40.
  Proof.
    unfold LEO_EARTH_GM_KM_E10. cbn [ndec Num64]. unfold b64_dec. change (Z.pow_pos 10 7) with 10000000%Z.
    pose proof (near_const 398600436 398600436 ltac:(lia) eq_refl) as N1.
    pose proof (near_exact 10000000 ltac:(lia)) as N2.
    assert (S : scale (1 / 10000000)).
    { apply scale_of; [apply Rle_trans with (bpow radix2 (-30)); [apply bpow_le; lia|change (bpow radix2 (-30)) with (/ 1073741824); lra]|].
      apply Rle_trans with 1; [lra|change 1 with (bpow radix2 0); apply bpow_le; lia]. }
    pose proof (divu 1 10000000 _ _ 0 398600436 _ 1 0 398600436 398600436 N1 N2 eq_refl ltac:(lra) ltac:(lra) S ltac:(lra) ltac:(lra) ltac:(small) ltac:(lra) ltac:(lra)) as Q.
    pose proof (near_rescale _ (/ 10000000) _ _ _ _ Q ltac:(lra)) as Q'.
    replace (1 / 10000000 / / 10000000) with 1 in Q' by field.
    eapply near_weak; [exact Q'|lra|lra|small|lra].
  Qed.
  Lemma near_radius : near 1 (LEO_EARTH_RAD_KM N64) (6371009 / 1000) (6372 * u) 6372.
  Proof.
    unfold LEO_EARTH_RAD_KM. cbn [ndec Num64]. unfold b64_dec. change (Z.pow_pos 10 4) with 10000%Z.
    pose proof (near_const 63710090 63710090 ltac:(lia) eq_refl) as N1.
    pose proof (near_exact 10000 ltac:(lia)) as N2.
    assert (S : scale (1 / 10000)).
    { apply scale_of; [apply Rle_trans with (bpow radix2 (-30)); [apply bpow_le; lia|change (bpow radix2 (-30)) with (/ 1073741824); lra]|].
      apply Rle_trans with 1; [lra|change 1 with (bpow radix2 0); apply bpow_le; lia]. }
    pose proof (divu 1 10000 _ _ 0 63710090 _ 1 0 63710090 63710090 N1 N2 eq_refl ltac:(lra) ltac:(lra) S ltac:(lra) ltac:(lra) ltac:(small) ltac:(lra) ltac:(lra)) as Q.
    pose proof (near_rescale _ (/ 10000) _ _ _ _ Q ltac:(lra)) as Q'.
    replace (1 / 10000 / / 10000) with 1 in Q' by field.
    eapply near_weak; [exact Q'|lra|lra|small|lra].
  Qed.

  (** Half of M_PI is the last double below PI / 2. *)
  Lemma half_pi_64 : forall x : b64, is_finite x = true ->
    Bltb (b64_div b64_pi (b64_Z 2)) x = if Rlt_dec (PI / 2) (B2R x) then true else false.
  Proof.
    intros x F. set (h := b64_div b64_pi (b64_Z 2)).
    assert (E : B2SF h = SpecFloat.S754_finite false 7074237752028440 (-52)) by (vm_compute; reflexivity).
    assert (FH : is_finite h = true) by (vm_compute; reflexivity).
    assert (EV : B2R h = IZR 7074237752028440 * bpow radix2 (-52)).
    { rewrite <- SF2R_B2SF, E. unfold SF2R, F2R. cbn [Fnum Fexp cond_Zopp]. reflexivity. }
    assert (EH : B2R h = B2R b64_pi / 2).
    { rewrite EV. destruct pi64_R as [-> _]. change (bpow radix2 (-52)) with (/ 4503599627370496). change (bpow radix2 (-48)) with (/ 281474976710656). lra. }
    rewrite Bltb_correct by assumption. pose proof PI_64 as P.
    destruct (Rlt_dec (PI / 2) (B2R x)) as [L|L].
    - apply Rlt_bool_true. lra.
    - apply Rlt_bool_false. destruct (Rle_or_lt (B2R x) (B2R h)) as [G|G]; [exact G|exfalso].
      assert (S : succ radix2 (SpecFloat.fexp 53 1024) (B2R h) <= B2R x).
      { apply succ_le_lt; [apply fexp_valid|apply generic_format_B2R|apply generic_format_B2R|exact G]. }
      rewrite succ_eq_pos in S by (rewrite EH; destruct pi64_3; lra).
      assert (U : ulp radix2 (SpecFloat.fexp 53 1024) (B2R h) = u).
      { rewrite ulp_neq_0 by (rewrite EH; destruct pi64_3; lra). unfold cexp.
        assert (M : mag radix2 (B2R h) = 1%Z :> Z).
        { apply mag_unique. rewrite Rabs_pos_eq by (rewrite EH; destruct pi64_3; lra). rewrite EH.
          destruct pi64_3. change (bpow radix2 (1 - 1)) with 1. change (bpow radix2 1) with 2. lra. }
        rewrite M. reflexivity. }
      rewrite U, EH in S. unfold u in *. lra.
  Qed.

  Definition GM_rate : R := sqrt 39.8600436 * 100000.
  Lemma speed_64 : forall (o : orbit N64), is_finite (o_height o) = true -> 1 <= B2R (o_height o) <= 1000000000 ->
    near (1 / sqrt (B2R (o_height o))) (GetSpeed o) GM_rate (2700000 * u) 640000.
  Proof.
    intros o F H. set (h := B2R (o_height o)) in *.
    assert (NH : near h (o_height o) 1 (0 * u) 1).
    { split; [exact F|]. fold h. split; [|rewrite Rabs_R1; lra]. replace (h - h * 1) with 0 by ring. rewrite Rabs_R0. lra. }
    assert (HS : 1 <= sqrt h <= 31623).
    { split; [rewrite <- sqrt_1; apply sqrt_le_1_alt; lra|]. rewrite <- (sqrt_square 31623) by lra. apply sqrt_le_1_alt. lra. }
    assert (SH : forall k, 1 <= k <= 1000000000 -> scale (1 / k)).
    { intros k Hk. apply scale_of.
      - apply Rle_trans with (bpow radix2 (-30)); [apply bpow_le; lia|change (bpow radix2 (-30)) with (/ 1073741824)].
        unfold Rdiv. rewrite Rmult_1_l. apply Rinv_le_contravar; lra.
      - apply Rle_trans with 1; [|change 1 with (bpow radix2 0); apply bpow_le; lia].
        unfold Rdiv. rewrite Rmult_1_l, <- Rinv_1. apply Rinv_le_contravar; lra. }
    assert (Q1 : near (1 / h) (b64_div (LEO_EARTH_GM_KM_E10 N64) (o_height o)) 39.8600436 (81 * u) 40).
    { apply (divu 1 h _ _ 40 40 _ 1 0 81 40 near_gm NH eq_refl); try small. apply SH. lra. }
    assert (EK : 1 / h = 1 / sqrt h * (1 / sqrt h)).
    { rewrite <- (sqrt_sqrt h) at 1 by lra. field. lra. }
    rewrite EK in Q1.
    assert (Q2 : near (1 / sqrt h) (b64_sqrt (b64_div (LEO_EARTH_GM_KM_E10 N64) (o_height o))) (sqrt 39.8600436) (20 * u) 6.4).
    { eapply near_weak; [apply (near_sqrt (1 / sqrt h) _ _ _ _ 6.3 6.4 Q1); try small|apply scale_pos; apply SH; lra|reflexivity|small|lra].
      - apply SH. lra.
      - rewrite big100. small. }
    pose proof (near_const 100000 100000 ltac:(lia) eq_refl) as N3.
    unfold GetSpeed. cbn [nmul nsqrt ndiv nZ Num64]. unfold GM_rate. apply near_r.
    apply (mulu (1 / sqrt h) 1 _ _ 20 6.4 _ _ 0 100000 2700000 640000 Q2 N3); try small.
    - apply scale_pos, SH. lra.
    - apply scale_r, SH. lra.
  Qed.

  Definition sign_of (i : R) : R := if Rlt_dec (PI / 2) i then -1 else 1.
  Lemma progress_64 : forall (o : orbit N64) t T A, is_finite (o_height o) = true -> 1 <= B2R (o_height o) <= 1000000000 ->
    is_finite (o_incl o) = true -> is_finite (o_off o) = true -> Rabs (B2R (o_off o)) <= A -> 1 <= A <= 1000000 ->
    Rabs (IZR t) <= T -> 1 <= T <= bpow radix2 63 ->
    let W := T / 1000000000 / sqrt (B2R (o_height o)) in
    near 1 (GetProgress o t) (angular_rate (B2R (o_height o)) (B2R (o_incl o)) * sec t + B2R (o_off o)) ((A + 14 / 10 * W) * u) (A + 11 / 100 * W).
  Proof.
    intros o t T A FH HH FI FO HA A1 HT T1 W. pose proof u_pos as U0. pose proof (speed_64 o FH HH) as N1.
    set (h := B2R (o_height o)) in *.
    assert (HS : 1 <= sqrt h <= 31623).
    { split; [rewrite <- sqrt_1; apply sqrt_le_1_alt; lra|]. rewrite <- (sqrt_square 31623) by lra. apply sqrt_le_1_alt. lra. }
    assert (T63 : bpow radix2 63 = 9223372036854775808) by reflexivity.
    pose proof (near_int t T HT T1) as N2. rewrite T63 in T1.
    pose proof (near_exact 1000000000 ltac:(lia)) as N3.
    assert (IH : / 31623 <= / sqrt h <= 1).
    { split; [apply Rinv_le_contravar; lra|]. rewrite <- Rinv_1. apply Rinv_le_contravar; lra. }
    assert (SC : forall k, / 1000000000 * / 31623 * / 6371009 <= k -> k <= 9223372036854775808 -> scale k).
    { intros k K1 K2. apply scale_of.
      - apply Rle_trans with (bpow radix2 (-100)); [apply bpow_le; lia|change (bpow radix2 (-100)) with (/ 1267650600228229401496703205376); lra].
      - apply Rle_trans with (1 := K2). change 9223372036854775808 with (bpow radix2 63). apply bpow_le. lia. }
    assert (W0 : / 1000000000 * / 31623 <= W <= 9223372037).
    { unfold W, Rdiv. split.
      - apply Rmult_le_compat; try lra.
      - replace 9223372037 with (9223372037 * 1) by ring. apply Rmult_le_compat; lra. }
    assert (Q1 : near (T / 1000000000) (b64_div (b64_Z t) (b64_Z 1000000000)) (IZR t / T) (3 * u) 1).
    { apply (divu T 1000000000 _ _ 1 1 _ 1 0 3 1 N2 N3 eq_refl); try small. apply SC; lra. }
    assert (EW : 1 / sqrt h * (T / 1000000000) = W) by (unfold W; field; lra).
    assert (SW : scale W) by (apply SC; lra).
    assert (Q2 : near W (b64_mult (GetSpeed o) (b64_div (b64_Z t) (b64_Z 1000000000))) (GM_rate * (IZR t / T)) (5300000 * u) 640000).
    { rewrite <- EW. apply (mulu (1 / sqrt h) (T / 1000000000) _ _ 2700000 640000 _ _ 3 1 5300000 640000 N1 Q1); try small.
      rewrite EW. exact SW. }
    pose proof (near_const 1000 1000 ltac:(lia) eq_refl) as N4.
    assert (Q3 : near 6371009 (b64_mult (LEO_EARTH_RAD_KM N64) (b64_Z 1000)) 1 (21 / 10 * u) 1).
    { pose proof (mulu 1 1 _ _ 6372 6372 _ _ 0 1000 12800000 6372000 near_radius N4 ltac:(lra) ltac:(lra) (scale_r 1 scale_1) ltac:(lra) ltac:(small) ltac:(lra) ltac:(lra)) as Q.
      apply near_l in Q. pose proof (near_rescale _ (/ 6371009) _ _ _ _ Q ltac:(lra)) as Q'.
      replace (1 / / 6371009) with 6371009 in Q' by field.
      apply near_bound with (B := 2); [|rewrite Rabs_R1; lra].
      eapply near_weak; [exact Q'|lra|lra|small|lra]. }
    set (G := W / 6371009) in *. assert (SG : scale G) by (apply SC; unfold G; lra).
    assert (Q4 : near G (b64_div (b64_mult (GetSpeed o) (b64_div (b64_Z t) (b64_Z 1000000000))) (b64_mult (LEO_EARTH_RAD_KM N64) (b64_Z 1000)))
                   (GM_rate * (IZR t / T)) (7400000 * u) 640000).
    { unfold G. apply (divu W 6371009 _ _ 5300000 640000 _ 1 (21 / 10) 7400000 640000 Q2 Q3 eq_refl); try small. fold G. exact SG. }
    assert (N5 : near 1 (b64_Z (progress_sign o)) (sign_of (B2R (o_incl o))) (0 * u) 1).
    { unfold progress_sign, sign_of. cbn [nlt ndiv npi nZ Num64]. rewrite half_pi_64 by exact FI.
      destruct (Rlt_dec (PI / 2) (B2R (o_incl o))).
      - destruct (Z_exact_64 (-1)) as [E F]; [lia|]. split; [exact F|]. rewrite E. split; [|rewrite Rabs_left; lra].
        replace (-1 - 1 * -1) with 0 by ring. rewrite Rabs_R0. lra.
      - apply near_const; [lia|reflexivity]. }
    assert (Q5 : near G (b64_mult (b64_Z (progress_sign o)) (b64_div (b64_mult (GetSpeed o) (b64_div (b64_Z t) (b64_Z 1000000000))) (b64_mult (LEO_EARTH_RAD_KM N64) (b64_Z 1000))))
                   (sign_of (B2R (o_incl o)) * (GM_rate * (IZR t / T))) (8100000 * u) 640000).
    { apply near_l. apply (mulu 1 G _ _ 0 1 _ _ 7400000 640000 8100000 640000 N5 Q4); try small; [apply scale_pos, SG|apply scale_l, SG]. }
    apply near_unscale in Q5; [|apply scale_pos, SG].
    assert (N0 : near 1 (o_off o) (B2R (o_off o)) (0 * u) A) by (rewrite Rmult_0_l; apply near_self; assumption).
    unfold GetProgress, seconds. cbn [nadd nmul ndiv nZ Num64].
    assert (GW : G = W / 6371009) by reflexivity.
    eapply near_weak; [apply (addu 1 _ _ (G * 8100000) (G * 640000) _ _ 0 A (A + 14 / 10 * W) (A + 11 / 100 * W) Q5 N0 scale_1)|lra| |lra|lra]; try lra.
    - rewrite Rplus_0_r. assert (G * 8100000 * u <= G * 8100000 * / 1000000) by (apply Rmult_le_compat_l; [lra|unfold u; lra]). lra.
    - f_equal. unfold angular_rate, sec, circular_speed, GM_rate, sign_of, earth_radius_km. fold h.
      replace (sqrt (39.8600436 / h)) with (sqrt 39.8600436 / sqrt h) by (rewrite sqrt_div_alt by lra; reflexivity).
      unfold G, W. field. lra.
  Qed.

  (** ** The trajectory *)
  Lemma prod_lip : forall a b c d x y, Rabs (a - c) <= x -> Rabs (b - d) <= y -> Rabs b <= 1 -> Rabs c <= 1 -> Rabs (a * b - c * d) <= x + y.
  Proof.
    intros a b c d x y H1 H2 H3 H4. replace (a * b - c * d) with ((a - c) * b + c * (b - d)) by ring.
    eapply Rle_trans; [apply Rabs_triang|]. rewrite !Rabs_mult. pose proof (Rabs_pos (a - c)). pose proof (Rabs_pos (b - d)).
    pose proof (Rabs_pos b). pose proof (Rabs_pos c). nra.
  Qed.
  Lemma unit_abs : forall x, Rabs (sin x) <= 1 /\ Rabs (cos x) <= 1.
  Proof. intros x. pose proof (SIN_bound x). pose proof (COS_bound x). split; apply Rabs_le; lra. Qed.
  Lemma circle_lip : forall i l l' t t', let C := circle_point 1 i l t in let C' := circle_point 1 i l' t' in
    Rabs (px C - px C') <= 2 * (Rabs (l - l') + Rabs (t - t')) /\
    Rabs (py C - py C') <= 2 * (Rabs (l - l') + Rabs (t - t')) /\
    Rabs (pz C - pz C') <= 2 * (Rabs (l - l') + Rabs (t - t')).
  Proof.
    intros i l l' t t' C C'. unfold C, C', circle_point. cbn [px py pz pt vx vy vz].
    pose proof (sin_lip l l') as S1. pose proof (cos_lip l l') as S2. pose proof (sin_lip t t') as S3. pose proof (cos_lip t t') as S4.
    destruct (unit_abs l), (unit_abs l'), (unit_abs t), (unit_abs t'), (unit_abs i).
    assert (PR : forall a b, Rabs a <= 1 -> Rabs b <= 1 -> Rabs (a * b) <= 1).
    { intros a' b' Ha Hb. rewrite Rabs_mult. pose proof (Rabs_pos a'). pose proof (Rabs_pos b'). nra. }
    assert (I1 : Rabs (cos i * cos l - cos i * cos l') <= Rabs (l - l')).
    { eapply Rle_trans; [apply (prod_lip _ _ _ _ 0 (Rabs (l - l'))); auto; rewrite Rminus_diag_eq, Rabs_R0 by reflexivity; lra|lra]. }
    assert (I2 : Rabs (cos i * sin l - cos i * sin l') <= Rabs (l - l')).
    { eapply Rle_trans; [apply (prod_lip _ _ _ _ 0 (Rabs (l - l'))); auto; rewrite Rminus_diag_eq, Rabs_R0 by reflexivity; lra|lra]. }
    pose proof (prod_lip (cos t) (cos i * cos l) (cos t') (cos i * cos l') _ _ S4 I1 ltac:(auto) ltac:(auto)) as P1.
    pose proof (prod_lip (sin t) (sin l) (sin t') (sin l') _ _ S3 S1 ltac:(auto) ltac:(auto)) as P2.
    pose proof (prod_lip (cos t) (cos i * sin l) (cos t') (cos i * sin l') _ _ S4 I2 ltac:(auto) ltac:(auto)) as P3.
    pose proof (prod_lip (sin t) (cos l) (sin t') (cos l') _ _ S3 S2 ltac:(auto) ltac:(auto)) as P4.
    pose proof (prod_lip (cos t) (sin i) (cos t') (sin i) _ 0 S4 ltac:(rewrite Rminus_diag_eq, Rabs_R0 by reflexivity; lra) ltac:(auto) ltac:(auto)) as P5.
    pose proof (Rabs_pos (l - l')). pose proof (Rabs_pos (t - t')).
    split; [|split].
    - replace (1 * (cos t * (cos i * cos l) - sin t * sin l) - 1 * (cos t' * (cos i * cos l') - sin t' * sin l'))
        with ((cos t * (cos i * cos l) - cos t' * (cos i * cos l')) + - (sin t * sin l - sin t' * sin l')) by ring.
      eapply Rle_trans; [apply Rabs_triang|]. rewrite Rabs_Ropp. lra.
    - replace (1 * (cos t * (cos i * sin l) + sin t * cos l) - 1 * (cos t' * (cos i * sin l') + sin t' * cos l'))
        with ((cos t * (cos i * sin l) - cos t' * (cos i * sin l')) + (sin t * cos l - sin t' * cos l')) by ring.
      eapply Rle_trans; [apply Rabs_triang|]. lra.
    - replace (1 * (cos t * sin i) - 1 * (cos t' * sin i)) with (cos t * sin i - cos t' * sin i) by ring. lra.
  Qed.

  (** A satellite's position against its exact trajectory. T bounds the time in
      nanoseconds, A the start longitude and angle. *)
  Lemma orbit_64 : forall (o : orbit N64) t T A,
    is_finite (o_height o) = true -> 1 <= B2R (o_height o) <= 1000000000 ->
    is_finite (o_incl o) = true -> is_finite (o_lon o) = true -> is_finite (o_off o) = true ->
    Rabs (B2R (o_lon o)) <= A -> Rabs (B2R (o_off o)) <= A -> 1 <= A <= 1000000 ->
    Rabs (IZR t) <= T -> 1 <= T <= bpow radix2 63 ->
    let h := B2R (o_height o) in
    let P := CalcPosition o t t in
    is_finite (vx P) = true /\ is_finite (vy P) = true /\ is_finite (vz P) = true /\
    (exists lam th, let C := circle_point (1000 * h) (B2R (o_incl o)) lam th in
       Rabs (B2R (vx P) - px C) <= 1000 * h * (160 * u) /\ Rabs (B2R (vy P) - py C) <= 1000 * h * (160 * u) /\
       Rabs (B2R (vz P) - pz C) <= 1000 * h * (160 * u)) /\
    let C := trajectory h (B2R (o_incl o)) (B2R (o_lon o)) (B2R (o_off o)) (sec t) in
    let E := 1000 * h * ((160 + 4 * A + 112 * (T / 86400000000000) + 28 / 10 * (T / 1000000000 / sqrt h)) * u) in
    Rabs (B2R (vx P) - px C) <= E /\ Rabs (B2R (vy P) - py C) <= E /\ Rabs (B2R (vz P) - pz C) <= E.
  Proof.
    intros o t T A FH HH FI FL FO HL HO A1 HT T1 h P. pose proof u_pos as U0.
    destruct (latitude_64 o t T A FL HL A1 HT T1) as (F1 & L1 & _).
    destruct (progress_64 o t T A FH HH FI FO HO A1 HT T1) as (F2 & L2 & _). cbv zeta in L2. fold h in HH, L2.
    assert (S1000 : forall k, 1 <= k <= 2000000000000 -> scale k).
    { intros k Hk. apply scale_of; [apply Rle_trans with 1; [change 1 with (bpow radix2 0); apply bpow_le; lia|lra]|].
      apply Rle_trans with (bpow radix2 63); [change (bpow radix2 63) with 9223372036854775808; lra|apply bpow_le; lia]. }
    assert (NH : near h (o_height o) 1 (0 * u) 1).
    { split; [exact FH|]. fold h. split; [|rewrite Rabs_R1; lra]. replace (h - h * 1) with 0 by ring. rewrite Rabs_R0. lra. }
    pose proof (near_exact 1000 ltac:(lia)) as NT.
    assert (NK : near (1000 * h) (b64_mult (o_height o) (b64_Z 1000)) 1 (1 * u) 1).
    { replace (1000 * h) with (h * 1000) by ring. replace 1 with (1 * 1) at 1 by ring.
      apply (mulu h 1000 _ _ 0 1 _ _ 0 1 1 1 NH NT); try small. apply S1000. lra. }
    destruct NK as (FK & EK & _). set (K := B2R (b64_mult (o_height o) (b64_Z 1000))) in *.
    rewrite Rmult_1_r in EK. apply Rabs_le_inv in EK.
    assert (HU : 1000 * h * (1 * u) <= / 1000 * h) by (unfold u; lra).
    assert (SK : scale K) by (apply S1000; lra).
    pose proof (position_64 o t t FK SK FI F1 F2) as (P1 & P2 & P3). fold K P in P1, P2, P3.
    set (lam := B2R (CalcLatitude o t)) in *. set (th := B2R (GetProgress o t)) in *.
    set (i := B2R (o_incl o)) in *.
    assert (UN : forall a, px (circle_point a i lam th) = a * px (circle_point 1 i lam th) /\
      py (circle_point a i lam th) = a * py (circle_point 1 i lam th) /\ pz (circle_point a i lam th) = a * pz (circle_point 1 i lam th)).
    { intros a. unfold circle_point, px, py, pz, pt; cbn [vx vy vz]. repeat split; ring. }
    set (C1 := circle_point 1 i lam th) in *.
    assert (N1 : norm C1 = 1) by (unfold C1; rewrite circle_norm; lra).
    assert (S1 : px C1 * px C1 + py C1 * py C1 + pz C1 * pz C1 = 1).
    { unfold norm in N1. fold (inner C1 C1). rewrite <- (sqrt_sqrt (inner C1 C1)).
      - rewrite N1. ring.
      - unfold inner. nra. }
    assert (ST : forall (x : b64) c, c * c <= 1 -> near K x c (156 * u) 3 -> Rabs (B2R x - 1000 * h * c) <= 1000 * h * (160 * u)).
    { intros x c Hc (_ & E & _). assert (Rabs c <= 1) by (apply Rabs_le; nra).
      replace (B2R x - 1000 * h * c) with ((B2R x - K * c) + (K - 1000 * h) * c) by ring.
      eapply Rle_trans; [apply Rabs_triang|]. rewrite Rabs_mult.
      assert (Rabs (K - 1000 * h) <= 1000 * h * (1 * u)) by (apply Rabs_le; lra).
      assert (Rabs (K - 1000 * h) * Rabs c <= 1000 * h * (1 * u) * 1) by (apply Rmult_le_compat; auto using Rabs_pos).
      assert (K * (156 * u) <= 1001 * h * (156 * u)) by (apply Rmult_le_compat_r; lra).
      assert (1001 * h * (156 * u) <= 1000 * h * (157 * u)) by (unfold u; lra).
      lra. }
    assert (Z1 : Rabs (B2R (vx P) - 1000 * h * px C1) <= 1000 * h * (160 * u)) by (apply ST; [nra|exact P1]).
    assert (Z2 : Rabs (B2R (vy P) - 1000 * h * py C1) <= 1000 * h * (160 * u)) by (apply ST; [nra|exact P2]).
    assert (Z3 : Rabs (B2R (vz P) - 1000 * h * pz C1) <= 1000 * h * (160 * u)) by (apply ST; [nra|exact P3]).
    split; [apply P1|]. split; [apply P2|]. split; [apply P3|]. split.
    { exists lam, th. cbv zeta. destruct (UN (1000 * h)) as (-> & -> & ->). auto. }
    cbv zeta. set (D := T / 86400000000000) in *. set (W := T / 1000000000 / sqrt h) in *.
    unfold trajectory. set (lam' := B2R (o_lon o) + earth_rate * sec t). set (th' := angular_rate h i * sec t + B2R (o_off o)).
    assert (DL : Rabs (lam - lam') <= (A + 56 * D) * u).
    { rewrite !Rmult_1_l in L1. replace lam' with (B2R (o_lon o) + 2 * PI * (IZR t / 86400000000000)); [exact L1|].
      unfold lam', earth_rate, sec. field. }
    assert (DT : Rabs (th - th') <= (A + 14 / 10 * W) * u) by (rewrite !Rmult_1_l in L2; exact L2).
    destruct (circle_lip i lam lam' th th') as (G1 & G2 & G3). fold C1 in G1, G2, G3.
    set (C2 := circle_point 1 i lam' th') in *.
    assert (UN2 : px (circle_point (1000 * h) i lam' th') = 1000 * h * px C2 /\
      py (circle_point (1000 * h) i lam' th') = 1000 * h * py C2 /\ pz (circle_point (1000 * h) i lam' th') = 1000 * h * pz C2).
    { unfold C2, circle_point, px, py, pz, pt; cbn [vx vy vz]. repeat split; ring. }
    destruct UN2 as (-> & -> & ->).
    assert (FIN : forall x a b, Rabs (x - 1000 * h * a) <= 1000 * h * (160 * u) -> Rabs (a - b) <= 2 * (Rabs (lam - lam') + Rabs (th - th')) ->
      Rabs (x - 1000 * h * b) <= 1000 * h * ((160 + 4 * A + 112 * D + 28 / 10 * W) * u)).
    { intros x a b H1 H2. replace (x - 1000 * h * b) with ((x - 1000 * h * a) + 1000 * h * (a - b)) by ring.
      eapply Rle_trans; [apply Rabs_triang|]. rewrite (Rabs_mult (1000 * h)), (Rabs_pos_eq (1000 * h)) by lra.
      assert (Rabs (a - b) <= (4 * A + 112 * D + 28 / 10 * W) * u) by lra.
      assert (1000 * h * Rabs (a - b) <= 1000 * h * ((4 * A + 112 * D + 28 / 10 * W) * u)) by (apply Rmult_le_compat_l; lra).
      lra. }
    split; [exact (FIN _ _ _ Z1 G1)|]. split; [exact (FIN _ _ _ Z2 G2)|exact (FIN _ _ _ Z3 G3)].
  Qed.

  (** ** The velocity *)
  Lemma unit_coords : forall a b c, a * a + b * b + c * c = 1 -> Rabs a <= 1 /\ Rabs b <= 1 /\ Rabs c <= 1.
  Proof. intros a b c H. repeat split; apply Rabs_le; nra. Qed.
  Lemma circle_unit : forall i lam th, let C := circle_point 1 i lam th in px C * px C + py C * py C + pz C * pz C = 1.
  Proof.
    intros i lam th C. assert (N1 : norm C = 1) by (unfold C; rewrite circle_norm; lra).
    unfold norm in N1. fold (inner C C). rewrite <- (sqrt_sqrt (inner C C)); [rewrite N1; ring|].
    unfold inner. nra.
  Qed.

  Lemma cross3 : forall a1 r1 a2 r2 b1 s1 b2 s2, near 1 a1 r1 (4 * u) 1 -> near 1 a2 r2 (4 * u) 1 ->
    near 1 b1 s1 (1110 * u) 1 -> near 1 b2 s2 (1110 * u) 1 -> Rabs (r1 * s1 - r2 * s2) <= 1 ->
    near 1 (b64_minus (b64_mult a1 b1) (b64_mult a2 b2)) (r1 * s1 - r2 * s2) (2236 * u) 1.
  Proof.
    intros a1 r1 a2 r2 b1 s1 b2 s2 A1 A2 B1 B2 H. pose proof scale_1 as SK.
    assert (P1 : near 1 (b64_mult a1 b1) (r1 * s1) (1116 * u) 1).
    { apply near_l. apply (mulu 1 1 a1 r1 4 1 b1 s1 1110 1 1116 1 A1 B1); try small. apply scale_l, SK. }
    assert (P2 : near 1 (b64_mult a2 b2) (r2 * s2) (1116 * u) 1).
    { apply near_l. apply (mulu 1 1 a2 r2 4 1 b2 s2 1110 1 1116 1 A2 B2); try small. apply scale_l, SK. }
    apply near_bound with (B := 2); [|exact H]. apply (subu 1 _ _ 1116 1 _ _ 1116 1 2236 2 P1 P2 SK); small.
  Qed.

  Lemma velocity_64 : forall (o : orbit N64) now th K (P : vec N64), is_finite (o_height o) = true -> 1 <= B2R (o_height o) <= 1000000000 ->
    is_finite (o_incl o) = true -> is_finite (CalcLatitude o now) = true -> / 1000000 <= K <= 2000000000000 ->
    let i := B2R (o_incl o) in let lam := B2R (CalcLatitude o now) in let C := circle_point 1 i lam th in
    near K (vx P) (px C) (156 * u) 3 -> near K (vy P) (py C) (156 * u) 3 -> near K (vz P) (pz C) (156 * u) 3 ->
    let V := VelocityAt o now P in let H := circle_point 1 i lam (th + PI / 2) in let S := 1 / sqrt (B2R (o_height o)) in
    near S (vx V) (GM_rate * px H) (1450000000 * u) 640000 /\ near S (vy V) (GM_rate * py H) (1450000000 * u) 640000 /\
    near S (vz V) (GM_rate * pz H) (1450000000 * u) 640000.
  Proof.
    intros o now th K P FH HH FI FL HK i lam C N1 N2 N3 V H S. pose proof u_pos as U0.
    pose proof (speed_64 o FH HH) as NS. fold S in NS.
    assert (SC : forall k, / 1000000 * / 1000000 <= k <= 2000000000000 * 2000000000000 -> scale k).
    { intros k Hk. apply scale_of.
      - apply Rle_trans with (bpow radix2 (-50)); [apply bpow_le; lia|change (bpow radix2 (-50)) with (/ 1125899906842624); lra].
      - apply Rle_trans with (bpow radix2 100); [rewrite big100; lra|apply bpow_le; lia]. }
    assert (KK : / 1000000 * / 1000000 <= K * K <= 2000000000000 * 2000000000000) by (split; apply Rmult_le_compat; lra).
    pose proof (SC _ KK) as SKK. assert (SK : scale K) by (apply SC; lra).
    pose proof (circle_unit i lam th) as CU. cbv zeta in CU. fold C in CU. destruct (unit_coords _ _ _ CU) as (b1 & b2 & b3).
    apply near_bound with (B' := 1) in N1, N2, N3; try assumption.
    set (x := vx P) in *. set (y := vy P) in *. set (z := vz P) in *. set (cx := px C) in *. set (cy := py C) in *. set (cz := pz C) in *.
    assert (M1 : near (K * K) (b64_mult x x) (cx * cx) (314 * u) 1) by (apply (mulu K K _ _ 156 1 _ _ 156 1 314 1 N1 N1); try small; assumption).
    assert (M2 : near (K * K) (b64_mult y y) (cy * cy) (314 * u) 1) by (apply (mulu K K _ _ 156 1 _ _ 156 1 314 1 N2 N2); try small; assumption).
    assert (M3 : near (K * K) (b64_mult z z) (cz * cz) (314 * u) 1) by (apply (mulu K K _ _ 156 1 _ _ 156 1 314 1 N3 N3); try small; assumption).
    assert (A1 : near (K * K) (b64_plus (b64_mult x x) (b64_mult y y)) (cx * cx + cy * cy) (631 * u) 1).
    { apply near_bound with (B := 2); [apply (addu (K * K) _ _ 314 1 _ _ 314 1 631 2 M1 M2 SKK); small|apply Rabs_le; nra]. }
    assert (A2 : near (K * K) (b64_plus (b64_plus (b64_mult x x) (b64_mult y y)) (b64_mult z z)) 1 (948 * u) 1).
    { rewrite <- CU. apply near_bound with (B := 2); [|rewrite CU, Rabs_R1; lra].
      apply (addu (K * K) _ _ 631 1 _ _ 314 1 948 2 A1 M3 SKK); small. }
    assert (L : near K (vlen P) 1 (950 * u) 1).
    { pose proof (near_sqrt K _ _ _ _ 1 1 A2 SK ltac:(lra) ltac:(lra) ltac:(small) ltac:(lra) ltac:(lra) ltac:(lra) ltac:(rewrite big100; small)) as Q.
      rewrite sqrt_1 in Q. eapply near_weak; [exact Q|lra|reflexivity|small|lra]. }
    assert (EQ : K / K = 1) by (field; lra).
    assert (DV : forall a r, near K a r (156 * u) 1 -> near 1 (b64_div a (vlen P)) r (1110 * u) 1).
    { intros a r HA. rewrite <- EQ at 1. apply (divu K K a r 156 1 (vlen P) 1 950 1110 1 HA L eq_refl); try small. rewrite EQ. apply scale_1. }
    pose proof (DV _ _ N1) as D1. pose proof (DV _ _ N2) as D2. pose proof (DV _ _ N3) as D3.
    unfold V, VelocityAt, PlaneNorm. set (lat := CalcLatitude o now) in *.
    cbn [vx vy vz Product CrossProduct nadd nsub nmul ndiv nsin ncos nopp nZ Num64].
    change (@vx N64 P) with x. change (@vy N64 P) with y. change (@vz N64 P) with z.
    assert (FO : is_finite (Bopp (o_incl o)) = true) by (rewrite is_finite_Bopp; exact FI).
    pose proof (sin1 _ FO) as S0. rewrite B2R_Bopp, sin_neg in S0.
    pose proof (cos1 _ FI) as Ci. pose proof (sin1 _ FL) as Sl. pose proof (cos1 _ FL) as Cl. fold lam i in S0, Ci, Sl, Cl.
    set (n1 := - sin i * cos lam) in *. set (n2 := - sin i * sin lam) in *. set (n3 := cos i) in *.
    assert (m1 : near 1 (b64_mult (fsin (Bopp (o_incl o))) (fcos lat)) n1 (4 * u) 1) by (apply (mul1 1 _ _ 1 _ _ 1 4 S0 Cl scale_1); small).
    assert (m2 : near 1 (b64_mult (fsin (Bopp (o_incl o))) (fsin lat)) n2 (4 * u) 1) by (apply (mul1 1 _ _ 1 _ _ 1 4 S0 Sl scale_1); small).
    assert (m3 : near 1 (fcos (o_incl o)) n3 (4 * u) 1) by (eapply near_46; [exact Ci|lra|lra]).
    (* n x C is the point a quarter turn ahead *)
    assert (TI : sin i * sin i + cos i * cos i = 1) by (pose proof (sin2_cos2 i) as Q; unfold Rsqr in Q; exact Q).
    assert (TL : sin lam * sin lam + cos lam * cos lam = 1) by (pose proof (sin2_cos2 lam) as Q; unfold Rsqr in Q; exact Q).
    assert (QC : cos (th + PI / 2) = - sin th) by (rewrite cos_plus, cos_PI2, sin_PI2; ring).
    assert (QS : sin (th + PI / 2) = cos th) by (rewrite sin_plus, cos_PI2, sin_PI2; ring).
    assert (hx : px H = n2 * cz - n3 * cy /\ py H = n3 * cx - n1 * cz /\ pz H = n1 * cy - n2 * cx).
    { unfold H, cx, cy, cz, C, circle_point, n1, n2, n3. cbn [px py pz pt vx vy vz]. rewrite QC, QS.
      set (si := sin i) in *. set (ci := cos i) in *. set (sl := sin lam) in *. set (cl := cos lam) in *. set (st := sin th). set (ct := cos th).
      repeat split.
      - transitivity (- st * (ci * cl) - ct * sl * (si * si + ci * ci)); [rewrite TI; ring|ring].
      - transitivity (- st * (ci * sl) + ct * cl * (si * si + ci * ci)); [rewrite TI; ring|ring].
      - transitivity (- st * si * (sl * sl + cl * cl)); [rewrite TL; ring|ring]. }
    pose proof (circle_unit i lam (th + PI / 2)) as HU. cbv zeta in HU. fold H in HU.
    destruct (unit_coords _ _ _ HU) as (h1 & h2 & h3). destruct hx as (E1 & E2 & E3). rewrite E1 in h1. rewrite E2 in h2. rewrite E3 in h3.
    pose proof (cross3 _ _ _ _ _ _ _ _ m2 m3 D3 D2 h1) as c1.
    pose proof (cross3 _ _ _ _ _ _ _ _ m3 m1 D1 D3 h2) as c2.
    pose proof (cross3 _ _ _ _ _ _ _ _ m1 m2 D2 D1 h3) as c3.
    rewrite <- E1 in c1. rewrite <- E2 in c2. rewrite <- E3 in c3.
    assert (HS : 1 <= sqrt (B2R (o_height o)) <= 31623).
    { split; [rewrite <- sqrt_1; apply sqrt_le_1_alt; lra|]. rewrite <- (sqrt_square 31623) by lra. apply sqrt_le_1_alt. lra. }
    assert (HSS : / 31623 <= S <= 1).
    { unfold S, Rdiv. rewrite Rmult_1_l. split; [apply Rinv_le_contravar; lra|]. rewrite <- Rinv_1. apply Rinv_le_contravar; lra. }
    assert (SS : scale S) by (apply SC; lra).
    assert (FIN : forall a r, near 1 a r (2236 * u) 1 -> near S (b64_mult (GetSpeed o) a) (GM_rate * r) (1450000000 * u) 640000).
    { intros a r HA. apply near_r. apply (mulu S 1 _ _ 2700000 640000 _ _ 2236 1 1450000000 640000 NS HA); try small. apply scale_r, SS. }
    split; [apply FIN, c1|]. split; [apply FIN, c2|apply FIN, c3].
  Qed.
End Position.
