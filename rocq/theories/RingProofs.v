(** Satellites of one orbital plane, seen from each other and from the ground. *)
Require Import ZArith Reals Lra Lia List Bool.
Require Import Verif.Base Verif.Num Verif.NumR Verif.Vec Verif.GeomSpec Verif.OrbitSpec Verif.AllocModel Verif.AllocSpec Verif.ConstellationSpec
  Verif.FrameModel Verif.NetModel Verif.LossSpec Verif.NetSpec Verif.RelaySpec Verif.RingSpec Verif.LossProofs Verif.LeoLossProofs Verif.OrbitProofs Verif.TracingProofs Verif.ConstellationProofs.
Import ListNotations.
Local Open Scope R_scope.

Lemma circle_inner : forall r i lam a b, inner (circle_point r i lam a) (circle_point r i lam b) = r * r * cos (a - b).
Proof.
  intros r i lam a b. rewrite cos_minus. unfold inner, circle_point, pt, px, py, pz. cbn [vx vy vz]. change (num NumR) with R.
  pose proof (sc1 lam) as L. pose proof (sc1 i) as I.
  transitivity (r * r * (cos a * cos b * (cos i * cos i * (sin lam * sin lam + cos lam * cos lam) + sin i * sin i) + sin a * sin b * (sin lam * sin lam + cos lam * cos lam))); [ring|].
  rewrite L. replace (cos i * cos i * 1 + sin i * sin i) with (sin i * sin i + cos i * cos i) by ring. rewrite I. ring.
Qed.
Lemma half_cos : forall x, cos x = 1 - 2 * (sin (x / 2) * sin (x / 2)) /\ cos x = 2 * (cos (x / 2) * cos (x / 2)) - 1.
Proof.
  intros x. pose proof (sc1 (x / 2)) as H. assert (E : cos x = cos (x / 2) * cos (x / 2) - sin (x / 2) * sin (x / 2)) by (rewrite <- cos_2a; f_equal; field). split; lra.
Qed.
Lemma circle_distance : forall r i lam a b, 0 <= r -> distance (circle_point r i lam a) (circle_point r i lam b) = 2 * r * Rabs (sin ((a - b) / 2)).
Proof.
  intros r i lam a b Hr. set (P := circle_point r i lam a). set (Q := circle_point r i lam b).
  assert (E : inner (minus Q P) (minus Q P) = (2 * r * sin ((a - b) / 2)) * (2 * r * sin ((a - b) / 2))).
  { transitivity (inner Q Q + inner P P - 2 * inner P Q); [unfold inner, minus, pt, px, py, pz; cbn [vx vy vz]; change (num NumR) with R; ring|].
    unfold P, Q. rewrite !circle_inner. replace (a - a) with 0 by ring. replace (b - b) with 0 by ring. rewrite cos_0, (proj1 (half_cos (a - b))). ring. }
  unfold distance, norm. rewrite E. fold (Rsqr (2 * r * sin ((a - b) / 2))). rewrite sqrt_Rsqr_abs, !Rabs_mult, (Rabs_pos_eq 2), (Rabs_pos_eq r) by lra. reflexivity.
Qed.
Lemma circle_segment : forall r i lam a b t,
  inner (on_segment (circle_point r i lam a) (circle_point r i lam b) t) (on_segment (circle_point r i lam a) (circle_point r i lam b) t) =
  r * r * (1 - 4 * (t * (1 - t)) * (sin ((a - b) / 2) * sin ((a - b) / 2))).
Proof.
  intros r i lam a b t. set (P := circle_point r i lam a). set (Q := circle_point r i lam b).
  transitivity ((1 - t) * (1 - t) * inner P P + t * t * inner Q Q + 2 * (t * (1 - t)) * inner P Q).
  { unfold on_segment, plus, scale, minus, inner, pt, px, py, pz. cbn [vx vy vz]. change (num NumR) with R. ring. }
  unfold P, Q. rewrite !circle_inner. replace (a - a) with 0 by ring. replace (b - b) with 0 by ring. rewrite cos_0, (proj1 (half_cos (a - b))). ring.
Qed.
Lemma circle_sight : forall R0 r i lam a b, 0 <= R0 -> 0 <= r ->
  (unobstructed R0 (circle_point r i lam a) (circle_point r i lam b) <-> R0 < r * Rabs (cos ((a - b) / 2))).
Proof.
  intros R0 r i lam a b HR Hr. set (x := (a - b) / 2). pose proof (sc1 x) as S.
  assert (M : R0 < r * Rabs (cos x) <-> R0 * R0 < r * r * (cos x * cos x)).
  { replace (r * r * (cos x * cos x)) with ((r * Rabs (cos x)) * (r * Rabs (cos x))).
    2:{ replace ((r * Rabs (cos x)) * (r * Rabs (cos x))) with (r * r * Rsqr (Rabs (cos x))) by (unfold Rsqr; ring). rewrite <- Rsqr_abs. unfold Rsqr. ring. }
    pose proof (Rabs_pos (cos x)) as AP. assert (0 <= r * Rabs (cos x)) by (apply Rmult_le_pos; assumption). split; intros H0; [apply (Rsqr_incrst_1 _ _ H0)|apply Rsqr_incrst_0]; assumption. }
  split.
  - intros V. apply M. assert (U := V (1 / 2) ltac:(lra)). apply norm_lt_sq in U; [|exact HR]. rewrite circle_segment in U. fold x in U.
    replace (cos x * cos x) with (1 - sin x * sin x) by lra. lra.
  - intros H t Ht. apply norm_lt_sq; [exact HR|]. rewrite circle_segment. fold x. apply M in H. eapply Rlt_le_trans; [exact H|].
    apply Rmult_le_compat_l; [apply Rle_0_sqr|]. assert (A : 0 <= sin x * sin x) by apply Rle_0_sqr. assert (B : 0 <= (1 - 2 * t) * (1 - 2 * t)) by apply Rle_0_sqr.
    assert (C : 4 * (t * (1 - t)) <= 1) by lra. pose proof (Rmult_le_compat_r (sin x * sin x) _ _ A C). lra.
Qed.

(** ** Places of a plane *)

Lemma plane_angles : forall (o : leoorbit NumR) j k tau, IZR (lo_sats o) <> 0 ->
  (angular_rate (earth_radius_km + lo_alt o) (lo_inc o * PI / 180) * sec tau + turn j (lo_sats o) -
   (angular_rate (earth_radius_km + lo_alt o) (lo_inc o * PI / 180) * sec tau + turn k (lo_sats o))) / 2 = half_gap (lo_sats o) j k.
Proof. intros o j k tau S. unfold half_gap, turn. rewrite minus_IZR. field. exact S. Qed.

Lemma plane_facts : forall (o : leoorbit NumR) p j k tau, 0 <= earth_radius_km + lo_alt o -> (0 < lo_sats o)%Z ->
  distance (sat_path o (p, j) tau) (sat_path o (p, k) tau) = 2 * radius o * Rabs (sin (half_gap (lo_sats o) j k)) /\
  (unobstructed isl_earth_radius (sat_path o (p, j) tau) (sat_path o (p, k) tau) <->
   isl_earth_radius < radius o * Rabs (cos (half_gap (lo_sats o) j k))).
Proof.
  intros o p j k tau H S. assert (S0 : IZR (lo_sats o) <> 0) by (apply not_0_IZR; lia). unfold sat_path, trajectory. cbn [fst snd]. rewrite <- (plane_angles o j k tau S0). unfold radius. split.
  - apply circle_distance. lra.
  - apply circle_sight; [unfold isl_earth_radius; lra|lra].
Qed.

Lemma half_turns : forall x k, Rabs (sin (x + IZR k * PI)) = Rabs (sin x) /\ Rabs (cos (x + IZR k * PI)) = Rabs (cos x).
Proof.
  assert (P : forall n x, Rabs (sin (x + INR n * PI)) = Rabs (sin x) /\ Rabs (cos (x + INR n * PI)) = Rabs (cos x)).
  { induction n as [|n IH]; intros x; [cbn; replace (x + 0 * PI) with x by ring; auto|]. rewrite S_INR. replace (x + (INR n + 1) * PI) with ((x + INR n * PI) + PI) by ring.
    rewrite neg_sin, neg_cos, !Rabs_Ropp. apply IH. }
  intros x k. destruct (Z_le_gt_dec 0 k) as [K|K].
  - rewrite <- (Z2Nat.id k K), <- INR_IZR_INZ. apply P.
  - destruct (P (Z.to_nat (- k)) (x + IZR k * PI)) as [A B]. rewrite INR_IZR_INZ, Z2Nat.id in A, B by lia. rewrite opp_IZR in A, B.
    replace (x + IZR k * PI + - IZR k * PI) with x in A, B by ring. auto.
Qed.
Lemma gap_mod : forall S j k, (0 < S)%Z ->
  Rabs (sin (half_gap S (j mod S) (k mod S))) = Rabs (sin (half_gap S j k)) /\ Rabs (cos (half_gap S (j mod S) (k mod S))) = Rabs (cos (half_gap S j k)).
Proof.
  intros S j k H. assert (S0 : IZR S <> 0) by (apply not_0_IZR; lia).
  assert (E : half_gap S (j mod S) (k mod S) = half_gap S j k + IZR (k / S - j / S) * PI).
  { unfold half_gap. pose proof (Z.div_mod j S ltac:(lia)) as A. pose proof (Z.div_mod k S ltac:(lia)) as B.
    replace (j mod S - k mod S)%Z with (j - k + S * (k / S - j / S))%Z by lia. rewrite plus_IZR, mult_IZR. field. exact S0. }
  rewrite E. apply half_turns.
Qed.
Lemma gap_next : forall S j k, (0 < S)%Z -> (k = j + 1)%Z -> (1 < S)%Z ->
  Rabs (sin (half_gap S (j mod S) (k mod S))) = sin (PI / IZR S) /\ Rabs (cos (half_gap S (j mod S) (k mod S))) = cos (PI / IZR S).
Proof.
  intros S j k H E H1. destruct (gap_mod S j k H) as [-> ->]. subst k. unfold half_gap. replace (j - (j + 1))%Z with (-1)%Z by lia.
  replace (PI * IZR (-1) / IZR S) with (- (PI / IZR S)) by (cbn [IZR IPR]; field; apply not_0_IZR; lia). rewrite sin_neg, cos_neg, Rabs_Ropp.
  pose proof PI_RGT_0 as P. assert (B : 2 <= IZR S) by (apply IZR_le; lia). assert (Q : 0 < PI / IZR S <= PI / 2).
  { split; [apply Rdiv_lt_0_compat; lra|]. apply Rmult_le_compat_l; [lra|]. apply Rinv_le_contravar; lra. }
  split; apply Rabs_pos_eq; [apply sin_ge_0; lra|apply cos_ge_0; lra].
Qed.
Lemma gap_apart : forall S j k, (0 <= j < S)%Z -> (0 <= k < S)%Z -> j <> k -> 0 < Rabs (sin (half_gap S j k)).
Proof.
  intros S j k J K NE. apply Rabs_pos_lt. pose proof PI_RGT_0 as P. assert (B : 0 < IZR S) by (apply IZR_lt; lia).
  assert (POS : forall m, (0 < m < S)%Z -> 0 < sin (PI * IZR m / IZR S)).
  { intros m M. assert (A : 0 < IZR m < IZR S) by (split; apply IZR_lt; lia). apply sin_gt_0; [apply Rdiv_lt_0_compat; [apply Rmult_lt_0_compat; lra|lra]|].
    apply Rmult_lt_reg_r with (IZR S); [lra|]. replace (PI * IZR m / IZR S * IZR S) with (PI * IZR m) by (field; lra). apply Rmult_lt_compat_l; lra. }
  unfold half_gap. destruct (Z_lt_ge_dec 0 (j - k)) as [D|D].
  - assert (Q := POS (j - k)%Z ltac:(lia)). lra.
  - replace (j - k)%Z with (- (k - j))%Z by lia. rewrite opp_IZR. replace (PI * - IZR (k - j) / IZR S) with (- (PI * IZR (k - j) / IZR S)) by (field; lra).
    rewrite sin_neg. assert (Q := POS (k - j)%Z ltac:(lia)). lra.
Qed.
Lemma one_refreshed : forall p t ta tb, one_instant p t -> refreshed p t ta -> refreshed p t tb -> ta = tb.
Proof.
  intros p t ta tb [H|H] [(A & k & K & -> & L)|[(A & ->)|(A & ->)]] [(B & m & M & -> & Q)|[(B & ->)|(B & ->)]]; try lia.
  f_equal. assert (Z1 : (t / p = k)%Z).
  { symmetry. apply Z.div_unique with (t - k * p)%Z; [left|lia]. split; [lia|]. enough (t <> k * p + p)%Z by lia. intros E. apply H. rewrite E. replace (k * p + p)%Z with ((k + 1) * p)%Z by lia. apply Z.mod_mul. lia. }
  assert (Z2 : (t / p = m)%Z).
  { symmetry. apply Z.div_unique with (t - m * p)%Z; [left|lia]. split; [lia|]. enough (t <> m * p + p)%Z by lia. intros E. apply H. rewrite E. replace (m * p + p)%Z with ((m + 1) * p)%Z by lia. apply Z.mod_mul. lia. }
  lia.
Qed.
Lemma place_bounds : forall junk p os path (o : leoorbit NumR) pl j,
  Forall (fun o : leoorbit NumR => u16 (lo_planes o) /\ u16 (lo_sats o)) os -> satellite junk p os path o (pl, j) -> (0 <= j < lo_sats o)%Z.
Proof.
  intros junk p os path o pl j Hu (nodes & i & s & _ & _ & H & _). apply nth_error_In, in_satellites in H. destruct H as [_ H]. specialize (H Hu). cbn in H. lia.
Qed.
Lemma same_place : forall junk p os path (o : leoorbit NumR) pl j k,
  Forall (fun o : leoorbit NumR => u16 (lo_planes o) /\ u16 (lo_sats o)) os -> 0 <= lo_alt o ->
  satellite junk p os path o (pl, j) -> satellite junk p os path o (pl, k) -> j = k.
Proof.
  intros junk p os path o pl j k Hu A Sa Sb. destruct (Z.eq_dec j k) as [E|NE]; [exact E|exfalso].
  pose proof (place_bounds _ _ _ _ _ _ _ Hu Sa) as J. pose proof (place_bounds _ _ _ _ _ _ _ Hu Sb) as K.
  destruct (satellite_position _ _ _ _ _ _ 0 Hu Sa (Z.le_refl 0)) as (ta & Ra & Ea). destruct (satellite_position _ _ _ _ _ _ 0 Hu Sb (Z.le_refl 0)) as (tb & Rb & Eb).
  assert (T : forall t, refreshed p 0 t -> t = 0%Z) by (intros t [(H & m & M & -> & L)|[(_ & ->)|(_ & ->)]]; nia).
  apply T in Ra, Rb. subst ta tb. rewrite Ea in Eb.
  assert (A' : 0 <= earth_radius_km + lo_alt o) by (unfold earth_radius_km; lra).
  destruct (plane_facts o pl j k 0 A' ltac:(lia)) as [F1 _]. rewrite <- Eb in F1.
  assert (Z0 : distance (sat_path o (pl, j) 0) (sat_path o (pl, j) 0) = 0).
  { unfold distance, norm. replace (inner _ _) with 0; [apply sqrt_0|]. unfold inner, minus, pt, px, py, pz. cbn [vx vy vz]. change (num NumR) with R. ring. }
  rewrite Z0 in F1. pose proof (gap_apart _ _ _ J K NE) as G. assert (0 < 2 * radius o) by (unfold radius, earth_radius_km; lra).
  assert (0 < 2 * radius o * Rabs (sin (half_gap (lo_sats o) j k))) by (apply Rmult_lt_0_compat; assumption). lra.
Qed.
Lemma NoDup_map_on : forall A B (f : A -> B) l, NoDup l -> (forall x y, In x l -> In y l -> f x = f y -> x = y) -> NoDup (map f l).
Proof.
  intros A B f l ND. induction ND as [|a l NI ND IH]; intros H; [constructor|]. cbn. constructor.
  - intros X. apply in_map_iff in X. destruct X as (y & E & Y). apply H in E; [subst y; contradiction|right; exact Y|left; reflexivity].
  - apply IH. intros x y X Y. apply H; right; assumption.
Qed.
