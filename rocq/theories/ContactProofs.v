(** How long a station and a satellite are in contact. *)
Require Import ZArith Reals Lra Lia List Bool.
Require Import Verif.Base Verif.Num Verif.NumR Verif.Vec Verif.AllocModel Verif.NetModel Verif.HelperModel
  Verif.GeomSpec Verif.OrbitSpec Verif.AllocSpec Verif.LossSpec Verif.ConstellationSpec Verif.RingSpec Verif.CoverSpec Verif.ContactSpec
  Verif.LossProofs Verif.OrbitProofs Verif.ConstellationProofs Verif.RingProofs Verif.CoverProofs.
Local Open Scope R_scope.

(** Two points at distance [r], neither far from the direction of [g], are not far from each other. *)
Lemma both_near : forall (g P Q : point) r L, 0 <= L -> inner P P = r * r -> inner Q Q = r * r -> L <= inner g P -> L <= inner g Q ->
  2 * (L * L) <= inner g g * (r * r + inner P Q).
Proof.
  intros g P Q r L L0 HP HQ GP GQ. pose proof (cauchy_schwarz g (plus P Q)) as C.
  assert (E1 : inner g (plus P Q) = inner g P + inner g Q) by (unfold inner, plus, pt, px, py, pz; cbn [vx vy vz]; change (num NumR) with R; ring).
  assert (E2 : inner (plus P Q) (plus P Q) = inner P P + inner Q Q + 2 * inner P Q) by (unfold inner, plus, pt, px, py, pz; cbn [vx vy vz]; change (num NumR) with R; ring).
  rewrite E1, E2, HP, HQ in C. set (a := inner g P) in *. set (b := inner g Q) in *. assert (S : (L + L) * (L + L) <= (a + b) * (a + b)) by (apply Rmult_le_compat; lra). lra.
Qed.

(** How far a satellite gets. *)
Lemma path_inner : forall (o : leoorbit NumR) ps tau tau', 0 <= radius o ->
  inner (sat_path o ps tau) (sat_path o ps tau') <= radius o * radius o * (cos (pace o * (sec tau' - sec tau)) + earth_rate * Rabs (sec tau' - sec tau)).
Proof.
  intros o ps tau tau' R0. unfold sat_path, trajectory. fold (radius o). set (i := lo_inc o * PI / 180). set (lon := turn (fst ps) (lo_planes o)). set (off := turn (snd ps) (lo_sats o)).
  unfold pace. fold i. set (w := angular_rate (earth_radius_km + lo_alt o) i). set (s := sec tau). set (s' := sec tau').
  set (lam := lon + earth_rate * s). set (lam' := lon + earth_rate * s'). set (th := w * s + off). set (th' := w * s' + off).
  pose proof (turn_distance (radius o) i lam lam' th' R0) as T. pose proof (inner_norms (circle_point (radius o) i lam th) (minus (circle_point (radius o) i lam' th') (circle_point (radius o) i lam th'))) as C.
  fold (distance (circle_point (radius o) i lam th') (circle_point (radius o) i lam' th')) in C.
  assert (NP : norm (circle_point (radius o) i lam th) = radius o).
  { unfold norm. rewrite circle_inner. replace (th - th) with 0 by ring. rewrite cos_0, Rmult_1_r. apply sqrt_square, R0. }
  rewrite NP in C.
  assert (E : inner (circle_point (radius o) i lam th) (minus (circle_point (radius o) i lam' th') (circle_point (radius o) i lam th'))
            = inner (circle_point (radius o) i lam th) (circle_point (radius o) i lam' th') - inner (circle_point (radius o) i lam th) (circle_point (radius o) i lam th')).
  { generalize (circle_point (radius o) i lam th) (circle_point (radius o) i lam' th') (circle_point (radius o) i lam th'). intros a b c. unfold inner, minus, pt, px, py, pz. cbn [vx vy vz]. change (num NumR) with R. ring. }
  rewrite E, circle_inner in C.
  assert (ER : 0 <= earth_rate) by (unfold earth_rate; pose proof PI_RGT_0; lra).
  replace (lam' - lam) with (earth_rate * (s' - s)) in T by (unfold lam, lam'; ring). rewrite Rabs_mult, (Rabs_pos_eq earth_rate ER) in T.
  assert (CO : cos (th - th') = cos (Rabs w * (s' - s))).
  { replace (th - th') with (- (w * (s' - s))) by (unfold th, th'; ring). rewrite cos_neg. unfold Rabs. destruct (Rcase_abs w); [|reflexivity]. replace (- w * (s' - s)) with (- (w * (s' - s))) by ring. rewrite cos_neg. reflexivity. }
  rewrite CO in C. assert (X : radius o * distance (circle_point (radius o) i lam th') (circle_point (radius o) i lam' th') <= radius o * (radius o * (earth_rate * Rabs (s' - s)))) by (apply Rmult_le_compat_l; assumption).
  lra.
Qed.

Lemma contact_bound : forall (o : leoorbit NumR) ps tau tau' g D, 0 <= radius o -> 0 <= D -> let L := law_of_cosines (radius o) D g in 0 <= L ->
  distance g (sat_path o ps tau) <= D -> distance g (sat_path o ps tau') <= D ->
  2 * (L * L) <= radius o * radius o * (norm g * norm g) * (1 + cos (pace o * (sec tau' - sec tau)) + earth_rate * Rabs (sec tau' - sec tau)).
Proof.
  intros o ps tau tau' g D R0 D0 L L0 H H'. apply (distance_law g _ (radius o) D D0 (sat_inner_self o ps tau)) in H. apply (distance_law g _ (radius o) D D0 (sat_inner_self o ps tau')) in H'. fold L in H, H'.
  pose proof (both_near g _ _ (radius o) L L0 (sat_inner_self o ps tau) (sat_inner_self o ps tau') H H') as B. pose proof (path_inner o ps tau tau' R0) as P.
  assert (G : norm g * norm g = inner g g) by (unfold norm; apply sqrt_sqrt; unfold inner; nra). rewrite G.
  assert (G0 : 0 <= inner g g) by (unfold inner; nra).
  eapply Rle_trans; [exact B|]. replace (radius o * radius o * inner g g * _) with (inner g g * (radius o * radius o + radius o * radius o * (cos (pace o * (sec tau' - sec tau)) + earth_rate * Rabs (sec tau' - sec tau)))) by ring.
  apply Rmult_le_compat_l; [exact G0|lra].
Qed.

Lemma pace_speed : forall o, pace o = circular_speed (earth_radius_km + lo_alt o) / (1000 * earth_radius_km).
Proof.
  intros o. unfold pace, angular_rate. set (r := earth_radius_km + lo_alt o).
  assert (P : 0 <= circular_speed r) by (unfold circular_speed; pose proof (sqrt_pos (39.8600436 / r)); lra).
  assert (Q : 0 < / (1000 * earth_radius_km)) by (unfold earth_radius_km; lra).
  unfold Rdiv. destruct (Rlt_dec _ _).
  - replace (-1 * circular_speed r * / (1000 * earth_radius_km)) with (- (circular_speed r * / (1000 * earth_radius_km))) by ring. rewrite Rabs_Ropp. apply Rabs_pos_eq, Rmult_le_pos; lra.
  - rewrite Rmult_1_l. apply Rabs_pos_eq, Rmult_le_pos; lra.
Qed.
Lemma pace_bounds : forall o, leo_earth_radius < radius o -> 0 < pace o <= 2 / 1000.
Proof.
  intros o H. rewrite pace_speed. unfold radius, leo_earth_radius in H. set (r := earth_radius_km + lo_alt o) in *. assert (HR : 6371 < r) by lra. unfold circular_speed, earth_radius_km.
  assert (S0 : 0 < sqrt (39.8600436 / r)) by (apply sqrt_lt_R0; apply Rdiv_lt_0_compat; lra).
  assert (S1 : sqrt (39.8600436 / r) <= 1 / 10).
  { rewrite <- (sqrt_square (1 / 10)) by lra. apply sqrt_le_1_alt. apply Rmult_le_reg_r with r; [lra|]. unfold Rdiv at 1. rewrite Rmult_assoc, Rinv_l by lra. lra. }
  split; [apply Rdiv_lt_0_compat; lra|]. lra.
Qed.

Lemma cos_beyond : forall phi a, 0 <= phi <= 29 / 10 -> phi <= a <= phi + 1 / 10 -> cos a <= cos phi.
Proof. intros phi a H A. pose proof PI2_3_2. apply cos_decr_1; lra. Qed.

Lemma pass_ends : forall (o : leoorbit NumR) ps tau g D phi, leo_earth_radius < radius o -> 0 <= D -> 0 <= phi <= 29 / 10 -> let L := law_of_cosines (radius o) D g in 0 <= L ->
  radius o * radius o * (norm g * norm g) * (1 + cos phi + earth_rate * (phi / pace o + 1 / 1000000000)) < 2 * (L * L) ->
  exists tau', (tau <= tau')%Z /\ sec (tau' - tau) <= phi / pace o + 1 / 1000000000 /\ D < distance g (sat_path o ps tau').
Proof.
  intros o ps tau g D phi HR D0 HF L L0 H. destruct (pace_bounds o HR) as [W0 W1]. assert (R0 : 0 <= radius o) by (unfold leo_earth_radius in HR; lra).
  destruct (Rlt_dec D (distance g (sat_path o ps tau))) as [N|N].
  { exists tau. split; [lia|]. split; [|exact N]. rewrite Z.sub_diag. unfold sec. assert (0 <= phi / pace o) by (apply Rmult_le_pos; [lra|]; left; apply Rinv_0_lt_compat; exact W0). lra. }
  set (x := phi / pace o * 1000000000). destruct (archimed x) as [A1 A2].
  assert (X0 : 0 <= x) by (unfold x; apply Rmult_le_pos; [|lra]; apply Rmult_le_pos; [lra|]; left; apply Rinv_0_lt_compat; exact W0).
  assert (U0 : (0 < up x)%Z) by (apply lt_IZR; lra).
  exists (tau + up x)%Z. split; [lia|]. assert (SE : sec (tau + up x - tau) = IZR (up x) / 1000000000) by (unfold sec; f_equal; f_equal; lia).
  assert (B : phi / pace o < IZR (up x) / 1000000000 <= phi / pace o + 1 / 1000000000) by (assert (XE : x = phi / pace o * 1000000000) by reflexivity; clearbody x; lra).
  split; [rewrite SE; lra|]. apply Rnot_le_lt. intros N'. apply Rnot_lt_le in N.
  pose proof (contact_bound o ps tau (tau + up x) g D R0 D0 L0 N N') as C.
  replace (sec (tau + up x) - sec tau) with (IZR (up x) / 1000000000) in C by (unfold sec; rewrite plus_IZR; field). set (d := IZR (up x) / 1000000000) in *.
  assert (P0 : 0 <= phi / pace o) by (apply Rmult_le_pos; [lra|]; left; apply Rinv_0_lt_compat; exact W0). rewrite (Rabs_pos_eq d) in C by lra.
  assert (EP : pace o * (phi / pace o) = phi) by (field; lra).
  assert (CC : cos (pace o * d) <= cos phi).
  { apply cos_beyond; [exact HF|]. split; [rewrite <- EP at 1; apply Rmult_le_compat_l; lra|].
    assert (pace o * d <= pace o * (phi / pace o + 1 / 1000000000)) by (apply Rmult_le_compat_l; lra). rewrite Rmult_plus_distr_l, EP in H0. lra. }
  assert (ER : 0 <= earth_rate) by (unfold earth_rate; pose proof PI_RGT_0; lra).
  assert (EB : earth_rate * d <= earth_rate * (phi / pace o + 1 / 1000000000)) by (apply Rmult_le_compat_l; lra).
  fold L in C. assert (K : 0 <= radius o * radius o * (norm g * norm g)) by (apply Rmult_le_pos; apply Rle_0_sqr).
  assert (M : radius o * radius o * (norm g * norm g) * (1 + cos (pace o * d) + earth_rate * d) <= radius o * radius o * (norm g * norm g) * (1 + cos phi + earth_rate * (phi / pace o + 1 / 1000000000))) by (apply Rmult_le_compat_l; lra).
  lra.
Qed.
