Require Import ZArith Reals Lra Lia Psatz List Bool ZifyBool.
Require Import Verif.Base Verif.Num Verif.NumR Verif.Vec Verif.OrbitModel Verif.MobilityModel Verif.AllocModel
  Verif.GeomSpec Verif.AllocSpec Verif.MobilitySpec Verif.LossProofs Verif.LeoLossProofs Verif.MobilityProofs.
Import ListNotations.
Local Open Scope Z_scope.
Ltac Zify.zify_post_hook ::= Z.div_mod_to_equations.

Definition max64 : Z := 18446744073709551616.

(** ** Circular allocator *)

Lemma div_step : forall k S, 0 < S -> 0 <= k ->
  (k + 1) / S = (if (k mod S + 1 =? S) then k / S + 1 else k / S) /\
  (k + 1) mod S = (if (k mod S + 1 =? S) then 0 else k mod S + 1).
Proof.
  intros k S HS Hk. pose proof (Z.mod_pos_bound k S HS). pose proof (Z.div_mod k S ltac:(lia)).
  destruct (Z.eqb_spec (k mod S + 1) S) as [E|E].
  - split.
    + symmetry. apply (Z.div_unique _ _ _ 0); nia.
    + symmetry. apply (Z.mod_unique _ _ (k / S + 1)); nia.
  - split.
    + symmetry. apply (Z.div_unique _ _ _ (k mod S + 1)); nia.
    + symmetry. apply (Z.mod_unique _ _ (k / S)); nia.
Qed.

Lemma mod_succ : forall a P, 0 < P -> (a mod P + 1) mod P = (a + 1) mod P.
Proof. intros a P HP. rewrite Zplus_mod_idemp_l. reflexivity. Qed.

Section Circ.
  Variable N : Num.

  (** State after k calls. *)
  Definition circ_at (P S k : Z) : circ := mkCirc P S (fst (slot P S k)) (snd (slot P S k)).

  Definition circ_vec (P S : Z) (ps : Z * Z) : vec N :=
    V (nmul N (nmul N (nZ N 2) (npi N)) (ndiv N (nZ N (fst ps)) (nZ N P)))
      (nmul N (nmul N (nZ N 2) (npi N)) (ndiv N (nZ N (snd ps)) (nZ N S)))
      (nZ N 0).

  Lemma circ_next : forall P S k, 0 < P < max64 -> 0 < S < max64 -> 0 <= k ->
    @CircGetNext N (circ_at P S k) = Ok (circ_vec P S (slot P S k), circ_at P S (k + 1)).
  Proof.
    intros P S k HP HS Hk. unfold CircGetNext, circ_at, slot, circ_vec.
    cbn [c_numOrbits c_numSats c_lastOrbit c_lastSat fst snd].
    pose proof (Z.mod_pos_bound k S ltac:(lia)) as Hm.
    pose proof (Z.mod_pos_bound (k / S) P ltac:(lia)) as Hq.
    unfold wrap64. fold max64.
    rewrite (Z.mod_small (k mod S + 1)) by (unfold max64 in *; lia).
    rewrite (Z.mod_small ((k / S) mod P + 1)) by (unfold max64 in *; lia).
    destruct (div_step k S ltac:(lia) Hk) as [D M].
    rewrite D, M.
    destruct (Z.eqb_spec P 0); [lia|]. destruct (Z.eqb_spec S 0); [lia|].
    destruct (Z.eqb_spec (k mod S + 1) S) as [E|E]; cbn [bind].
    - rewrite mod_succ by lia. rewrite E, Z_mod_same_full. reflexivity.
    - rewrite (Z.mod_small (k mod S + 1) S) by lia. reflexivity.
  Qed.

  Lemma circ_calls_at : forall n P S k, 0 < P < max64 -> 0 < S < max64 -> 0 <= k ->
    circ_calls n (circ_at P S k) =
    Ok (map (fun j => circ_vec P S (slot P S (k + Z.of_nat j))) (seq 0 n), circ_at P S (k + Z.of_nat n)).
  Proof.
    induction n as [|n IH]; intros P S k HP HS Hk; cbn [circ_calls seq map].
    - rewrite Z.add_0_r. reflexivity.
    - rewrite circ_next by assumption. cbn [bind].
      rewrite IH by lia. cbn [bind]. f_equal. f_equal.
      + f_equal; [rewrite Z.add_0_r; reflexivity|].
        rewrite <- seq_shift, map_map. apply map_ext. intros j. do 2 f_equal. lia.
      + f_equal. lia.
  Qed.

  Lemma circ_new_at : forall P S, circ_new P S = circ_at P S 0.
  Proof.
    intros P S. unfold circ_new, circ_at, slot. rewrite Zdiv_0_l, !Zmod_0_l. reflexivity.
  Qed.

  Lemma circ_calls_new : forall n P S, 0 < P < max64 -> 0 < S < max64 ->
    exists c, circ_calls n (circ_new P S) = Ok (first_n n (fun k => circ_vec P S (slot P S k)), c).
  Proof.
    intros n P S HP HS. rewrite circ_new_at, circ_calls_at by lia. eexists. reflexivity.
  Qed.

  (** ** Failures *)
  Lemma circ_ok_iff : forall n P S, 0 <= P < max64 -> 0 <= S < max64 ->
    (is_ok (@circ_calls N n (circ_new P S)) = true <->
     n = O \/ (0 < S /\ (0 < P \/ Z.of_nat n < S))) /\
    (is_ok (@circ_calls N n (circ_new P S)) = false -> circ_calls n (circ_new P S) = UB DivByZero :> res (list (vec N) * circ)).
  Proof.
    intros n P S HP HS.
    destruct (Z.eq_dec S 0) as [->|HS0].
    { destruct n as [|n]; cbn; [split; [tauto|discriminate]|].
      unfold CircGetNext; cbn. split; [|reflexivity]. split; [discriminate|]. lia. }
    destruct (Z.eq_dec P 0) as [->|HP0].
    2:{ destruct (circ_calls_new n P S ltac:(lia) ltac:(lia)) as (c & ->). cbn.
        split; [|discriminate]. split; [|reflexivity]. intros _. right. lia. }
    (* P = 0 *)
    assert (H : forall m (j : Z), 0 <= j < S ->
      (j + Z.of_nat m < S -> is_ok (@circ_calls N m (mkCirc 0 S 0 j)) = true) /\
      (S <= j + Z.of_nat m -> @circ_calls N m (mkCirc 0 S 0 j) = UB DivByZero)).
    { induction m as [|m IH]; intros j Hj; cbn [circ_calls].
      - split; [reflexivity|lia].
      - unfold CircGetNext. cbn [c_numOrbits c_numSats c_lastOrbit c_lastSat].
        unfold wrap64. fold max64. rewrite (Z.mod_small (j + 1)) by lia.
        destruct (Z.eqb_spec (j + 1) S) as [E|E]; cbn.
        + split; [lia|reflexivity].
        + destruct (Z.eqb_spec S 0); [lia|]. cbn [bind].
          rewrite (Z.mod_small (j + 1) S) by lia.
          destruct (IH (j + 1) ltac:(lia)) as [I1 I2].
          split; intros L.
          * specialize (I1 ltac:(lia)). destruct (circ_calls m _) as [[l c]| |]; try discriminate. reflexivity.
          * rewrite I2 by lia. reflexivity. }
    destruct (H n 0 ltac:(lia)) as [H1 H2]. unfold circ_new.
    destruct (Z_lt_le_dec (Z.of_nat n) S) as [L|L].
    - rewrite H1 by lia. split; [|discriminate]. split; [|reflexivity]. intros _. right. lia.
    - rewrite H2 by lia. cbn. split; [|reflexivity]. split; [discriminate|]. lia.
  Qed.
End Circ.

(** ** Enumeration facts about [slot] *)

Lemma slot_inj : forall P S k1 k2, 0 < P -> 0 < S ->
  0 <= k1 -> k1 <= k2 -> k2 < k1 + P * S -> slot P S k1 = slot P S k2 -> k1 = k2.
Proof.
  intros P S k1 k2 HP HS H1 H12 H2 E. unfold slot in E. injection E as E1 E2.
  assert (D : exists d, k2 - k1 = S * d).
  { exists (k2 / S - k1 / S). pose proof (Z.div_mod k1 S ltac:(lia)). pose proof (Z.div_mod k2 S ltac:(lia)). nia. }
  destruct D as (d & D).
  assert (Hd : 0 <= d < P) by nia.
  assert (Q : k2 / S = k1 / S + d).
  { symmetry. apply (Z.div_unique_pos k2 S _ (k1 mod S)).
    - apply Z.mod_pos_bound. lia.
    - pose proof (Z.div_mod k1 S ltac:(lia)). nia. }
  rewrite Q in E1.
  assert (P0 : d mod P = 0).
  { replace d with ((k1 / S + d) - k1 / S) by lia.
    rewrite Zminus_mod, <- E1, Z.sub_diag. apply Zmod_0_l. }
  rewrite Z.mod_small in P0 by lia. nia.
Qed.

Lemma slot_surj : forall P S k0 p s, 0 < P -> 0 < S -> 0 <= k0 -> 0 <= p < P -> 0 <= s < S ->
  exists k, k0 <= k < k0 + P * S /\ slot P S k = (p, s).
Proof.
  intros P S k0 p s HP HS H0 Hp Hs.
  (* first solution: k = p*S+s + P*S*q with the least q such that k0 <= k *)
  set (b := p * S + s). set (T := P * S).
  assert (HT : 0 < T) by (unfold T; nia).
  assert (Hb : 0 <= b < T) by (unfold b, T; nia).
  set (k := k0 + (b - k0) mod T).
  pose proof (Z.mod_pos_bound (b - k0) T HT) as Hm.
  exists k. split; [unfold k; lia|].
  assert (Hk : exists q, k = b + T * q).
  { exists (- ((b - k0) / T)). unfold k. pose proof (Z.div_mod (b - k0) T ltac:(lia)). lia. }
  destruct Hk as (q & Hk). unfold slot.
  assert (K1 : k / S = p + P * q).
  { symmetry. apply (Z.div_unique_pos k S _ s); [lia|]. rewrite Hk. unfold b, T. nia. }
  assert (K2 : k mod S = s).
  { symmetry. apply (Z.mod_unique_pos k S (p + P * q)); [lia|]. rewrite Hk. unfold b, T. nia. }
  rewrite K1, K2. f_equal. rewrite Z.mul_comm, Z_mod_plus_full. apply Z.mod_small. lia.
Qed.

Lemma slot_periodic : forall P S k, 0 < P -> 0 < S -> 0 <= k -> slot P S (k + P * S) = slot P S k.
Proof.
  intros P S k HP HS Hk. unfold slot. rewrite Z_div_plus_full, Z_mod_plus_full by lia.
  f_equal. rewrite <- (Z.mul_1_l P) at 1. rewrite Z_mod_plus_full. reflexivity.
Qed.

Lemma slot_small : forall P S k, 0 < P -> 0 < S -> 0 <= k < P * S -> slot P S k = (k / S, k mod S).
Proof.
  intros P S k HP HS Hk. unfold slot. f_equal. apply Z.mod_small. split.
  - apply Z.div_pos; lia.
  - apply Z.div_lt_upper_bound; lia.
Qed.

Lemma slot_range : forall P S k, 0 < P -> 0 < S ->
  0 <= fst (slot P S k) < P /\ 0 <= snd (slot P S k) < S.
Proof. intros. unfold slot; cbn. split; apply Z.mod_pos_bound; lia. Qed.

Lemma turn_inj : forall i j n, 0 < n -> turn i n = turn j n -> i = j.
Proof.
  intros i j n Hn H. unfold turn in H.
  assert (HPI := PI_RGT_0). assert (Hn' : (0 < IZR n)%R) by (apply IZR_lt; exact Hn).
  assert (E : (IZR i / IZR n = IZR j / IZR n)%R) by (apply Rmult_eq_reg_l with (2 * PI)%R; lra).
  apply eq_IZR. apply Rmult_eq_reg_r with (/ IZR n)%R; [exact E|]. apply Rinv_neq_0_compat. lra.
Qed.

Lemma circ_vec_R : forall P S ps, circ_vec NumR P S ps = slot_vector P S ps.
Proof. intros. reflexivity. Qed.

Lemma slot_vector_inj : forall P S a b, 0 < P -> 0 < S ->
  slot_vector P S a = slot_vector P S b -> a = b.
Proof.
  intros P S [a1 a2] [b1 b2] HP HS H. unfold slot_vector, pt in H. injection H as H1 H2. cbn in *.
  rewrite (turn_inj a1 b1 P HP H1), (turn_inj a2 b2 S HS H2). reflexivity.
Qed.

(** ** Polar allocator *)

Definition max32 : Z := 4294967296.

Section Polar.
  Variable N : Num.
  Definition polar_vec (L M : Z) (rc : Z * Z) : vec N :=
    let lat := nmul N (nZ N (fst rc)) (ndiv N (npi N) (nZ N L)) in
    let lon := nmul N (nZ N (snd rc)) (ndiv N (nmul N (nZ N 2) (npi N)) (nZ N M)) in
    V (nmul N (nmul N (nZ N 6371000) (nsin N lat)) (ncos N lon))
      (nmul N (nmul N (nZ N 6371000) (nsin N lat)) (nsin N lon))
      (nmul N (nZ N 6371000) (ncos N lat)).

  Definition polar_at (L M k : Z) : polar := mkPolar L M (fst (grid L M k)) (snd (grid L M k)).

  Lemma polar_next : forall L M k, 0 <= L < max32 - 1 -> 0 < M < max32 -> 0 <= k ->
    @PolarGetNext N (polar_at L M k) = Ok (polar_vec L M (grid L M k), polar_at L M (k + 1)).
  Proof.
    intros L M k HL HM Hk. unfold PolarGetNext, polar_at, grid, polar_vec, LEO_GND_RAD_EARTH.
    cbn [p_latNum p_lonNum p_lat p_lon fst snd].
    pose proof (Z.mod_pos_bound k (L + 1) ltac:(lia)) as Hm.
    pose proof (Z.mod_pos_bound (k / (L + 1)) M ltac:(lia)) as Hq.
    unfold wrap32. fold max32.
    rewrite (Z.mod_small (k mod (L + 1) + 1)) by lia.
    rewrite (Z.mod_small ((k / (L + 1)) mod M + 1)) by lia.
    destruct (div_step k (L + 1) ltac:(lia) Hk) as [D E]. rewrite D, E.
    destruct (Z.eqb_spec M 0); [lia|].
    destruct (Z.eqb_spec (k mod (L + 1) + 1) (L + 1)) as [F|F].
    - destruct (Z.ltb_spec L (k mod (L + 1) + 1)); [|lia]. rewrite mod_succ by lia. reflexivity.
    - destruct (Z.ltb_spec L (k mod (L + 1) + 1)); [lia|]. reflexivity.
  Qed.

  Lemma polar_calls_at : forall n L M k, 0 <= L < max32 - 1 -> 0 < M < max32 -> 0 <= k ->
    polar_calls n (polar_at L M k) =
    Ok (map (fun j => polar_vec L M (grid L M (k + Z.of_nat j))) (seq 0 n), polar_at L M (k + Z.of_nat n)).
  Proof.
    induction n as [|n IH]; intros L M k HL HM Hk; cbn [polar_calls seq map].
    - rewrite Z.add_0_r. reflexivity.
    - rewrite polar_next by assumption. cbn [bind].
      rewrite IH by lia. cbn [bind]. f_equal. f_equal.
      + f_equal; [rewrite Z.add_0_r; reflexivity|].
        rewrite <- seq_shift, map_map. apply map_ext. intros j. do 2 f_equal. lia.
      + f_equal. lia.
  Qed.

  Lemma polar_new_at : forall L M, polar_new L M = polar_at L M 0.
  Proof. intros. unfold polar_new, polar_at, grid. rewrite Zdiv_0_l, !Zmod_0_l. reflexivity. Qed.

  Lemma polar_calls_new : forall n L M, 0 <= L < max32 - 1 -> 0 < M < max32 ->
    exists p, polar_calls n (polar_new L M) = Ok (first_n n (fun k => polar_vec L M (grid L M k)), p).
  Proof.
    intros n L M HL HM. rewrite polar_new_at, polar_calls_at by lia. eexists. reflexivity.
  Qed.

  (** The largest LatNum: the row counter wraps to 0 without leaving the meridian. *)
  Lemma polar_calls_wrap : forall n M r, 0 <= r < max32 ->
    polar_calls n (mkPolar (max32 - 1) M r 0) =
    Ok (map (fun j => polar_vec (max32 - 1) M ((r + Z.of_nat j) mod max32, 0)) (seq 0 n),
        mkPolar (max32 - 1) M ((r + Z.of_nat n) mod max32) 0).
  Proof.
    induction n as [|n IH]; intros M r Hr; cbn [polar_calls seq map].
    - rewrite Z.add_0_r, Z.mod_small by lia. reflexivity.
    - unfold PolarGetNext. cbn [p_latNum p_lonNum p_lat p_lon].
      unfold wrap32. fold max32.
      pose proof (Z.mod_pos_bound (r + 1) max32 ltac:(unfold max32; lia)) as Hm.
      destruct (Z.ltb_spec (max32 - 1) ((r + 1) mod max32)); [lia|]. cbn [bind].
      rewrite IH by exact Hm. cbn [bind]. f_equal. f_equal.
      + f_equal.
        * unfold polar_vec; cbn [fst snd]. rewrite Z.add_0_r, (Z.mod_small r) by lia. reflexivity.
        * rewrite <- seq_shift, map_map. apply map_ext. intros j. do 2 f_equal.
          rewrite Zplus_mod_idemp_l. f_equal. lia.
      + f_equal. rewrite Zplus_mod_idemp_l. f_equal. lia.
  Qed.

  Lemma polar_ok_iff : forall n L M, 0 <= L < max32 -> 0 <= M < max32 ->
    (is_ok (@polar_calls N n (polar_new L M)) = true <->
     0 < M \/ Z.of_nat n <= L \/ L = max32 - 1) /\
    (is_ok (@polar_calls N n (polar_new L M)) = false ->
     polar_calls n (polar_new L M) = UB DivByZero :> res (list (vec N) * polar)).
  Proof.
    intros n L M HL HM.
    destruct (Z.eq_dec L (max32 - 1)) as [->|HL0].
    { unfold polar_new. rewrite polar_calls_wrap by (unfold max32; lia). cbn.
      split; [|discriminate]. split; [intros _; lia|reflexivity]. }
    destruct (Z.eq_dec M 0) as [->|HM0].
    2:{ destruct (polar_calls_new n L M ltac:(lia) ltac:(lia)) as (c & ->). cbn.
        split; [|discriminate]. split; [intros _; lia|reflexivity]. }
    assert (H : forall m (j : Z), 0 <= j <= L ->
      (j + Z.of_nat m <= L -> is_ok (@polar_calls N m (mkPolar L 0 j 0)) = true) /\
      (L < j + Z.of_nat m -> @polar_calls N m (mkPolar L 0 j 0) = UB DivByZero)).
    { induction m as [|m IH]; intros j Hj; cbn [polar_calls].
      - split; [reflexivity|lia].
      - unfold PolarGetNext. cbn [p_latNum p_lonNum p_lat p_lon].
        unfold wrap32. fold max32. rewrite (Z.mod_small (j + 1)) by lia.
        destruct (Z.ltb_spec L (j + 1)) as [E|E]; cbn.
        + split; [lia|reflexivity].
        + destruct (IH (j + 1) ltac:(lia)) as [I1 I2].
          split; intros B.
          * specialize (I1 ltac:(lia)). destruct (polar_calls m _) as [[l c]| |]; try discriminate. reflexivity.
          * rewrite I2 by lia. reflexivity. }
    destruct (H n 0 ltac:(lia)) as [H1 H2]. unfold polar_new.
    destruct (Z_le_gt_dec (Z.of_nat n) L) as [B|B].
    - rewrite H1 by lia. split; [|discriminate]. split; [intros _; lia|reflexivity].
    - rewrite H2 by lia. cbn [is_ok]. split; [|reflexivity]. split; [discriminate|]. intros; exfalso; lia.
  Qed.
End Polar.

Lemma polar_vec_R : forall L M rc, polar_vec NumR L M rc = grid_point L M rc.
Proof.
  intros L M [r c]. unfold polar_vec, grid_point, sphere_point, turn, ground_radius, pt. cbn [fst snd].
  cbn [nmul nZ ndiv npi nsin ncos NumR].
  replace (IZR r * (PI / IZR L))%R with (PI * (IZR r / IZR L))%R by (unfold Rdiv; ring).
  replace (IZR c * (2 * PI / IZR M))%R with (2 * PI * (IZR c / IZR M))%R by (unfold Rdiv; ring).
  f_equal; toR; ring.
Qed.

Local Open Scope R_scope.

Lemma sphere_norm : forall th lam, norm (sphere_point th lam) = ground_radius.
Proof.
  intros th lam. unfold norm.
  rewrite (sqrt_sq_abs _ ground_radius); [apply Rabs_pos_eq; unfold ground_radius; lra|].
  unfold inner, sphere_point, pt, px, py, pz; cbn.
  pose proof (sc1 th) as H1. pose proof (sc1 lam) as H2.
  replace (ground_radius * (sin th * cos lam) * (ground_radius * (sin th * cos lam)) +
           ground_radius * (sin th * sin lam) * (ground_radius * (sin th * sin lam)) +
           ground_radius * cos th * (ground_radius * cos th))
    with (ground_radius * ground_radius *
          (sin th * sin th * (sin lam * sin lam + cos lam * cos lam) + cos th * cos th)) by ring.
  rewrite H2, Rmult_1_r, H1. ring.
Qed.

Lemma grid_north : forall L M c, grid_point L M (0%Z, c) = north_pole.
Proof.
  intros. unfold grid_point, sphere_point, north_pole, pt; cbn [fst snd].
  replace (PI * (IZR 0 / IZR L)) with 0 by (unfold Rdiv; ring).
  rewrite sin_0, cos_0. f_equal; toR; ring.
Qed.

Lemma grid_south : forall L M c, (0 < L)%Z -> grid_point L M (L, c) = south_pole.
Proof.
  intros L M c HL. unfold grid_point, sphere_point, south_pole, pt; cbn [fst snd].
  replace (PI * (IZR L / IZR L)) with PI.
  - rewrite sin_PI, cos_PI. f_equal; toR; ring.
  - field. apply IZR_lt in HL. lra.
Qed.

(** Rows strictly between are not poles, so that only poles are repeated. *)
Lemma grid_inj : forall L M r1 c1 r2 c2, (0 < L)%Z -> (0 < M)%Z ->
  (0 < r1 < L)%Z -> (0 <= r2 <= L)%Z -> (0 <= c1 < M)%Z -> (0 <= c2 < M)%Z ->
  grid_point L M (r1, c1) = grid_point L M (r2, c2) -> r1 = r2 /\ c1 = c2.
Proof.
  intros L M r1 c1 r2 c2 HL HM Hr1 Hr2 Hc1 Hc2 H.
  unfold grid_point, sphere_point, pt in H. cbn [fst snd] in H. injection H as Hx Hy Hz.
  assert (HPI := PI_RGT_0).
  assert (HL' : 0 < IZR L) by (apply IZR_lt; lia).
  assert (HM' : 0 < IZR M) by (apply IZR_lt; lia).
  assert (Hang : forall r, (0 <= r <= L)%Z -> 0 <= PI * (IZR r / IZR L) <= PI).
  { intros r Hr. assert (0 <= IZR r <= IZR L) by (split; apply IZR_le; lia).
    assert (0 <= IZR r / IZR L <= 1).
    { split; [apply Rmult_le_pos; [lra|left; apply Rinv_0_lt_compat; lra]|].
      apply Rmult_le_reg_r with (IZR L); [lra|]. unfold Rdiv. rewrite Rmult_assoc, Rinv_l; lra. }
    nra. }
  assert (Hr : r1 = r2).
  { assert (Hc : cos (PI * (IZR r1 / IZR L)) = cos (PI * (IZR r2 / IZR L))).
    { apply Rmult_eq_reg_l with ground_radius; [exact Hz|unfold ground_radius; lra]. }
    pose proof (Hang r1 ltac:(lia)) as A1. pose proof (Hang r2 ltac:(lia)) as A2.
    assert (E : PI * (IZR r1 / IZR L) = PI * (IZR r2 / IZR L)) by (apply cos_inj; assumption).
    apply eq_IZR. apply Rmult_eq_reg_r with (/ IZR L); [|apply Rinv_neq_0_compat; lra].
    apply Rmult_eq_reg_l with PI; [exact E|lra]. }
  split; [exact Hr|]. subst r2.
  assert (Hs : 0 < sin (PI * (IZR r1 / IZR L))).
  { assert (0 < IZR r1 < IZR L) by (split; apply IZR_lt; lia).
    assert (0 < IZR r1 / IZR L < 1).
    { split; [apply Rdiv_lt_0_compat; lra|].
      apply Rmult_lt_reg_r with (IZR L); [lra|]. unfold Rdiv. rewrite Rmult_assoc, Rinv_l; lra. }
    apply sin_gt_0; nra. }
  assert (Hcc : cos (turn c1 M) = cos (turn c2 M)).
  { apply Rmult_eq_reg_l with (sin (PI * (IZR r1 / IZR L))); [|lra].
    apply Rmult_eq_reg_l with ground_radius; [exact Hx|unfold ground_radius; lra]. }
  assert (Hss : sin (turn c1 M) = sin (turn c2 M)).
  { apply Rmult_eq_reg_l with (sin (PI * (IZR r1 / IZR L))); [|lra].
    apply Rmult_eq_reg_l with ground_radius; [exact Hy|unfold ground_radius; lra]. }
  assert (Ht : forall c, (0 <= c < M)%Z -> 0 <= turn c M < 2 * PI).
  { intros c Hc. unfold turn.
    assert (0 <= IZR c < IZR M) by (split; [apply IZR_le|apply IZR_lt]; lia).
    assert (0 <= IZR c / IZR M < 1).
    { split; [apply Rmult_le_pos; [lra|left; apply Rinv_0_lt_compat; lra]|].
      apply Rmult_lt_reg_r with (IZR M); [lra|]. unfold Rdiv. rewrite Rmult_assoc, Rinv_l; lra. }
    nra. }
  pose proof (Ht c1 Hc1) as T1. pose proof (Ht c2 Hc2) as T2.
  apply (turn_inj c1 c2 M HM).
  (* cos (x - y) = 1 with |x - y| < 2 PI *)
  set (x := turn c1 M) in *. set (y := turn c2 M) in *.
  assert (Hd : cos (x - y) = 1).
  { rewrite cos_minus, Hcc, Hss. pose proof (sc1 y). lra. }
  destruct (Rtotal_order x y) as [L1|[E|L1]]; [exfalso|exact E|exfalso].
  - assert (Hh : sin ((y - x) / 2) = 0).
    { assert (cos (2 * ((y - x) / 2)) = 1).
      { replace (2 * ((y - x) / 2)) with (- (x - y)) by field. rewrite cos_neg. exact Hd. }
      rewrite cos_2a_sin in H. nra. }
    assert (0 < sin ((y - x) / 2)) by (apply sin_gt_0; lra). lra.
  - assert (Hh : sin ((x - y) / 2) = 0).
    { assert (cos (2 * ((x - y) / 2)) = 1).
      { replace (2 * ((x - y) / 2)) with (x - y) by field. exact Hd. }
      rewrite cos_2a_sin in H. nra. }
    assert (0 < sin ((x - y) / 2)) by (apply sin_gt_0; lra). lra.
Qed.

(** ** Ground locations *)

Lemma earth_position_R : forall lat lon : R,
  @GetEarthPosition NumR (@mkLatLong NumR lat lon) = sphere_point (2 * lat * PI / 180) (lon * PI / 180).
Proof.
  intros lat lon. unfold GetEarthPosition, sphere_point, LEO_GND_RAD_EARTH, ground_radius, pt.
  cbn [ll_lat ll_lon nmul ndiv nZ npi nsin ncos NumR].
  replace (lat * (PI / 90)) with (2 * lat * PI / 180) by field.
  replace (lon * (PI / 180)) with (lon * PI / 180) by field.
  f_equal; toR; ring.
Qed.

Lemma geographic_coords : forall lat lon,
  geographic lat lon = pt (ground_radius * (cos (lat * PI / 180) * cos (lon * PI / 180)))
                          (ground_radius * (cos (lat * PI / 180) * sin (lon * PI / 180)))
                          (ground_radius * sin (lat * PI / 180)).
Proof. intros. unfold geographic, sphere_point. rewrite sin_shift, cos_shift. reflexivity. Qed.

Lemma earth_position_correct_iff : forall lat lon : R, -90 <= lat <= 90 ->
  (@GetEarthPosition NumR (@mkLatLong NumR lat lon) = geographic lat lon <-> lat = 30 \/ lat = -90).
Proof.
  intros lat lon Hl. rewrite earth_position_R, geographic_coords.
  pose proof PI_RGT_0 as HPI.
  set (x := lat * PI / 180).
  assert (Hx : - (PI / 2) <= x <= PI / 2) by (unfold x; nra).
  replace (2 * lat * PI / 180) with (2 * x) by (unfold x; field).
  split.
  - intros H. unfold sphere_point, pt in H. injection H as _ _ Hz.
    assert (E : cos (2 * x) = sin x).
    { apply Rmult_eq_reg_l with ground_radius; [exact Hz|unfold ground_radius; lra]. }
    rewrite cos_2a_sin in E.
    assert (F : (sin x - 1/2) * (sin x + 1) = 0) by lra.
    apply Rmult_integral in F. destruct F as [F|F].
    + left. assert (Hs : sin x = sin (PI / 6)) by (rewrite sin_PI6; lra).
      apply sin_inj in Hs; [unfold x in Hs; nra|exact Hx|lra].
    + right. assert (Hs : sin x = sin (- (PI / 2))) by (rewrite sin_neg, sin_PI2; lra).
      apply sin_inj in Hs; [unfold x in Hs; nra|exact Hx|lra].
  - intros [->| ->]; unfold sphere_point.
    + assert (X : x = PI / 6) by (unfold x; field). rewrite X.
      replace (2 * (PI / 6)) with (PI / 3) by field.
      rewrite sin_PI3, cos_PI3, cos_PI6, sin_PI6. reflexivity.
    + assert (X : x = - (PI / 2)) by (unfold x; field). rewrite X.
      replace (2 * - (PI / 2)) with (- PI) by field.
      rewrite !sin_neg, !cos_neg, sin_PI, cos_PI, cos_PI2, sin_PI2. f_equal; toR; ring.
Qed.

Lemma InstallLocations_map : forall N (l : list (latlong N)),
  InstallLocations l = map GetEarthPosition l.
Proof. induction l; cbn; congruence. Qed.

(** ** Constellations *)

Local Open Scope Z_scope.

Section Install.
  Variable N : Num.
  Variable prec : Z.
  Variable junk : vec N.

  (** The mobility model of the satellite in slot [ps]. *)
  Definition is_sat (now : Z) (o : leoorbit N) (ps : Z * Z) (s : mob N) : Prop :=
    reached junk now (lo_alt o) (lo_inc o) prec
      [OSetPosition (circ_vec N (lo_planes o) (lo_sats o) ps)] s.

  Lemma install_sat_ok : forall now alt inc P S k, 0 < P < max64 -> 0 < S < max64 -> 0 <= k ->
    neq N inc (nZ N 0) = false ->
    exists s, install_sat prec junk now alt inc (circ_at P S k) = Ok (s, circ_at P S (k + 1)) /\
      reached junk now alt inc prec [OSetPosition (circ_vec N P S (slot P S k))] s.
  Proof.
    intros now alt inc P S k HP HS Hk Hi. unfold install_sat.
    rewrite construct_ok by exact Hi. cbn [bind]. rewrite circ_next by assumption. cbn [bind].
    eexists. split; [reflexivity|]. eexists _, _. split; [apply construct_ok; exact Hi|]. reflexivity.
  Qed.

  Lemma install_sats_ok : forall n now alt inc P S k, 0 < P < max64 -> 0 < S < max64 -> 0 <= k ->
    neq N inc (nZ N 0) = false ->
    exists l, install_sats prec junk now alt inc n (circ_at P S k) = Ok l /\ length l = n /\
      forall j s, nth_error l j = Some s ->
        reached junk now alt inc prec [OSetPosition (circ_vec N P S (slot P S (k + Z.of_nat j)))] s.
  Proof.
    induction n as [|n IH]; intros now alt inc P S k HP HS Hk Hi; cbn [install_sats].
    - exists []. repeat split. intros [|j] s H; discriminate.
    - destruct (install_sat_ok now alt inc P S k HP HS Hk Hi) as (s & -> & Hs). cbn [bind].
      destruct (IH now alt inc P S (k + 1) HP HS ltac:(lia) Hi) as (l & -> & Hl & Hn). cbn [bind].
      exists (s :: l). split; [reflexivity|]. split; [cbn; lia|].
      intros [|j] s' H; cbn in H.
      + injection H as <-. rewrite Z.add_0_r. exact Hs.
      + replace (k + Z.of_nat (Datatypes.S j)) with (k + 1 + Z.of_nat j) by lia. apply Hn. exact H.
  Qed.

  Lemma InstallOrbit_ok : forall now o, u16 (lo_planes o) -> u16 (lo_sats o) -> installable o ->
    exists l, InstallOrbit prec junk now o = Ok l /\
      Z.of_nat (length l) = lo_planes o * lo_sats o /\
      forall j s, nth_error l j = Some s ->
        is_sat now o (Z.of_nat j / lo_sats o, Z.of_nat j mod lo_sats o) s.
  Proof.
    intros now o HP HS [Hc Hi]. unfold InstallOrbit, is_sat, u16 in *.
    rewrite (Z.mul_comm (lo_sats o)).
    destruct (Z.ltb_spec 2147483647 (lo_planes o * lo_sats o)); [lia|].
    destruct (Z.eq_dec (lo_planes o * lo_sats o) 0) as [E|E].
    - rewrite E. exists []. cbn. repeat split. intros [|j] s H0; discriminate.
    - destruct Hi as [Hi|Hi]; [congruence|].
      assert (HP' : 0 < lo_planes o) by nia. assert (HS' : 0 < lo_sats o) by nia.
      rewrite circ_new_at.
      destruct (install_sats_ok (Z.to_nat (lo_planes o * lo_sats o)) now (lo_alt o) (lo_inc o)
                  (lo_planes o) (lo_sats o) 0) as (l & Hl & Hlen & Hn);
        try (unfold max64; lia); try exact Hi.
      exists l. split; [exact Hl|]. split; [lia|].
      intros j s Hj. specialize (Hn j s Hj). rewrite Z.add_0_l in Hn.
      rewrite slot_small in Hn; [exact Hn|lia|lia|].
      assert (Hj' : (j < length l)%nat) by (apply nth_error_Some; congruence). lia.
  Qed.

  Lemma InstallOrbit_fail : forall now o, u16 (lo_planes o) -> u16 (lo_sats o) -> ~ installable o ->
    InstallOrbit prec junk now o =
      if 2147483647 <? lo_planes o * lo_sats o then UB IntOverflow else Abort AssertFailed.
  Proof.
    intros now o HP HS Hi. unfold InstallOrbit, u16 in *. rewrite (Z.mul_comm (lo_sats o)).
    destruct (Z.ltb_spec 2147483647 (lo_planes o * lo_sats o)); [reflexivity|].
    assert (Hn : lo_planes o * lo_sats o <> 0 /\ neq N (lo_inc o) (nZ N 0) = true).
    { split.
      - intros E. apply Hi. split; [lia|left; exact E].
      - destruct (neq N (lo_inc o) (nZ N 0)) eqn:E; [reflexivity|]. exfalso. apply Hi. split; [lia|right; exact E]. }
    destruct Hn as [Hn E].
    destruct (Z.to_nat (lo_planes o * lo_sats o)) as [|n] eqn:En; [nia|].
    cbn [install_sats]. unfold install_sat. rewrite construct_abort by exact E. reflexivity.
  Qed.

  Lemma nth_first_n : forall A n (f : Z -> A) j, (j < n)%nat ->
    nth_error (first_n n f) j = Some (f (Z.of_nat j)).
  Proof.
    clear prec. intros A n f j Hj. unfold first_n. rewrite nth_error_map, nth_error_nth' with (d := O).
    - rewrite seq_nth by lia. reflexivity.
    - rewrite seq_length. exact Hj.
  Qed.

  Lemma first_n_length : forall A n (f : Z -> A), length (first_n n f) = n.
  Proof. intros. unfold first_n. rewrite map_length, seq_length. reflexivity. Qed.

  Lemma Forall2_nth : forall A B (R : A -> B -> Prop) l1 l2, length l1 = length l2 ->
    (forall j a b, nth_error l1 j = Some a -> nth_error l2 j = Some b -> R a b) -> Forall2 R l1 l2.
  Proof.
    clear prec. induction l1 as [|a l1 IH]; intros [|b l2] Hl H; try discriminate; constructor.
    - apply (H O); reflexivity.
    - apply IH; [cbn in Hl; lia|]. intros j. apply (H (Datatypes.S j)).
  Qed.

  Lemma InstallOrbits_ok : forall now os,
    Forall (fun o => u16 (lo_planes o) /\ u16 (lo_sats o)) os ->
    Forall installable os ->
    exists l, InstallOrbits prec junk now os = Ok l /\
      Forall2 (fun s x => is_sat now (fst x) (snd x) s) l (concat (map satellites os)).
  Proof.
    induction os as [|o r IH]; intros Hu Hi; cbn [InstallOrbits map concat].
    - exists []. split; [reflexivity|constructor].
    - inversion Hu as [|? ? [HP HS] Hu']; subst. inversion Hi as [|? ? H1 H2]; subst.
      destruct (InstallOrbit_ok now o HP HS H1) as (l & -> & Hl & Hn). cbn [bind].
      destruct (IH Hu' H2) as (l' & -> & Hl'). cbn [bind].
      exists (l ++ l'). split; [reflexivity|]. apply Forall2_app; [|exact Hl'].
      apply Forall2_nth.
      + unfold satellites. rewrite first_n_length. lia.
      + intros j s x Hj Hx. unfold satellites in Hx.
        assert (Hj' : (j < length l)%nat) by (apply nth_error_Some; congruence).
        rewrite nth_first_n in Hx by lia. injection Hx as <-. cbn. apply Hn, Hj.
  Qed.

  Lemma InstallOrbits_fail : forall now os,
    Forall (fun o => u16 (lo_planes o) /\ u16 (lo_sats o)) os ->
    ~ Forall installable os ->
    exists o l1 l2, os = l1 ++ o :: l2 /\ Forall installable l1 /\ ~ installable o /\
      InstallOrbits prec junk now os =
        (if 2147483647 <? lo_planes o * lo_sats o then UB IntOverflow else Abort AssertFailed).
  Proof.
    induction os as [|o r IH]; intros Hu Hi.
    - exfalso. apply Hi. constructor.
    - inversion Hu as [|? ? [HP HS] Hu']; subst.
      assert (Hd : installable o \/ ~ installable o).
      { unfold installable. destruct (neq N (lo_inc o) (nZ N 0));
          destruct (Z_le_gt_dec (lo_planes o * lo_sats o) 2147483647);
          destruct (Z.eq_dec (lo_planes o * lo_sats o) 0); try (left; split; [lia|tauto]); right; intros [? [?|?]]; (lia || discriminate). }
      destruct Hd as [Ho|Ho].
      + destruct (IH Hu') as (o' & l1 & l2 & -> & H1 & H2 & H3).
        { intros HF. apply Hi. constructor; assumption. }
        exists o', (o :: l1), l2. split; [reflexivity|]. split; [constructor; assumption|]. split; [exact H2|].
        cbn [InstallOrbits]. destruct (InstallOrbit_ok now o HP HS Ho) as (l & -> & _). cbn [bind].
        rewrite H3. destruct (Z.ltb _ _); reflexivity.
      + exists o, [], r. split; [reflexivity|]. split; [constructor|]. split; [exact Ho|].
        cbn [InstallOrbits]. rewrite InstallOrbit_fail by assumption. destruct (Z.ltb _ _); reflexivity.
  Qed.
End Install.

(** ** Ground grid *)

Lemma InstallGrid_ok : forall N L M, 0 <= L < max32 -> 0 <= M < max32 ->
  exists l : list (vec N), InstallGrid L M = Ok l /\ Z.of_nat (length l) = (L * M) mod max32 /\
    (L < max32 - 1 -> l = first_n (Z.to_nat ((L * M) mod max32)) (fun k => polar_vec N L M (grid L M k))) /\
    (L = max32 - 1 -> l = first_n (Z.to_nat ((L * M) mod max32)) (fun k => polar_vec N L M (k mod max32, 0))).
Proof.
  intros N L M HL HM. unfold InstallGrid, wrap32. fold max32. rewrite (Z.mul_comm M).
  set (n := (L * M) mod max32).
  assert (Hn : 0 <= n) by (apply Z.mod_pos_bound; unfold max32; lia).
  destruct (Z.eq_dec L (max32 - 1)) as [E|E].
  - subst L. unfold polar_new. rewrite polar_calls_wrap by (unfold max32; lia). cbn [bind].
    eexists. split; [reflexivity|]. split; [rewrite map_length, seq_length; lia|]. split; [lia|].
    intros _. unfold first_n. apply map_ext. intros k. rewrite Z.add_0_l. reflexivity.
  - destruct (Z.eq_dec M 0) as [EM|EM].
    + assert (n = 0) by (unfold n; rewrite EM, Z.mul_0_r; reflexivity).
      rewrite H. cbn. exists []. repeat split; auto.
    + destruct (polar_calls_new N (Z.to_nat n) L M ltac:(lia) ltac:(lia)) as (p & ->). cbn [bind].
      eexists. split; [reflexivity|]. split; [rewrite first_n_length; lia|]. split; [reflexivity|lia].
Qed.

(** Which nodes lie on the last meridian. *)
Lemma last_meridian : forall L M k, 0 < L -> 0 < M -> 0 <= k < L * M ->
  (snd (grid L M k) = M - 1 <-> (M - 1) * (L + 1) <= k).
Proof.
  intros L M k HL HM Hk. unfold grid; cbn.
  assert (Hq : k / (L + 1) < M) by (apply Z.div_lt_upper_bound; nia).
  assert (Hq0 : 0 <= k / (L + 1)) by (apply Z.div_pos; lia).
  rewrite Z.mod_small by lia.
  pose proof (Z.div_mod k (L + 1) ltac:(lia)). pose proof (Z.mod_pos_bound k (L + 1) ltac:(lia)).
  split; intros; nia.
Qed.
