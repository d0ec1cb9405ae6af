Require Import ZArith Reals Lra Lia List Bool.
From Flocq Require Import Core.Core IEEE754.BinarySingleNaN.
Require Import Verif.Base Verif.Num Verif.NumR Verif.Num64 Verif.Vec Verif.OrbitModel Verif.MobilityModel
  Verif.AllocModel Verif.GeomSpec Verif.OrbitSpec Verif.MobilitySpec Verif.AllocSpec
  Verif.OrbitProofs Verif.MobilityProofs Verif.OrbitApiProofs Verif.AllocProofs Verif.Alloc64Proofs.
Import ListNotations.
Local Open Scope Z_scope.

Lemma first_n_ext : forall A n (f g : Z -> A), (forall k, f k = g k) -> first_n n f = first_n n g.
Proof. intros. unfold first_n. apply map_ext. auto. Qed.

Lemma nth_first_n_inv : forall A n (f : Z -> A) i u, nth_error (first_n n f) i = Some u ->
  u = f (Z.of_nat i) /\ (i < n)%nat.
Proof.
  intros A n f i u H.
  assert (Hl : (i < n)%nat) by (rewrite <- (first_n_length _ n f); apply nth_error_Some; congruence).
  rewrite nth_first_n in H by exact Hl. injection H as <-. split; [reflexivity|exact Hl].
Qed.

Lemma circ_enumeration : forall n P S, 0 < P <= 65535 -> 0 < S <= 65535 ->
  exists c, @circ_calls NumR n (circ_new P S) =
    Ok (first_n n (fun k => slot_vector P S ((k / S) mod P, k mod S)), c).
Proof.
  intros n P S HP HS. destruct (circ_calls_new NumR n P S) as (c & H); try (unfold max64; lia).
  exists c. exact H.
Qed.

Lemma calls_nth : forall N n P S l c i u, 0 < P <= 65535 -> 0 < S <= 65535 ->
  @circ_calls N n (circ_new P S) = Ok (l, c) -> nth_error l i = Some u ->
  u = circ_vec N P S (slot P S (Z.of_nat i)) /\ (i < n)%nat.
Proof.
  intros N n P S l c i u HP HS H Hi.
  destruct (circ_calls_new N n P S) as (c' & H'); try (unfold max64; lia).
  rewrite H' in H. injection H as <- _. exact (nth_first_n_inv _ _ _ _ _ Hi).
Qed.

Lemma calls_length : forall N n P S l c, 0 < P <= 65535 -> 0 < S <= 65535 ->
  @circ_calls N n (circ_new P S) = Ok (l, c) -> length l = n.
Proof.
  intros N n P S l c HP HS H.
  destruct (circ_calls_new N n P S) as (c' & H'); try (unfold max64; lia).
  rewrite H' in H. injection H as <- _. apply first_n_length.
Qed.

Lemma circ_distinct : forall n P S l c i j u v, 0 < P <= 65535 -> 0 < S <= 65535 ->
  @circ_calls NumR n (circ_new P S) = Ok (l, c) ->
  (i < j)%nat -> Z.of_nat j < Z.of_nat i + P * S ->
  nth_error l i = Some u -> nth_error l j = Some v -> u <> v.
Proof.
  intros n P S l c i j u v HP HS H Hij Hj Hu Hv E.
  destruct (calls_nth _ _ _ _ _ _ _ _ HP HS H Hu) as [Eu _].
  destruct (calls_nth _ _ _ _ _ _ _ _ HP HS H Hv) as [Ev _].
  rewrite circ_vec_R in Eu, Ev. subst u v. symmetry in Ev.
  assert (X : slot P S (Z.of_nat i) = slot P S (Z.of_nat j)) by (apply (slot_vector_inj P S); [lia|lia|congruence]).
  apply slot_inj in X; lia.
Qed.

Lemma circ_distinct_64 : forall fs fc ft n P S l c i j (u v : vec (Num64 fs fc ft)),
  0 < P <= 65535 -> 0 < S <= 65535 ->
  circ_calls n (circ_new P S) = Ok (l, c) ->
  (i < j)%nat -> Z.of_nat j < Z.of_nat i + P * S ->
  nth_error l i = Some u -> nth_error l j = Some v ->
  is_finite (vx u : b64) = true /\ is_finite (vy u : b64) = true /\
  (B2R (vx u : b64) <> B2R (vx v : b64) \/ B2R (vy u : b64) <> B2R (vy v : b64)).
Proof.
  intros fs fc ft n P S l c i j u v HP HS H Hij Hj Hu Hv.
  destruct (calls_nth _ _ _ _ _ _ _ _ HP HS H Hu) as [Eu _].
  destruct (calls_nth _ _ _ _ _ _ _ _ HP HS H Hv) as [Ev _].
  rewrite circ_vec_64 in Eu, Ev. subst u v. cbn [vx vy].
  destruct (slot_range P S (Z.of_nat i) ltac:(lia) ltac:(lia)) as [R1 R2].
  destruct (slot_range P S (Z.of_nat j) ltac:(lia) ltac:(lia)) as [R3 R4].
  split; [apply turn64_R; lia|]. split; [apply turn64_R; lia|].
  destruct (Z.eq_dec (fst (slot P S (Z.of_nat i))) (fst (slot P S (Z.of_nat j)))) as [E1|E1].
  - right. intros E. apply turn64_inj in E; try lia.
    assert (X : slot P S (Z.of_nat i) = slot P S (Z.of_nat j)).
    { clear - E E1. destruct (slot P S (Z.of_nat i)), (slot P S (Z.of_nat j)). cbn [fst snd] in E, E1. congruence. }
    apply slot_inj in X; lia.
  - left. intros E. apply turn64_inj in E; try lia.
Qed.

Lemma circ_cover : forall n P S l c i p s, 0 < P <= 65535 -> 0 < S <= 65535 ->
  @circ_calls NumR n (circ_new P S) = Ok (l, c) ->
  Z.of_nat i + P * S <= Z.of_nat n -> 0 <= p < P -> 0 <= s < S ->
  exists k, (i <= k)%nat /\ Z.of_nat k < Z.of_nat i + P * S /\
    nth_error l k = Some (pt (turn p P) (turn s S) 0).
Proof.
  intros n P S l c i p s HP HS H Hi Hp Hs.
  destruct (slot_surj P S (Z.of_nat i) p s) as (k & Hk & E); try lia.
  exists (Z.to_nat k). split; [lia|]. split; [lia|].
  destruct (circ_calls_new NumR n P S) as (c' & H'); try (unfold max64; lia).
  rewrite H' in H. injection H as <- _.
  rewrite nth_first_n by lia. rewrite Z2Nat.id, E by lia. reflexivity.
Qed.

Lemma circ_period : forall n P S l c i u v, 0 < P <= 65535 -> 0 < S <= 65535 ->
  @circ_calls NumR n (circ_new P S) = Ok (l, c) ->
  nth_error l i = Some u -> nth_error l (i + Z.to_nat (P * S)) = Some v -> u = v.
Proof.
  intros n P S l c i u v HP HS H Hu Hv.
  destruct (calls_nth _ _ _ _ _ _ _ _ HP HS H Hu) as [-> _].
  destruct (calls_nth _ _ _ _ _ _ _ _ HP HS H Hv) as [-> _].
  f_equal. rewrite <- (slot_periodic P S (Z.of_nat i)) by lia. f_equal. nia.
Qed.

Lemma polar_enumeration : forall n L M, 0 < L < 4294967295 -> 0 < M < 4294967296 ->
  exists p, @polar_calls NumR n (polar_new L M) =
    Ok (first_n n (fun k => grid_point L M (k mod (L + 1), (k / (L + 1)) mod M)), p).
Proof.
  intros n L M HL HM. destruct (polar_calls_new NumR n L M) as (p & H); try (unfold max32; lia).
  exists p. rewrite H. do 2 f_equal. apply first_n_ext. intros k. apply polar_vec_R.
Qed.

(** The largest LatNum. *)
Lemma polar_stuck : forall n M,
  exists p, @polar_calls NumR n (polar_new 4294967295 M) =
    Ok (first_n n (fun k => grid_point 4294967295 M (k mod 4294967296, 0)), p).
Proof.
  intros n M. unfold polar_new.
  pose proof (polar_calls_wrap NumR n M 0 ltac:(unfold max32; lia)) as H. change (max32 - 1) with 4294967295 in H.
  eexists. rewrite H. do 2 f_equal. unfold first_n. apply map_ext. intros k.
  rewrite polar_vec_R, Z.add_0_l. reflexivity.
Qed.

Lemma polar_output_cases : forall n L M l p i u, 0 < L < 4294967296 -> 0 < M < 4294967296 ->
  @polar_calls NumR n (polar_new L M) = Ok (l, p) -> nth_error l i = Some u ->
  exists r c, r = Z.of_nat i mod (L + 1) /\ u = grid_point L M (r, c).
Proof.
  intros n L M l p i u HL HM H Hu.
  destruct (Z.eq_dec L 4294967295) as [->|E].
  - destruct (polar_stuck n M) as (p' & H'). rewrite H' in H. injection H as <- _.
    destruct (nth_first_n_inv _ _ _ _ _ Hu) as [-> _]. eexists _, _. split; reflexivity.
  - destruct (polar_enumeration n L M ltac:(lia) HM) as (p' & H'). rewrite H' in H. injection H as <- _.
    destruct (nth_first_n_inv _ _ _ _ _ Hu) as [-> _]. eexists _, _. split; reflexivity.
Qed.

Lemma polar_on_sphere : forall n L M l p i u, 0 < L < 4294967296 -> 0 < M < 4294967296 ->
  @polar_calls NumR n (polar_new L M) = Ok (l, p) -> nth_error l i = Some u ->
  norm u = 6371000%R /\
  (Z.of_nat i mod (L + 1) = 0 -> u = north_pole) /\
  (Z.of_nat i mod (L + 1) = L -> u = south_pole).
Proof.
  intros n L M l p i u HL HM H Hu.
  destruct (polar_output_cases n L M l p i u HL HM H Hu) as (r & c & Hr & ->). rewrite <- Hr.
  split; [apply sphere_norm|]. split; intros ->.
  - apply grid_north.
  - apply grid_south. lia.
Qed.

(** Away from the poles one round of the grid has no repetition. *)
Lemma polar_distinct : forall n L M l p i j u v, 0 < L < 4294967295 -> 0 < M < 4294967296 ->
  @polar_calls NumR n (polar_new L M) = Ok (l, p) ->
  i <> j -> Z.of_nat i < (L + 1) * M -> Z.of_nat j < (L + 1) * M ->
  0 < Z.of_nat i mod (L + 1) < L ->
  nth_error l i = Some u -> nth_error l j = Some v -> u <> v.
Proof.
  intros n L M l p i j u v HL HM H Hij Hi Hj Hr Hu Hv E.
  destruct (polar_enumeration n L M HL HM) as (p' & H'). rewrite H' in H. injection H as <- _.
  set (f := fun k => grid_point L M (k mod (L + 1), (k / (L + 1)) mod M)) in *.
  destruct (nth_first_n_inv _ _ _ _ _ Hu) as [Eu _]. destruct (nth_first_n_inv _ _ _ _ _ Hv) as [Ev _].
  rewrite Eu, Ev in E.
  unfold f in E.
  pose proof (Z.mod_pos_bound (Z.of_nat j) (L + 1) ltac:(lia)).
  pose proof (Z.mod_pos_bound (Z.of_nat i / (L + 1)) M ltac:(lia)).
  pose proof (Z.mod_pos_bound (Z.of_nat j / (L + 1)) M ltac:(lia)).
  apply grid_inj in E; [|lia|lia|lia|lia|lia|lia]. destruct E as [E1 E2].
  assert (Hqi : 0 <= Z.of_nat i / (L + 1) < M) by (split; [apply Z.div_pos; lia|apply Z.div_lt_upper_bound; lia]).
  assert (Hqj : 0 <= Z.of_nat j / (L + 1) < M) by (split; [apply Z.div_pos; lia|apply Z.div_lt_upper_bound; lia]).
  rewrite !Z.mod_small in E2 by lia.
  pose proof (Z.div_mod (Z.of_nat i) (L + 1) ltac:(lia)) as D1.
  pose proof (Z.div_mod (Z.of_nat j) (L + 1) ltac:(lia)) as D2.
  apply Hij. apply Nat2Z.inj. rewrite D1, D2, E1, E2. reflexivity.
Qed.

(** ** Failures, for every state *)
Lemma circ_state_fail : forall N (c : circ), 0 <= c_lastSat c < 18446744073709551616 ->
  (is_ok (@CircGetNext N c) = false <->
   c_numSats c = 0 \/ (c_numOrbits c = 0 /\ (c_lastSat c + 1) mod 18446744073709551616 = c_numSats c)) /\
  (is_ok (@CircGetNext N c) = false -> @CircGetNext N c = UB DivByZero).
Proof.
  intros N [P S o s]; cbn [c_numSats c_numOrbits c_lastSat]. intros Hs. unfold CircGetNext, wrap64; cbn [c_numSats c_numOrbits c_lastSat c_lastOrbit].
  destruct (Z.eqb_spec ((s + 1) mod 18446744073709551616) S) as [E|E].
  - destruct (Z.eqb_spec P 0) as [E1|E1]; cbn [bind].
    + cbn. split; [split; auto|reflexivity].
    + destruct (Z.eqb_spec S 0) as [E2|E2]; cbn.
      * split; [split; auto|reflexivity].
      * split; [split; [discriminate|intros [X|[X _]]; congruence]|discriminate].
  - cbn [bind]. destruct (Z.eqb_spec S 0) as [E2|E2]; cbn.
    + split; [split; auto|reflexivity].
    + split; [split; [discriminate|intros [X|[_ X]]; congruence]|discriminate].
Qed.

Lemma polar_state_fail : forall N (p : polar), 0 <= p_lat p < 4294967296 ->
  (is_ok (@PolarGetNext N p) = false <->
   p_lonNum p = 0 /\ p_latNum p < (p_lat p + 1) mod 4294967296) /\
  (is_ok (@PolarGetNext N p) = false -> @PolarGetNext N p = UB DivByZero).
Proof.
  intros N [L M la lo]; cbn [p_latNum p_lonNum p_lat]. intros Hs. unfold PolarGetNext, wrap32; cbn [p_latNum p_lonNum p_lat p_lon].
  destruct (Z.ltb_spec L ((la + 1) mod 4294967296)) as [E|E].
  - destruct (Z.eqb_spec M 0) as [E1|E1]; cbn.
    + split; [split; auto|reflexivity].
    + split; [split; [discriminate|intros [? ?]; congruence]|discriminate].
  - cbn. split; [split; [discriminate|lia]|discriminate].
Qed.

(** ** Installed satellites *)
Lemma installed_sat : forall prec (junk : point) now (o : leoorbit NumR) ps s,
  is_sat NumR prec junk now o ps s ->
  s_now s = now /\ m_precision s = prec /\
  GetAltitude s = Some (lo_alt o) /\ GetInclination s = Some (lo_inc o) /\
  DoGetPosition junk s =
    trajectory (earth_radius_km + lo_alt o) (lo_inc o * PI / 180)
               (turn (fst ps) (lo_planes o)) (turn (snd ps) (lo_sats o)) (sec now).
Proof.
  intros prec junk now o ps s H. unfold is_sat in H.
  destruct (api_altitude _ _ _ _ _ _ _ H) as [HA HI].
  destruct (reached_start _ _ _ _ _ _ _ _ H) as (s0 & HR & A & B & _ & _ & P & Nw & _).
  cbn [mrun mstep bind] in HR. injection HR as <-.
  unfold DoSetPosition, Update, position_now, orbit_of in *. cbn [m_height m_incl fst] in *.
  rewrite A, B in *. cbn [fst s_now m_precision] in *.
  split; [exact Nw|]. split; [exact P|]. split; [exact HA|]. split; [exact HI|].
  unfold DoGetPosition. cbn [m_precision m_position m_lon m_off s_now].
  destruct (Z.eqb _ 0); unfold position_now, orbit_of; cbn [m_height m_incl m_lon m_off s_now fst m_position];
    rewrite ?A, ?B, Nw; cbn [fst]; rewrite trajectory_at; cbn [o_height o_incl o_lon o_off];
    rewrite height_R, radians_R; reflexivity.
Qed.

Lemma install_orbits_R : forall prec (junk : point) now (os : list (leoorbit NumR)),
  Forall (fun o => u16 (lo_planes o) /\ u16 (lo_sats o)) os -> Forall installable os ->
  exists l, InstallOrbits prec junk now os = Ok l /\
    Forall2 (fun (s : mob NumR) x =>
      let o := fst x in let ps := snd x in
      s_now s = now /\ m_precision s = prec /\
      GetAltitude s = Some (lo_alt o) /\ GetInclination s = Some (lo_inc o) /\
      DoGetPosition junk s =
        trajectory (earth_radius_km + lo_alt o) (lo_inc o * PI / 180)
               (turn (fst ps) (lo_planes o)) (turn (snd ps) (lo_sats o)) (sec now))
      l (concat (map satellites os)).
Proof.
  intros prec junk now os Hu Hi. destruct (InstallOrbits_ok NumR prec junk now os Hu Hi) as (l & Hl & HF).
  exists l. split; [exact Hl|]. clear Hl. induction HF as [|s x l' xs H1 H2 IH]; constructor; [|exact IH].
  apply installed_sat, H1.
Qed.

Lemma installable_iff : forall prec (junk : point) now (os : list (leoorbit NumR)),
  Forall (fun o => u16 (lo_planes o) /\ u16 (lo_sats o)) os ->
  (is_ok (InstallOrbits prec junk now os) = true <-> Forall installable os).
Proof.
  intros prec junk now os Hu. split; intros H.
  - destruct (Forall_dec (@installable NumR)) with (l := os) as [F|F]; [|exact F|].
    + intros o. unfold installable.
      destruct (Z_le_gt_dec (lo_planes o * lo_sats o) 2147483647);
      destruct (Z.eq_dec (lo_planes o * lo_sats o) 0);
      destruct (bool_dec (neq NumR (lo_inc o) (nZ NumR 0)) false) as [E|E];
      try (left; split; [lia|tauto]); right; intros [? [?|?]]; (lia || congruence).
    + exfalso. destruct (InstallOrbits_fail NumR prec junk now os Hu F) as (o & l1 & l2 & _ & _ & _ & E).
      rewrite E in H. destruct (Z.ltb _ _); discriminate.
  - destruct (InstallOrbits_ok NumR prec junk now os Hu H) as (l & -> & _). reflexivity.
Qed.

(** ** Ground grid *)
Lemma grid_install : forall L M, 0 < L < 4294967295 -> 0 < M < 4294967296 ->
  exists l, @InstallGrid NumR L M = Ok l /\ Z.of_nat (length l) = (L * M) mod 4294967296 /\
    forall i u, nth_error l i = Some u ->
      u = grid_point L M (Z.of_nat i mod (L + 1), (Z.of_nat i / (L + 1)) mod M).
Proof.
  intros L M HL HM. destruct (InstallGrid_ok NumR L M) as (l & H1 & H2 & H3 & _); try (unfold max32; lia).
  exists l. split; [exact H1|]. split; [exact H2|]. intros i u Hi.
  rewrite H3 in Hi by (unfold max32; lia).
  destruct (nth_first_n_inv _ _ _ _ _ Hi) as [-> _]. apply polar_vec_R.
Qed.

Lemma grid_install_total : forall L M, 0 <= L < 4294967296 -> 0 <= M < 4294967296 ->
  exists l, @InstallGrid NumR L M = Ok l /\ Z.of_nat (length l) = (L * M) mod 4294967296.
Proof.
  intros L M HL HM. destruct (InstallGrid_ok NumR L M) as (l & H1 & H2 & _); try (unfold max32; lia).
  exists l. split; assumption.
Qed.

(** Nodes on the last meridian: exactly those numbered from (M-1)(L+1). *)
Lemma grid_last_meridian : forall L M i, 0 < L -> 0 < M -> 0 <= i < L * M ->
  ((i / (L + 1)) mod M = M - 1 <-> (M - 1) * (L + 1) <= i).
Proof. intros. apply (last_meridian L M i); assumption. Qed.
