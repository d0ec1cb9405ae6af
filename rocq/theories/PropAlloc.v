(** C11-C19: position allocators, constellations, ground stations.
    [circ_calls n (circ_new P S)] are the results of n GetNext calls on a new
    LeoCircularOrbitAllocator with NumOrbits P and NumSatellites S; [polar_calls]
    likewise for LeoPolarPositionAllocator. *)
Require Import ZArith Reals Lra Lia List.
From Flocq Require Import Core.Core IEEE754.BinarySingleNaN.
Require Import Verif.Base Verif.Num Verif.NumR Verif.Num64 Verif.Vec Verif.OrbitModel Verif.MobilityModel
  Verif.AllocModel Verif.GeomSpec Verif.OrbitSpec Verif.AllocSpec
  Verif.OrbitApiProofs Verif.AllocProofs Verif.AllocApiProofs.
Import ListNotations.
Local Open Scope Z_scope.

(** ** C11 *)
Theorem C11_circular_enumeration : forall n P S, 0 < P <= 65535 -> 0 < S <= 65535 ->
  exists c, @circ_calls NumR n (circ_new P S) =
    Ok (first_n n (fun k => slot_vector P S ((k / S) mod P, k mod S)), c).
Proof. exact circ_enumeration. Qed.
Print Assumptions C11_circular_enumeration.

(** Two planes of three satellites, eight calls. *)
Example ex_C11 : map (slot 2 3) [0; 1; 2; 3; 4; 5; 6; 7] =
  [(0,0); (0,1); (0,2); (1,0); (1,1); (1,2); (0,0); (0,1)].
Proof. reflexivity. Qed.

(** ** C12 *)
Theorem C12_round_distinct : forall n P S l c i j u v, 0 < P <= 65535 -> 0 < S <= 65535 ->
  @circ_calls NumR n (circ_new P S) = Ok (l, c) ->
  (i < j)%nat -> Z.of_nat j < Z.of_nat i + P * S ->
  nth_error l i = Some u -> nth_error l j = Some v -> u <> v.
Proof. exact circ_distinct. Qed.
Print Assumptions C12_round_distinct.

Theorem C12_round_covers : forall n P S l c i p s, 0 < P <= 65535 -> 0 < S <= 65535 ->
  @circ_calls NumR n (circ_new P S) = Ok (l, c) ->
  Z.of_nat i + P * S <= Z.of_nat n -> 0 <= p < P -> 0 <= s < S ->
  exists k, (i <= k)%nat /\ Z.of_nat k < Z.of_nat i + P * S /\
    nth_error l k = Some (pt (turn p P) (turn s S) 0).
Proof. exact circ_cover. Qed.
Print Assumptions C12_round_covers.

Theorem C12_periodic : forall n P S l c i u v, 0 < P <= 65535 -> 0 < S <= 65535 ->
  @circ_calls NumR n (circ_new P S) = Ok (l, c) ->
  nth_error l i = Some u -> nth_error l (i + Z.to_nat (P * S)) = Some v -> u = v.
Proof. exact circ_period. Qed.
Print Assumptions C12_periodic.

Theorem C12_distinct_binary64 : forall fsin fcos ftan n P S l c i j (u v : vec (Num64 fsin fcos ftan)),
  0 < P <= 65535 -> 0 < S <= 65535 ->
  circ_calls n (circ_new P S) = Ok (l, c) ->
  (i < j)%nat -> Z.of_nat j < Z.of_nat i + P * S ->
  nth_error l i = Some u -> nth_error l j = Some v ->
  is_finite (vx u : b64) = true /\ is_finite (vy u : b64) = true /\
  (B2R (vx u : b64) <> B2R (vx v : b64) \/ B2R (vy u : b64) <> B2R (vy v : b64)).
Proof. exact circ_distinct_64. Qed.
Print Assumptions C12_distinct_binary64.

(** The hypotheses are met: calls succeed and return as many vectors as made. *)
Example ex_C12 : exists l c, @circ_calls NumR 100 (circ_new 7 9) = Ok (l, c) /\ length l = 100%nat /\
  Z.of_nat 72 < Z.of_nat 10 + 7 * 9.
Proof.
  destruct (circ_enumeration 100 7 9) as (c & H); [lia|lia|].
  eexists _, c. split; [exact H|]. split; [apply first_n_length|lia].
Qed.

(** ** C13 *)
Theorem C13_polar_enumeration : forall n L M, 0 < L < 4294967295 -> 0 < M < 4294967296 ->
  exists p, @polar_calls NumR n (polar_new L M) =
    Ok (first_n n (fun k => grid_point L M (k mod (L + 1), (k / (L + 1)) mod M)), p).
Proof. exact polar_enumeration. Qed.
Print Assumptions C13_polar_enumeration.

(** With LatNum = 2^32-1 the row counter wraps around and no other meridian is
    ever reached. *)
Theorem C13_largest_latnum : forall n M,
  exists p, @polar_calls NumR n (polar_new 4294967295 M) =
    Ok (first_n n (fun k => grid_point 4294967295 M (k mod 4294967296, 0)), p).
Proof. exact polar_stuck. Qed.
Print Assumptions C13_largest_latnum.

Theorem C13_distinct_off_poles : forall n L M l p i j u v, 0 < L < 4294967295 -> 0 < M < 4294967296 ->
  @polar_calls NumR n (polar_new L M) = Ok (l, p) ->
  i <> j -> Z.of_nat i < (L + 1) * M -> Z.of_nat j < (L + 1) * M ->
  0 < Z.of_nat i mod (L + 1) < L ->
  nth_error l i = Some u -> nth_error l j = Some v -> u <> v.
Proof. exact polar_distinct. Qed.
Print Assumptions C13_distinct_off_poles.

(** Two intervals of latitude (three rows) on two meridians. *)
Example ex_C13 : map (grid 2 2) [0; 1; 2; 3; 4; 5; 6] =
  [(0,0); (1,0); (2,0); (0,1); (1,1); (2,1); (0,0)].
Proof. reflexivity. Qed.

(** ** C14 *)
Theorem C14_polar_on_sphere : forall n L M l p i u, 0 < L < 4294967296 -> 0 < M < 4294967296 ->
  @polar_calls NumR n (polar_new L M) = Ok (l, p) -> nth_error l i = Some u ->
  norm u = 6371000%R /\
  (Z.of_nat i mod (L + 1) = 0 -> u = north_pole) /\
  (Z.of_nat i mod (L + 1) = L -> u = south_pole).
Proof. exact polar_on_sphere. Qed.
Print Assumptions C14_polar_on_sphere.

Example ex_C14 : exists l p u, @polar_calls NumR 12 (polar_new 2 4) = Ok (l, p) /\
  nth_error l 7 = Some u /\ norm u = 6371000%R.
Proof.
  destruct (polar_enumeration 12 2 4) as (p & H); [lia|lia|].
  eexists _, p, _. split; [exact H|]. split; [reflexivity|]. apply (proj1 (C14_polar_on_sphere 12 2 4 _ p 7 _ ltac:(lia) ltac:(lia) H eq_refl)).
Qed.

(** ** C15, for every state of the counters and for every number of calls *)
Theorem C15_circular_failure : forall N (c : circ), 0 <= c_lastSat c < 2 ^ 64 ->
  (is_ok (@CircGetNext N c) = false <->
   c_numSats c = 0 \/ (c_numOrbits c = 0 /\ (c_lastSat c + 1) mod 2 ^ 64 = c_numSats c)) /\
  (is_ok (@CircGetNext N c) = false -> @CircGetNext N c = UB DivByZero).
Proof. exact circ_state_fail. Qed.
Print Assumptions C15_circular_failure.

Theorem C15_polar_failure : forall N (p : polar), 0 <= p_lat p < 2 ^ 32 ->
  (is_ok (@PolarGetNext N p) = false <->
   p_lonNum p = 0 /\ p_latNum p < (p_lat p + 1) mod 2 ^ 32) /\
  (is_ok (@PolarGetNext N p) = false -> @PolarGetNext N p = UB DivByZero).
Proof. exact polar_state_fail. Qed.
Print Assumptions C15_polar_failure.

Theorem C15_circular_calls : forall N n P S, 0 <= P < 2 ^ 64 -> 0 <= S < 2 ^ 64 ->
  (is_ok (@circ_calls N n (circ_new P S)) = true <->
   n = O \/ (0 < S /\ (0 < P \/ Z.of_nat n < S))) /\
  (is_ok (@circ_calls N n (circ_new P S)) = false -> @circ_calls N n (circ_new P S) = UB DivByZero).
Proof. exact circ_ok_iff. Qed.
Print Assumptions C15_circular_calls.

Theorem C15_polar_calls : forall N n L M, 0 <= L < 2 ^ 32 -> 0 <= M < 2 ^ 32 ->
  (is_ok (@polar_calls N n (polar_new L M)) = true <->
   0 < M \/ Z.of_nat n <= L \/ L = 2 ^ 32 - 1) /\
  (is_ok (@polar_calls N n (polar_new L M)) = false -> @polar_calls N n (polar_new L M) = UB DivByZero).
Proof. exact polar_ok_iff. Qed.
Print Assumptions C15_polar_calls.

(** NumOrbits = 0 and NumSatellites = 3: the third call fails, the second does not. *)
Example ex_C15 : is_ok (@circ_calls NumR 2 (circ_new 0 3)) = true /\
  @circ_calls NumR 3 (circ_new 0 3) = UB DivByZero.
Proof. split; reflexivity. Qed.

(** ** C16 *)
Theorem C16_constellation : forall prec (junk : point) now (os : list (leoorbit NumR)),
  Forall (fun o => u16 (lo_planes o) /\ u16 (lo_sats o)) os -> Forall installable os ->
  exists l, InstallOrbits prec junk now os = Ok l /\
    Forall2 (fun (s : mob NumR) x =>
      let o := fst x in let ps := snd x in
      s_now s = now /\ m_precision s = prec /\
      GetAltitude s = Some (lo_alt o) /\ GetInclination s = Some (lo_inc o) /\
      DoGetPosition junk s =
        trajectory (earth_radius_km + lo_alt o) (lo_inc o * PI / 180)
               (turn (fst ps) (lo_planes o)) (turn (snd ps) (lo_sats o)) (sec now))
      l (concat (map satellites os)).
Proof. exact install_orbits_R. Qed.
Print Assumptions C16_constellation.

(** Otherwise the first orbit that cannot be installed decides. *)
Theorem C16_failure : forall prec (junk : point) now (os : list (leoorbit NumR)),
  Forall (fun o => u16 (lo_planes o) /\ u16 (lo_sats o)) os -> ~ Forall installable os ->
  exists o l1 l2, os = l1 ++ o :: l2 /\ Forall installable l1 /\ ~ installable o /\
    InstallOrbits prec junk now os =
      (if 2147483647 <? lo_planes o * lo_sats o then UB IntOverflow else Abort AssertFailed).
Proof. exact (InstallOrbits_fail NumR). Qed.
Print Assumptions C16_failure.

Theorem C16_success_iff : forall prec (junk : point) now (os : list (leoorbit NumR)),
  Forall (fun o => u16 (lo_planes o) /\ u16 (lo_sats o)) os ->
  (is_ok (InstallOrbits prec junk now os) = true <-> Forall installable os).
Proof. exact installable_iff. Qed.
Print Assumptions C16_success_iff.

(** Two orbits, 2 x 2 and 1 x 3. *)
Definition ex_orbits : list (leoorbit NumR) :=
  [mkLeoOrbit (550%R : num NumR) (53%R : num NumR) 2 2; mkLeoOrbit (1200%R : num NumR) (87%R : num NumR) 1 3].
Example ex_C16 :
  Forall (fun o => u16 (lo_planes o) /\ u16 (lo_sats o)) ex_orbits /\ Forall installable ex_orbits /\
  map snd (concat (map satellites ex_orbits)) = [(0,0); (0,1); (1,0); (1,1); (0,0); (0,1); (0,2)].
Proof.
  split; [|split; [|reflexivity]].
  - repeat constructor; cbn; lia.
  - apply Forall_cons; [|apply Forall_cons; [|apply Forall_nil]];
      (split; [cbn; lia|right; apply Reqb_false; cbn; lra]).
Qed.

(** ** C17 *)
Theorem C17_ground_grid : forall L M, 0 < L < 2 ^ 32 - 1 -> 0 < M < 2 ^ 32 ->
  exists l, @InstallGrid NumR L M = Ok l /\ Z.of_nat (length l) = (L * M) mod 2 ^ 32 /\
    forall i u, nth_error l i = Some u ->
      u = grid_point L M (Z.of_nat i mod (L + 1), (Z.of_nat i / (L + 1)) mod M).
Proof. exact grid_install. Qed.
Print Assumptions C17_ground_grid.

Theorem C17_ground_grid_count : forall L M, 0 <= L < 2 ^ 32 -> 0 <= M < 2 ^ 32 ->
  exists l, @InstallGrid NumR L M = Ok l /\ Z.of_nat (length l) = (L * M) mod 2 ^ 32.
Proof. exact grid_install_total. Qed.
Print Assumptions C17_ground_grid_count.

(** Without wrap-around, of the L*M nodes only those numbered from (M-1)*(L+1)
    lie on the last meridian: max(0, L+1-M) nodes. *)
Theorem C17_last_meridian : forall L M i, 0 < L -> 0 < M -> 0 <= i < L * M ->
  ((i / (L + 1)) mod M = M - 1 <-> (M - 1) * (L + 1) <= i).
Proof. exact grid_last_meridian. Qed.
Print Assumptions C17_last_meridian.

(** Distinct nodes at the same place: nodes 0 and L+1, both at the north pole. *)
Theorem C17_poles_shared : forall L M, 0 < L < 2 ^ 32 - 1 -> 0 < M < 2 ^ 32 -> L * M < 2 ^ 32 -> L + 1 < L * M ->
  exists l, @InstallGrid NumR L M = Ok l /\
    nth_error l 0 = Some north_pole /\ nth_error l (Z.to_nat (L + 1)) = Some north_pole.
Proof.
  intros L M HL HM Hp Hlt. destruct (grid_install L M HL HM) as (l & H1 & H2 & H3).
  exists l. split; [exact H1|].
  assert (Hlen : Z.of_nat (length l) = L * M) by (rewrite H2; apply Z.mod_small; nia).
  assert (Hn : forall i, (i < length l)%nat -> Z.of_nat i mod (L + 1) = 0 -> nth_error l i = Some north_pole).
  { intros i Hi Hm. destruct (nth_error l i) as [u|] eqn:E.
    - rewrite (H3 i u E), Hm, grid_north. reflexivity.
    - apply nth_error_None in E. lia. }
  split; apply Hn; try lia; try reflexivity.
  rewrite Z2Nat.id by lia. apply Z_mod_same_full.
Qed.
Print Assumptions C17_poles_shared.

(** 10 x 10 as in the default attributes: 100 nodes, of which one is on the last
    meridian (node 99). *)
Example ex_C17 : (9 * 11 <= 99) /\ (10 * 10) mod 2 ^ 32 = 100 /\ grid 10 10 99 = (0, 9).
Proof. repeat split; lia. Qed.

(** ** C18 *)
Theorem C18_earth_position : forall lat lon : R,
  let p : point := @GetEarthPosition NumR (@mkLatLong NumR lat lon) in
  (norm p = 6371000 /\
   pz p = 6371000 * cos (2 * (lat * PI / 180)) /\
   pz p = pz (@GetEarthPosition NumR (@mkLatLong NumR (- lat) lon)))%R.
Proof.
  intros lat lon p. unfold p. rewrite !earth_position_R. split; [apply sphere_norm|].
  unfold sphere_point, pt, pz, ground_radius; cbn [vz].
  replace (2 * - lat * PI / 180)%R with (- (2 * lat * PI / 180))%R by field. rewrite cos_neg.
  split; [|reflexivity]. do 2 f_equal. field.
Qed.
Print Assumptions C18_earth_position.

(** Only at 30 degrees north and at the south pole is the result the place with
    the given geographic coordinates. *)
Theorem C18_correct_latitudes : forall lat lon : R, (-90 <= lat <= 90)%R ->
  (@GetEarthPosition NumR (@mkLatLong NumR lat lon) = geographic lat lon <-> (lat = 30 \/ lat = -90)%R).
Proof. exact earth_position_correct_iff. Qed.
Print Assumptions C18_correct_latitudes.

Theorem C18_equator_and_45 : forall lon : R,
  @GetEarthPosition NumR (@mkLatLong NumR 0%R lon) = north_pole /\
  pz (@GetEarthPosition NumR (@mkLatLong NumR 45%R lon)) = 0%R.
Proof.
  intros lon. rewrite !earth_position_R. unfold sphere_point, north_pole, pt, pz; cbn [vz]. split.
  - replace (2 * 0 * PI / 180)%R with 0%R by field. rewrite sin_0, cos_0.
    f_equal; change (num NumR) with R; ring.
  - replace (2 * 45 * PI / 180)%R with (PI / 2)%R by field. rewrite cos_PI2. apply Rmult_0_r.
Qed.
Print Assumptions C18_equator_and_45.

Theorem C18_geographic_refuted : exists lat lon : R,
  @GetEarthPosition NumR (@mkLatLong NumR lat lon) <> geographic lat lon.
Proof.
  exists 0%R, 0%R. intros E. apply earth_position_correct_iff in E; [|lra]. destruct E; lra.
Qed.
Print Assumptions C18_geographic_refuted.

(** ** C19 *)
Theorem C19_locations : forall l : list (latlong NumR),
  length (InstallLocations l) = length l /\
  forall i loc, nth_error l i = Some loc ->
    nth_error (InstallLocations l) i =
      Some (sphere_point (2 * (ll_lat loc) * PI / 180)%R (ll_lon loc * PI / 180)%R).
Proof.
  intros l. rewrite InstallLocations_map. split; [apply map_length|].
  intros i [la lo] H. rewrite nth_error_map, H. cbn [option_map]. f_equal. apply earth_position_R.
Qed.
Print Assumptions C19_locations.

Theorem C19_pair : forall l1 l2 : latlong NumR, length (InstallPair l1 l2) = 2%nat /\
  nth_error (InstallPair l1 l2) 0 = Some (sphere_point (2 * ll_lat l1 * PI / 180)%R (ll_lon l1 * PI / 180)%R) /\
  nth_error (InstallPair l1 l2) 1 = Some (sphere_point (2 * ll_lat l2 * PI / 180)%R (ll_lon l2 * PI / 180)%R).
Proof.
  intros l1 l2. destruct (C19_locations [l1; l2]) as [_ H].
  split; [reflexivity|]. split; [apply (H 0%nat)|apply (H 1%nat)]; reflexivity.
Qed.
Print Assumptions C19_pair.
