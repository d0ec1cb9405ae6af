(** C95: contacts between ground stations and satellites end, and how soon. *)
Require Import ZArith Reals Lra Lia List Bool.
Require Import Verif.Base Verif.Num Verif.NumR Verif.Vec Verif.OrbitModel Verif.MobilityModel Verif.AllocModel
  Verif.LossModel Verif.FrameModel Verif.NetModel Verif.HelperModel
  Verif.GeomSpec Verif.OrbitSpec Verif.AllocSpec Verif.LossSpec Verif.NetSpec Verif.NetRunSpec Verif.ConstellationSpec Verif.RingSpec Verif.CoverSpec Verif.ContactSpec
  Verif.LossProofs Verif.LeoLossProofs Verif.OrbitProofs Verif.ConstellationProofs Verif.RingProofs Verif.CoverProofs Verif.ContactProofs Verif.OrbitApiProofs Verif.TracingProofs Verif.PropConstellation Verif.PropCover.
Import ListNotations.
Local Open Scope R_scope.

(** If a satellite is within [D] of a point at two instants, it has not gone far along its orbit in between
    (or almost all the way round). *)
Theorem C95_contact : forall (o : leoorbit NumR) ps tau tau' g D, 0 <= radius o -> 0 <= D -> let L := law_of_cosines (radius o) D g in 0 <= L ->
  distance g (sat_path o ps tau) <= D -> distance g (sat_path o ps tau') <= D ->
  2 * (L * L) <= radius o * radius o * (norm g * norm g) * (1 + cos (pace o * (sec tau' - sec tau)) + earth_rate * Rabs (sec tau' - sec tau)).
Proof. exact contact_bound. Qed.
Print Assumptions C95_contact.

(** So it is further away at some instant before it has gone the angle [phi], if this is so far that ... *)
Theorem C95_pass_ends : forall (o : leoorbit NumR) ps tau g D phi, leo_earth_radius < radius o -> 0 <= D -> 0 <= phi <= 29 / 10 ->
  let L := law_of_cosines (radius o) D g in 0 <= L ->
  radius o * radius o * (norm g * norm g) * (1 + cos phi + earth_rate * (phi / pace o + 1 / 1000000000)) < 2 * (L * L) ->
  exists tau', (tau <= tau')%Z /\ sec (tau' - tau) <= phi / pace o + 1 / 1000000000 /\ D < distance g (sat_path o ps tau').
Proof. exact pass_ends. Qed.
Print Assumptions C95_pass_ends.

(** What the two devices of a station and a satellite hear of each other, by distance. *)
Lemma touch_near : forall (junk : point) precision os pos has_mob seconds v e atm fspl margin (w : world NumR) c d g (o : leoorbit NumR) dev (planes : Z -> Prop),
  Forall (fun o : leoorbit NumR => u16 (lo_planes o) /\ u16 (lo_sats o)) os ->
  station_and_fleet junk precision os pos has_mob e atm fspl margin w c d g o dev planes ->
  c_delay (w_chan w c) = Some (constant_speed pos seconds v) ->
  leo_earth_radius < radius o -> 0 < norm g <= leo_earth_radius -> 0 <= e < 90 -> (0 <= w_now w)%Z ->
  forall p j, planes p -> (0 <= j < lo_sats o)%Z ->
  let near tau := distance g (sat_path o (p, j) tau) <= slant_range leo_earth_radius (radius o) (radians e) in
  (in_touch has_mob w c d (dev p j) -> exists tau, refreshed precision (w_now w) tau /\ near tau) /\
  ((forall tau, refreshed precision (w_now w) tau -> near tau) -> hears has_mob w c d (dev p j) = true /\ hears has_mob w c (dev p j) d = true).
Proof.
  intros junk precision os pos has_mob seconds v e atm fspl margin w c d g o dev planes Hu ((b & Nb & Mb & G) & SD & FL & HL) HD HR HG He T p j HP HJ near.
  destruct (FL p j HP HJ) as (SJ & a & Na & Ma & SA).
  destruct (C80_ground_hears junk precision os pos has_mob seconds v e atm fspl margin w c d (dev p j) b a a o (p, j) g Hu SA HR HG (or_intror (conj eq_refl G)) Nb Na Mb Ma HL HD He SD T) as (t1 & R1 & _ & H1 & _).
  destruct (C80_ground_hears junk precision os pos has_mob seconds v e atm fspl margin w c (dev p j) d a b a o (p, j) g Hu SA HR HG (or_introl (conj eq_refl G)) Na Nb Ma Mb HL HD He SJ T) as (t2 & R2 & _ & H2 & _).
  split.
  - intros [Y|Y]; [exists t1|exists t2]; (split; [assumption|]); [apply H1|apply H2]; exact Y.
  - intros K. split; [apply H1, (K t1 R1)|apply H2, (K t2 R2)].
Qed.

(** In a network: a station that is in touch with the same satellite in two states of the network, at the
    refreshed instants. *)
Theorem C95_same_satellite : forall (junk : point) precision os pos has_mob seconds v e atm fspl margin (w w' : world NumR) c d g (o : leoorbit NumR) dev (planes : Z -> Prop),
  Forall (fun o : leoorbit NumR => u16 (lo_planes o) /\ u16 (lo_sats o)) os ->
  station_and_fleet junk precision os pos has_mob e atm fspl margin w c d g o dev planes -> station_and_fleet junk precision os pos has_mob e atm fspl margin w' c d g o dev planes ->
  c_delay (w_chan w c) = Some (constant_speed pos seconds v) -> c_delay (w_chan w' c) = Some (constant_speed pos seconds v) ->
  leo_earth_radius < radius o -> 0 < norm g <= leo_earth_radius -> 0 <= e < 90 -> (0 <= w_now w)%Z -> (0 <= w_now w')%Z ->
  let L := law_of_cosines (radius o) (slant_range leo_earth_radius (radius o) (radians e)) g in 0 <= L ->
  forall p j, planes p -> (0 <= j < lo_sats o)%Z -> in_touch has_mob w c d (dev p j) -> in_touch has_mob w' c d (dev p j) ->
  exists tau tau', refreshed precision (w_now w) tau /\ refreshed precision (w_now w') tau' /\
    2 * (L * L) <= radius o * radius o * (norm g * norm g) * (1 + cos (pace o * (sec tau' - sec tau)) + earth_rate * Rabs (sec tau' - sec tau)).
Proof.
  intros junk precision os pos has_mob seconds v e atm fspl margin w w' c d g o dev planes Hu F F' HD HD' HR HG He T T' L L0 p j HP HJ Y Y'.
  destruct (proj1 (touch_near _ _ _ _ _ _ _ _ _ _ _ _ _ _ _ _ _ _ Hu F HD HR HG He T p j HP HJ) Y) as (tau & RF & N).
  destruct (proj1 (touch_near _ _ _ _ _ _ _ _ _ _ _ _ _ _ _ _ _ _ Hu F' HD' HR HG He T' p j HP HJ) Y') as (tau' & RF' & N').
  exists tau, tau'. split; [exact RF|]. split; [exact RF'|]. assert (R0 : 0 <= radius o) by (unfold leo_earth_radius in HR; lra).
  apply (contact_bound o (p, j) tau tau' g _ R0 (slant_nonneg leo_earth_radius _ (radians e) ltac:(unfold leo_earth_radius; lra) HR) L0 N N').
Qed.
Print Assumptions C95_same_satellite.

(** With exact positions (precision 0), from any instant on, there is one not later than the time for the
    angle [phi] at which the network, whatever it was doing, has no contact between the two. *)
Theorem C95_loses_contact : forall (junk : point) os pos has_mob seconds v e atm fspl margin c d g (o : leoorbit NumR) dev (planes : Z -> Prop) t phi,
  Forall (fun o : leoorbit NumR => u16 (lo_planes o) /\ u16 (lo_sats o)) os ->
  leo_earth_radius < radius o -> 0 < norm g <= leo_earth_radius -> 0 <= e < 90 -> (0 <= t)%Z -> 0 <= phi <= 29 / 10 ->
  let L := law_of_cosines (radius o) (slant_range leo_earth_radius (radius o) (radians e)) g in 0 <= L ->
  radius o * radius o * (norm g * norm g) * (1 + cos phi + earth_rate * (phi / pace o + 1 / 1000000000)) < 2 * (L * L) ->
  forall p j, planes p -> (0 <= j < lo_sats o)%Z ->
  exists t', (t <= t')%Z /\ sec (t' - t) <= phi / pace o + 1 / 1000000000 /\
    forall w : world NumR, w_now w = t' -> station_and_fleet junk 0 os pos has_mob e atm fspl margin w c d g o dev planes ->
      c_delay (w_chan w c) = Some (constant_speed pos seconds v) -> ~ in_touch has_mob w c d (dev p j).
Proof.
  intros junk os pos has_mob seconds v e atm fspl margin c d g o dev planes t phi Hu HR HG He T PH L L0 H p j HP HJ.
  destruct (pass_ends o (p, j) t g _ phi HR (slant_nonneg leo_earth_radius _ (radians e) ltac:(unfold leo_earth_radius; lra) HR) PH L0 H) as (t' & A & B & C).
  exists t'. split; [exact A|]. split; [exact B|]. intros w W F HD Y.
  destruct (proj1 (touch_near _ _ _ _ _ _ _ _ _ _ _ _ _ _ _ _ _ _ Hu F HD HR HG He ltac:(lia) p j HP HJ) Y) as (tau & RF & N).
  destruct RF as [(X & _)|[(_ & ->)|(X & _)]]; [lia| |lia]. rewrite W in N. lra.
Qed.
Print Assumptions C95_loses_contact.

(** A contact with room to spare lasts: as long as the satellite cannot have covered the rest of the way. *)
Theorem C95_persists : forall (junk : point) precision os pos has_mob seconds v e atm fspl margin (w : world NumR) c d g (o : leoorbit NumR) dev (planes : Z -> Prop) tau,
  Forall (fun o : leoorbit NumR => u16 (lo_planes o) /\ u16 (lo_sats o)) os ->
  station_and_fleet junk precision os pos has_mob e atm fspl margin w c d g o dev planes ->
  c_delay (w_chan w c) = Some (constant_speed pos seconds v) ->
  leo_earth_radius < radius o -> 0 < norm g <= leo_earth_radius -> 0 <= e < 90 -> (0 <= tau <= w_now w)%Z -> (0 <= precision)%Z ->
  forall p j, planes p -> (0 <= j < lo_sats o)%Z ->
  distance g (sat_path o (p, j) tau) + ground_speed (earth_radius_km + lo_alt o) (lo_inc o * PI / 180) * sec (Z.max (w_now w - tau) precision)
    <= slant_range leo_earth_radius (radius o) (radians e) ->
  hears has_mob w c d (dev p j) = true /\ hears has_mob w c (dev p j) d = true.
Proof.
  intros junk precision os pos has_mob seconds v e atm fspl margin w c d g o dev planes tau Hu F HD HR HG He T PR p j HP HJ H.
  apply (proj2 (touch_near _ _ _ _ _ _ _ _ _ _ _ _ _ _ _ _ _ _ Hu F HD HR HG He ltac:(lia) p j HP HJ)). intros t RF.
  assert (R0 : 0 <= earth_radius_km + lo_alt o) by (unfold radius, leo_earth_radius in HR; lra).
  pose proof (trajectory_distance (earth_radius_km + lo_alt o) (lo_inc o * PI / 180) (turn (fst (p, j)) (lo_planes o)) (turn (snd (p, j)) (lo_sats o)) (sec tau) (sec t) R0) as D.
  fold (sat_path o (p, j) tau) in D. fold (sat_path o (p, j) t) in D.
  assert (B : (Z.abs (t - tau) <= Z.max (w_now w - tau) precision)%Z) by (destruct RF as [(P1 & k & K1 & -> & K2)|[(-> & ->)|(P1 & _)]]; lia).
  assert (S : Rabs (sec t - sec tau) <= sec (Z.max (w_now w - tau) precision)).
  { replace (sec t - sec tau) with (IZR (t - tau) / 1000000000) by (unfold sec; rewrite minus_IZR; field). unfold sec, Rdiv. rewrite Rabs_mult, (Rabs_pos_eq (/ 1000000000)) by lra. apply Rmult_le_compat_r; [lra|]. rewrite <- abs_IZR. apply IZR_le. exact B. }
  assert (G0 : 0 <= ground_speed (earth_radius_km + lo_alt o) (lo_inc o * PI / 180)).
  { unfold ground_speed. apply Rmult_le_pos; [lra|]. unfold earth_rate. pose proof (Rabs_pos (angular_rate (earth_radius_km + lo_alt o) (lo_inc o * PI / 180))). pose proof PI_RGT_0. lra. }
  assert (M : ground_speed (earth_radius_km + lo_alt o) (lo_inc o * PI / 180) * Rabs (sec t - sec tau) <= ground_speed (earth_radius_km + lo_alt o) (lo_inc o * PI / 180) * sec (Z.max (w_now w - tau) precision)) by (apply Rmult_le_compat_l; assumption).
  pose proof (distance_triangle g (sat_path o (p, j) tau) (sat_path o (p, j) t)) as TR. unfold ground_speed in *. lra.
Qed.
Print Assumptions C95_persists.

(** ** Example: the satellites of ex_C93 and a station anywhere, with exact positions: no contact lasts 45 minutes, though
    the station is in contact with some satellite at all times. *)
Lemma ex_shell_positions : forall (junk g : point), exists pos : nat -> Z -> point, (forall t, pos 0%nat t = g) /\
  forall p j, (0 <= p < 6)%Z -> (0 <= j < 6)%Z -> satellite junk 0 [ex_shell] (pos (Z.to_nat (p * 6 + j + 1))) ex_shell (p, j).
Proof.
  intros junk g.
  assert (Hu : Forall (fun o : leoorbit NumR => u16 (lo_planes o) /\ u16 (lo_sats o)) [ex_shell]) by (repeat constructor; cbn; lia).
  assert (Hi : Forall installable [ex_shell]).
  { constructor; [|constructor]. split; [cbn; lia|]. right. unfold ex_shell. cbn [lo_inc]. apply Reqb_false. change (nZ NumR 0) with 0. lra. }
  set (place := fun k => (Z.of_nat k / 6, Z.of_nat k mod 6)%Z).
  exists (fun (n : nat) (t' : Z) => match n with O => g | S k => CalcPosition (sat_orbit (ex_shell, place k)) (latest 0 t') (latest 0 t') end).
  split; [reflexivity|].
  intros p j P J. replace (Z.to_nat (p * 6 + j + 1)) with (S (Z.to_nat (p * 6 + j))) by lia.
  assert (E : place (Z.to_nat (p * 6 + j)) = (p, j)).
  { unfold place. rewrite Z2Nat.id by lia. f_equal; [rewrite Z.div_add_l, Z.div_small by lia; lia|rewrite Z.add_comm, Z.mod_add, Z.mod_small by lia; lia]. }
  rewrite E. apply (installed_satellite NumR 0 junk [ex_shell] (Z.to_nat (p * 6 + j)) ex_shell (p, j) Hu Hi).
  cbn [map concat]. rewrite app_nil_r. unfold satellites, first_n. rewrite nth_error_map. cbn [lo_planes lo_sats ex_shell].
  assert (N : nth_error (seq 0 (Z.to_nat (6 * 6))) (Z.to_nat (p * 6 + j)) = Some (Z.to_nat (p * 6 + j))).
  { rewrite (nth_error_nth' _ 0%nat) by (rewrite seq_length; lia). f_equal. rewrite seq_nth by lia. reflexivity. }
  rewrite N. cbn [option_map]. fold (place (Z.to_nat (p * 6 + j))). rewrite E. reflexivity.
Qed.
Lemma ex_shell_pace : 1 / 1000 <= pace ex_shell.
Proof.
  rewrite pace_speed. unfold circular_speed, earth_radius_km, ex_shell. cbn [lo_alt].
  assert (S : 65 / 1000 <= sqrt (39.8600436 / (6371009 / 1000 + 3000))).
  { rewrite <- (sqrt_square (65 / 1000)) by lra. apply sqrt_le_1_alt. lra. }
  lra.
Qed.
Lemma ex_shell_range : forall g, norm g = ground_radius -> law_of_cosines (radius ex_shell) (slant_range leo_earth_radius (radius ex_shell) (radians 0)) g = (6371000 * 6371000 + 6371010 * 6371010) / 2.
Proof.
  intros g G. unfold law_of_cosines. rewrite G. replace (radius ex_shell) with 9371009 by (unfold radius, earth_radius_km; cbn; field).
  unfold slant_range. replace (radians 0) with 0 by (unfold radians; field). rewrite sin_0.
  rewrite !Rmult_0_r, Rplus_0_l, Rminus_0_r, sqrt_sqrt by (unfold leo_earth_radius; lra). unfold ground_radius, leo_earth_radius. lra.
Qed.
Example ex_C95 : forall (junk g : point) t, norm g = ground_radius -> (0 <= t)%Z ->
  exists pos, (forall p j, (0 <= p < 6)%Z -> (0 <= j < 6)%Z -> satellite junk 0 [ex_shell] (pos (Z.to_nat (p * 6 + j + 1))) ex_shell (p, j)) /\
  forall p j, (0 <= p < 6)%Z -> (0 <= j < 6)%Z -> exists t', (t <= t')%Z /\ sec (t' - t) <= 2700 /\
    ~ in_touch (fun _ => true) (ex_shell_world pos t') 0 0 (Z.to_nat (p * 6 + j + 1)).
Proof.
  intros junk g t G T. destruct (ex_shell_positions junk g) as (pos & P0 & PS). exists pos. split; [exact PS|]. intros p j P J.
  assert (Hu : Forall (fun o : leoorbit NumR => u16 (lo_planes o) /\ u16 (lo_sats o)) [ex_shell]) by (repeat constructor; cbn; lia).
  pose proof ex_shell_pace as W. pose proof PI_4 as PI4. pose proof PI_RGT_0 as PI0.
  assert (Q : 0 <= 2 * (PI / 3) / pace ex_shell <= 2667).
  { split; [apply Rmult_le_pos; [lra|]; left; apply Rinv_0_lt_compat; lra|]. apply Rmult_le_reg_r with (pace ex_shell); [lra|]. unfold Rdiv at 1. rewrite Rmult_assoc, Rinv_l by lra. lra. }
  destruct (C95_loses_contact junk [ex_shell] pos (fun _ => true) (fun x => up (x * 1000000000)) 299792458 0 5 160 3 0%nat 0%nat g ex_shell (fun p j => Z.to_nat (p * 6 + j + 1)) (fun p => (0 <= p < 6)%Z) t (2 * (PI / 3)) Hu)
    with (p := p) (j := j) as (t' & A & B & C); try assumption; try lra.
  - unfold radius, leo_earth_radius, earth_radius_km. cbn. lra.
  - rewrite G. unfold ground_radius, leo_earth_radius. lra.
  - rewrite (ex_shell_range g G). lra.
  - rewrite (ex_shell_range g G), G. replace (radius ex_shell) with 9371009 by (unfold radius, earth_radius_km; cbn; field).
    rewrite cos_2PI3.
    assert (E1 : earth_rate * (2 * (PI / 3) / pace ex_shell + 1 / 1000000000) <= 8 / 86400 * 2668).
    { apply Rmult_le_compat; [unfold earth_rate; lra|lra|unfold earth_rate; lra|lra]. }
    unfold ground_radius. apply Rle_lt_trans with (9371009 * 9371009 * (6371000 * 6371000) * (1 + -1 / 2 + 8 / 86400 * 2668)); [apply Rmult_le_compat_l; lra|lra].
  - exists t'. split; [exact A|]. split; [lra|]. apply C; [reflexivity| |reflexivity].
    unfold station_and_fleet. cbv zeta. split; [exists 0%nat; split; [reflexivity|]; split; [reflexivity|apply P0]|]. split; [cbn; lra|]. split; [|reflexivity].
    intros p' j' P' J'. split; [cbn; lra|]. exists (Z.to_nat (p' * 6 + j' + 1)). split; [reflexivity|]. split; [reflexivity|]. apply PS; assumption.
Qed.

(** A station at the north pole keeps the satellite that is above it for at least 100 seconds. *)
Example ex_C95_persists : let g := pt 0 0 ground_radius in
  distance g (sat_path ex_shell (0, 0)%Z 0) + ground_speed (earth_radius_km + lo_alt ex_shell) (lo_inc ex_shell * PI / 180) * sec (Z.max (100000000000 - 0) 0)
    <= slant_range leo_earth_radius (radius ex_shell) (radians 0).
Proof.
  cbv zeta. destruct (C93_distinct_positions_refuted ex_shell 0 0 0 0) as (_ & Z0). destruct (Z0 eq_refl) as (_ & ->).
  replace (radius ex_shell) with 9371009 by (unfold radius, earth_radius_km; cbn; field).
  assert (D : distance (pt 0 0 ground_radius) (pt 0 0 9371009) = 3000009).
  { unfold distance, norm, inner, minus, pt, px, py, pz. cbn [vx vy vz]. unfold ground_radius. replace (_ + _) with (3000009 * 3000009) by (change (num NumR) with R; ring). apply sqrt_square. lra. }
  rewrite D. change (Z.max (100000000000 - 0) 0) with 100000000000%Z.
  assert (HR : leo_earth_radius < radius ex_shell) by (unfold radius, leo_earth_radius, earth_radius_km; cbn; lra).
  destruct (pace_bounds ex_shell HR) as [W0 W1]. unfold ground_speed. fold (pace ex_shell). pose proof PI_4. pose proof PI_RGT_0.
  assert (ER : earth_rate <= 1 / 10000) by (unfold earth_rate; lra).
  replace (earth_radius_km + lo_alt ex_shell) with (9371009 / 1000) by (unfold earth_radius_km; cbn; lra).
  unfold slant_range. replace (radians 0) with 0 by (unfold radians; field). rewrite sin_0, !Rmult_0_r, Rplus_0_l, Rminus_0_r. unfold leo_earth_radius, sec.
  assert (S : 6000000 <= sqrt (9371009 * 9371009 - 6371010 * 6371010)) by (rewrite <- (sqrt_square 6000000) by lra; apply sqrt_le_1_alt; lra). lra.
Qed.
