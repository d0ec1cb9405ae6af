(** C20-C28: the two propagation loss models. *)
Require Import ZArith Reals Lra Lia Bool.
From Flocq Require Import Core.Zaux Core.Raux IEEE754.BinarySingleNaN.
Require Import Verif.Num Verif.NumR Verif.Num64 Verif.Vec Verif.LossModel Verif.GeomSpec Verif.LossSpec
  Verif.LossProofs Verif.LeoLossProofs Verif.Loss64Proofs Verif.LossApiProofs Verif.Read64Proofs.
Local Open Scope R_scope.

(** Two satellites at 550 km over perpendicular points of the equator; and one
    over the opposite point. *)
Definition sat1 : point := pt 6921009 0 0.
Definition sat2 : point := pt 6900000 500000 0.
Definition sat3 : point := pt (-6921009) 0 0.

Example ex_sat_outside : isl_earth_radius <= norm sat1 /\ sat1 <> sat3 /\
  ~ unobstructed isl_earth_radius sat1 sat3.
Proof.
  unfold sat1, sat3, isl_earth_radius. rewrite norm_x, Rabs_pos_eq by lra. split; [lra|]. split.
  - intros H. injection H. intros. lra.
  - intros H. specialize (H (1/2) ltac:(lra)).
    replace (on_segment (pt 6921009 0 0) (pt (-6921009) 0 0) (1/2)) with (pt 0 0 0) in H.
    + rewrite norm_x, Rabs_R0 in H. lra.
    + unfold on_segment, plus, scale, minus, pt, px, py, pz; cbn. f_equal; change (num NumR) with R; lra.
Qed.

Example ex_sat_sees : sat1 <> sat2 /\ unobstructed isl_earth_radius sat1 sat2.
Proof.
  split.
  - intros H. injection H. intros. lra.
  - intros t Ht. apply norm_lt_sq; [unfold isl_earth_radius; lra|].
    unfold on_segment, plus, scale, minus, sat1, sat2, inner, pt, px, py, pz; cbn.
    change (num NumR) with R. unfold isl_earth_radius. nra.
Qed.

(** ** C20 *)
Theorem C20_line_of_sight_exact : forall a b : point,
  a <> b -> (isl_earth_radius <= norm a \/ isl_earth_radius <= norm b) ->
  (GetLos a b = true <-> unobstructed isl_earth_radius a b).
Proof. exact GetLos_correct. Qed.
Print Assumptions C20_line_of_sight_exact.

(** The hypothesis cannot be dropped: below the ground on both ends the answer
    may be wrong. *)
Theorem C20_below_ground_refuted : exists a b : point,
  a <> b /\ GetLos a b = true /\ ~ unobstructed isl_earth_radius a b.
Proof.
  exists (pt 1000 0 0), (pt (-1000) 0 0). split.
  - intros H. injection H. intros. lra.
  - split; [exact los_inside|exact inside_obstructed].
Qed.
Print Assumptions C20_below_ground_refuted.

(** ** C21 *)
Theorem C21_line_of_sight_symmetric : forall a b : point, GetLos a b = GetLos b a.
Proof. exact GetLos_symmetric_all. Qed.
Print Assumptions C21_line_of_sight_symmetric.

(** In binary64, for positions whose computed distances from the centre differ. *)
Theorem C21_line_of_sight_symmetric_binary64 : forall fsin fcos ftan (a b : vec (Num64 fsin fcos ftan)),
  Bltb (vlen a) (vlen b) = true \/ Bltb (vlen b) (vlen a) = true -> GetLos a b = GetLos b a.
Proof. exact GetLos_sym_64. Qed.
Print Assumptions C21_line_of_sight_symmetric_binary64.

Example ex21 : forall fsin fcos ftan,
  Bltb (vlen (@V (Num64 fsin fcos ftan) (b64_Z 6921009) (b64_Z 0) (b64_Z 0)))
       (vlen (@V (Num64 fsin fcos ftan) (b64_Z 7000000) (b64_Z 0) (b64_Z 1))) = true.
Proof. intros. vm_compute. reflexivity. Qed.

(** ** C22 *)
Theorem C22_colocated_binary64 : forall fsin fcos ftan (p : vec (Num64 fsin fcos ftan)) (tx : b64),
  GetLos p p = false /\ @IslCalcRxPower (Num64 fsin fcos ftan) tx p p = b64_Z (-1000).
Proof.
  intros fs fc ft p tx. rewrite (GetLos_self_64 fs fc ft p). split; [reflexivity|].
  unfold IslCalcRxPower. rewrite (GetLos_self_64 fs fc ft p). cbn [negb nopp nZ Num64].
  apply B2SF_inj. vm_compute. reflexivity.
Qed.
Print Assumptions C22_colocated_binary64.

(** ** C23 *)
Theorem C23_isl_power : forall (tx : R) (a b : point),
  a <> b -> isl_earth_radius <= norm a \/ isl_earth_radius <= norm b ->
  (unobstructed isl_earth_radius a b -> @IslCalcRxPower NumR tx a b = tx) /\
  (~ unobstructed isl_earth_radius a b -> @IslCalcRxPower NumR tx a b = -1000).
Proof. exact isl_rx_geometry. Qed.
Print Assumptions C23_isl_power.

(** For every arithmetic, in particular binary64. *)
Theorem C23_isl_power_any : forall N (tx : num N) (a b : vec N),
  (GetLos a b = true -> IslCalcRxPower tx a b = tx) /\
  (GetLos a b = false -> IslCalcRxPower tx a b = nopp N (nZ N 1000)).
Proof. intros N tx a b. unfold IslCalcRxPower. destruct (GetLos a b); split; (discriminate || reflexivity). Qed.
Print Assumptions C23_isl_power_any.

(** ** C24 *)
Theorem C24_cutoff_closed_form : forall e atm fspl margin (s : point),
  0 <= e < 90 -> leo_earth_radius <= norm s ->
  GetCutoffDistance (leo_model e atm fspl margin) s
  = slant_range leo_earth_radius (norm s) (radians e).
Proof. exact cutoff_closed. Qed.
Print Assumptions C24_cutoff_closed_form.

Theorem C24_cutoff_horizon : forall atm fspl margin (s : point), leo_earth_radius <= norm s ->
  GetCutoffDistance (leo_model 0 atm fspl margin) s
  = sqrt (norm s * norm s - leo_earth_radius * leo_earth_radius).
Proof.
  intros. rewrite cutoff_closed by (assumption || lra). rewrite radians_0. apply slant_horizon.
Qed.
Print Assumptions C24_cutoff_horizon.

Theorem C24_cutoff_decreases_in_elevation : forall e1 e2 atm fspl margin (s : point),
  0 <= e1 < e2 -> e2 < 90 -> leo_earth_radius < norm s ->
  GetCutoffDistance (leo_model e2 atm fspl margin) s < GetCutoffDistance (leo_model e1 atm fspl margin) s.
Proof. exact cutoff_mono_angle. Qed.
Print Assumptions C24_cutoff_decreases_in_elevation.

Theorem C24_cutoff_increases_in_altitude : forall e atm fspl margin (s1 s2 : point),
  0 <= e < 90 -> leo_earth_radius <= norm s1 -> norm s1 < norm s2 ->
  GetCutoffDistance (leo_model e atm fspl margin) s1 < GetCutoffDistance (leo_model e atm fspl margin) s2.
Proof. exact cutoff_mono_alt. Qed.
Print Assumptions C24_cutoff_increases_in_altitude.

(** A negative ElevationAngle is treated like the positive one. *)
Theorem C24_cutoff_even : forall e atm fspl margin (s : point), 0 <= e < 90 ->
  GetCutoffDistance (leo_model (- e) atm fspl margin) s = GetCutoffDistance (leo_model e atm fspl margin) s.
Proof. exact cutoff_even. Qed.
Print Assumptions C24_cutoff_even.

Example ex24 : leo_earth_radius < norm sat1 /\ norm sat1 < norm (pt 7000000 0 0).
Proof. unfold sat1. rewrite !norm_x, !Rabs_pos_eq by lra. unfold leo_earth_radius. lra. Qed.

(** ** C25 *)
Theorem C25_mask_sound : forall e atm fspl margin tx (g s : point),
  0 <= e < 90 -> 0 < norm g <= leo_earth_radius -> leo_earth_radius < norm s ->
  (LeoCalcRxPower (leo_model e atm fspl margin) tx g s <> -1000 \/
   LeoCalcRxPower (leo_model e atm fspl margin) tx s g <> -1000) ->
  radians e <= elevation g s.
Proof.
  intros e atm fspl margin tx g s He Hg Hs H.
  assert (H' : LeoCalcRxPower (leo_model e atm fspl margin) tx g s <> -1000).
  { destruct H as [H|H]; [exact H|]. rewrite leo_rx_sym_R. exact H. }
  eapply mask_sound_api; eassumption.
Qed.
Print Assumptions C25_mask_sound.

Example ex25 : 0 < norm (pt 6371000 0 0) <= leo_earth_radius /\ leo_earth_radius < norm (pt 6921000 0 0) /\
  LeoCalcRxPower (leo_model 30 2.9 186.1 1.02) 98.4 (pt 6371000 0 0) (pt 6921000 0 0) <> -1000.
Proof.
  rewrite ex_rx_zenith, !norm_x, !Rabs_pos_eq by lra. unfold leo_earth_radius. lra.
Qed.

(** ** C26 *)
Theorem C26_boundary_cut_off : forall e atm fspl margin tx (g s : point),
  0 < e < 90 -> 0 < norm g <= leo_earth_radius -> leo_earth_radius < norm s ->
  elevation g s = radians e ->
  LeoCalcRxPower (leo_model e atm fspl margin) tx g s = -1000.
Proof. exact mask_boundary. Qed.
Print Assumptions C26_boundary_cut_off.

Theorem C26_zenith : forall e atm fspl margin tx (g : point) k,
  0 <= e < 90 -> norm g = leo_earth_radius -> 1 < k -> budget tx atm fspl margin <> -1000 ->
  (LeoCalcRxPower (leo_model e atm fspl margin) tx g (scale k g) = -1000 <->
   leo_earth_radius / norm (scale k g) < sin (radians e)).
Proof. exact zenith_api. Qed.
Print Assumptions C26_zenith.

(** The exact mask of a surface station: R sin(elevation) >= h sin(e). *)
Theorem C26_exact_mask : forall e atm fspl margin tx (g s : point),
  0 <= e < 90 -> norm g = leo_earth_radius -> leo_earth_radius < norm s ->
  budget tx atm fspl margin <> -1000 ->
  (LeoCalcRxPower (leo_model e atm fspl margin) tx g s = -1000 <->
   leo_earth_radius * sin (elevation g s) < norm s * sin (radians e)).
Proof. exact mask_exact_api. Qed.
Print Assumptions C26_exact_mask.

(** A satellite seen at exactly 45 degrees from a station on the x axis. *)
Example ex26 : let g := pt 6371010 0 0 in let s := pt 7371010 1000000 0 in
  norm g = leo_earth_radius /\ leo_earth_radius < norm s /\ elevation g s = radians 45.
Proof.
  intros g s. unfold g, s, leo_earth_radius. rewrite norm_x, Rabs_pos_eq by lra.
  split; [reflexivity|]. split.
  - apply norm_lt_sq; [lra|]. unfold inner, pt, px, py, pz; cbn. change (num NumR) with R. lra.
  - unfold elevation. rewrite norm_x, Rabs_pos_eq by lra.
    replace (minus (pt 7371010 1000000 0) (pt 6371010 0 0)) with (pt 1000000 1000000 0).
    2:{ unfold minus, pt, px, py, pz; cbn. f_equal; change (num NumR) with R; lra. }
    replace (inner (pt 1000000 1000000 0) (pt 6371010 0 0)) with (1000000 * 6371010).
    2:{ unfold inner, pt, px, py, pz; cbn. change (num NumR) with R. lra. }
    assert (Hn : norm (pt 1000000 1000000 0) = 1000000 * sqrt 2).
    { unfold norm, inner, pt, px, py, pz; cbn. change (num NumR) with R.
      replace (1000000 * 1000000 + 1000000 * 1000000 + 0 * 0) with ((1000000 * 1000000) * 2) by ring.
      rewrite sqrt_mult by lra. f_equal. apply sqrt_square. lra. }
    rewrite Hn.
    assert (0 < sqrt 2) by (apply sqrt_lt_R0; lra).
    replace (1000000 * 6371010 / (1000000 * sqrt 2 * 6371010)) with (1 / sqrt 2) by (field; lra).
    replace (radians 45) with (PI / 4) by (unfold radians; field).
    rewrite <- sin_PI4. apply asin_sin. pose proof PI_RGT_0. lra.
Qed.

(** ** C27 *)
Theorem C27_budget : forall e atm fspl margin tx (a b : point),
  0 <= e < 90 -> leo_earth_radius <= farther a b ->
  (distance a b <= slant_range leo_earth_radius (farther a b) (radians e) ->
   LeoCalcRxPower (leo_model e atm fspl margin) tx a b = tx - atm - fspl - margin) /\
  (slant_range leo_earth_radius (farther a b) (radians e) < distance a b ->
   LeoCalcRxPower (leo_model e atm fspl margin) tx a b = -1000).
Proof. exact budget_api. Qed.
Print Assumptions C27_budget.

(** Only these two results exist, in every arithmetic. *)
Theorem C27_two_results : forall N (m : leoloss N) (tx : num N) (a b : vec N),
  LeoCalcRxPower m tx a b = nopp N (nZ N 1000) \/
  LeoCalcRxPower m tx a b =
    nsub N (nsub N (nsub N tx (ll_atmospheric m)) (ll_freespace m)) (ll_margin m).
Proof. intros. unfold LeoCalcRxPower. destruct (nlt N _ _); auto. Qed.
Print Assumptions C27_two_results.

Theorem C27_symmetric : forall e atm fspl margin tx (a b : point),
  LeoCalcRxPower (leo_model e atm fspl margin) tx a b = LeoCalcRxPower (leo_model e atm fspl margin) tx b a.
Proof. exact leo_rx_sym_R. Qed.
Print Assumptions C27_symmetric.

(** For all binary64 inputs, NaN and infinities included. *)
Theorem C27_symmetric_binary64 : forall fsin fcos ftan (m : leoloss (Num64 fsin fcos ftan)) (tx : b64) a b,
  LeoCalcRxPower m (tx : num (Num64 fsin fcos ftan)) a b
  = LeoCalcRxPower m (tx : num (Num64 fsin fcos ftan)) b a.
Proof. exact LeoCalcRxPower_sym_64. Qed.
Print Assumptions C27_symmetric_binary64.

Example ex27 : LeoCalcRxPower (leo_model 30 2.9 186.1 1.02) 98.4 (pt 6371000 0 0) (pt 6921000 0 0)
  = 98.4 - 2.9 - 186.1 - 1.02.
Proof. apply ex_rx_zenith. Qed.

(** ** C28 *)
Theorem C28_below_ground : forall e atm fspl margin tx (a b : point),
  0 <= e < 90 -> farther a b < leo_earth_radius ->
  let h := farther a b in
  let q := h * h * (1 + sin (radians e) * sin (radians e)) - leo_earth_radius * leo_earth_radius in
  (q < 0 -> LeoCalcRxPower (leo_model e atm fspl margin) tx a b = -1000) /\
  (0 <= q ->
   (distance a b <= h * sin (radians e) - sqrt q ->
    LeoCalcRxPower (leo_model e atm fspl margin) tx a b = budget tx atm fspl margin) /\
   (h * sin (radians e) - sqrt q < distance a b ->
    LeoCalcRxPower (leo_model e atm fspl margin) tx a b = -1000)).
Proof. exact inside_api. Qed.
Print Assumptions C28_below_ground.

(** Two ground stations of the module (radius 6371000) next to each other: both
    cases occur, depending on the elevation angle. *)
Example ex28_refused : farther (pt 6371000 0 0) (pt 6371000 0 0) < leo_earth_radius /\
  LeoCalcRxPower (leo_model 0 0 0 0) 10 (pt 6371000 0 0) (pt 6371000 0 0) = -1000.
Proof.
  assert (Hf : farther (pt 6371000 0 0) (pt 6371000 0 0) = 6371000).
  { unfold farther. rewrite norm_x, Rabs_pos_eq, Rmax_left; lra. }
  rewrite Hf. split; [unfold leo_earth_radius; lra|].
  apply (proj1 (inside_api 0 0 0 0 10 (pt 6371000 0 0) (pt 6371000 0 0) ltac:(lra)
                  ltac:(rewrite Hf; unfold leo_earth_radius; lra))).
  rewrite Hf, radians_0, sin_0. unfold leo_earth_radius. lra.
Qed.

Example ex28_accepted : farther (pt 6371000 0 0) (pt 6371000 0 0) < leo_earth_radius /\
  LeoCalcRxPower (leo_model 30 0 0 0) 10 (pt 6371000 0 0) (pt 6371000 0 0) = 10.
Proof.
  assert (Hf : farther (pt 6371000 0 0) (pt 6371000 0 0) = 6371000).
  { unfold farther. rewrite norm_x, Rabs_pos_eq, Rmax_left; lra. }
  rewrite Hf. split; [unfold leo_earth_radius; lra|].
  assert (Hs : sin (radians 30) = 1 / 2).
  { replace (radians 30) with (PI / 6) by (unfold radians; field). apply sin_PI6. }
  transitivity (budget 10 0 0 0); [|unfold budget; lra].
  destruct (proj2 (inside_api 30 0 0 0 10 (pt 6371000 0 0) (pt 6371000 0 0) ltac:(lra)
                     ltac:(rewrite Hf; unfold leo_earth_radius; lra))) as [H _].
  { rewrite Hf, Hs. unfold leo_earth_radius. lra. }
  apply H. clear H. rewrite Hf, Hs. unfold leo_earth_radius.
  unfold distance. replace (minus (pt 6371000 0 0) (pt 6371000 0 0)) with (pt 0 0 0).
  2:{ unfold minus, pt, px, py, pz; cbn. f_equal; change (num NumR) with R; lra. }
  rewrite norm_x, Rabs_R0.
  match goal with |- _ <= _ - sqrt ?x => assert (H : sqrt x <= sqrt (3185500 * 3185500)) by (apply sqrt_le_1_alt; lra) end.
  rewrite (sqrt_sq_abs (3185500 * 3185500) 3185500), Rabs_pos_eq in H by lra. lra.
Qed.

(** ** C71 *)
Theorem C71_elevation_read_back : forall e atm fspl margin, GetElevationAngle (leo_model e atm fspl margin) = e.
Proof.
  intros. unfold GetElevationAngle, leo_model, SetElevationAngle. cbn [ll_angle]. cbn.
  pose proof PI_RGT_0. field. lra.
Qed.
Print Assumptions C71_elevation_read_back.

Theorem C71_elevation_read_back_binary64 : forall fsin fcos ftan (e atm fspl margin : b64), is_finite e = true ->
  (B2R e = 0 \/ bpow radix2 (-1000) <= Rabs (B2R e) <= bpow radix2 1000) ->
  Rabs (B2R (@GetElevationAngle (Num64 fsin fcos ftan)
               (@mkLeoLoss (Num64 fsin fcos ftan) (@SetElevationAngle (Num64 fsin fcos ftan) e) atm fspl margin)) - B2R e)
  <= Rabs (B2R e) * / 1125899906842624.
Proof. exact elevation_64. Qed.
Print Assumptions C71_elevation_read_back_binary64.

(** Not exactly: 30 degrees reads back as something else. *)
Theorem C71_elevation_binary64_refuted : forall fsin fcos ftan (atm fspl margin : b64),
  exists e : b64, is_finite e = true /\ B2R e = 30 /\
    @GetElevationAngle (Num64 fsin fcos ftan)
      (@mkLeoLoss (Num64 fsin fcos ftan) (@SetElevationAngle (Num64 fsin fcos ftan) e) atm fspl margin) <> e.
Proof.
  intros fsin fcos ftan atm fspl margin. exists (b64_Z 30). split; [vm_compute; reflexivity|].
  split; [apply (Alloc64Proofs.Z_exact_64 30); cbn; lia|].
  unfold GetElevationAngle, SetElevationAngle; cbn [ll_angle nmul ndiv npi nZ Num64].
  intros H. apply (f_equal B2SF) in H. vm_compute in H. discriminate.
Qed.
Print Assumptions C71_elevation_binary64_refuted.

Example ex_C71 : is_finite (b64_Z 30) = true /\ bpow radix2 (-1000) <= Rabs (B2R (b64_Z 30)) <= bpow radix2 1000.
Proof.
  split; [vm_compute; reflexivity|].
  destruct (Alloc64Proofs.Z_exact_64 30) as [-> _]; [cbn; lia|]. rewrite Rabs_pos_eq by lra. split.
  - apply Rle_trans with (bpow radix2 0); [apply bpow_le; lia|cbn; lra].
  - apply Rle_trans with (bpow radix2 6); [cbn; lra|apply bpow_le; lia].
Qed.
