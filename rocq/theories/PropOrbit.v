(** C01-C06: positions, velocities and attributes of satellites.
    [junk] stands for whatever an uninitialised read yields; all theorems hold
    for every value of it. [reached junk t0 alt incl prec ops s] says that the
    object constructed at [t0] with attributes Altitude, Inclination, Precision
    is in state [s] after the arbitrary history [ops]. *)
Require Import ZArith Reals Lra Lia List.
From Flocq Require Import Core.Zaux Core.Raux IEEE754.BinarySingleNaN.
Require Import Verif.Base Verif.Num Verif.NumR Verif.Num64 Verif.Vec Verif.OrbitModel Verif.MobilityModel
  Verif.GeomSpec Verif.OrbitSpec Verif.MobilitySpec Verif.OrbitApiSpec
  Verif.OrbitProofs Verif.MobilityProofs Verif.OrbitApiProofs Verif.Read64Proofs.
Import ListNotations.
Local Open Scope R_scope.

(** A history meeting the hypotheses of the theorems below: a 550 km, 53 degree
    satellite, started at (1, 2), whose clock advances by 90 s, then lifted to 600 km. *)
Definition ex_ops : list (mop NumR) :=
  [OSetPosition (pt 1 2 0); OAdvance 90000000000; OSetAltitude (600 : num NumR)].

Example ex_reached : forall junk, exists s,
  reached junk 0 (550 : num NumR) (53 : num NumR) 0 ex_ops s /\ keeps_precision ex_ops /\
  altitude_after 550 ex_ops = 600 /\ s_now s = 90000000000%Z.
Proof.
  intros junk. eexists. split; [|split; [|split]].
  - eexists _, _. split; [apply construct_ok; apply Reqb_false; change (53 <> 0); lra|]. reflexivity.
  - intros p [E|[E|[E|[]]]]; discriminate.
  - reflexivity.
  - reflexivity.
Qed.

(** ** C01 *)
Theorem C01_on_orbital_sphere : forall (junk : point) now0 (alt incl : R) prec ops (s : mob NumR),
  reached junk now0 alt incl prec ops s ->
  0 <= earth_radius_km + altitude_after alt ops ->
  norm (DoGetPosition junk s) = 1000 * (6371.009 + altitude_after alt ops).
Proof.
  intros. rewrite (api_sphere junk now0 alt incl prec ops s) by assumption.
  unfold earth_radius_km. lra.
Qed.
Print Assumptions C01_on_orbital_sphere.

(** ** C02 *)
Theorem C02_in_orbital_plane : forall (junk : point) now0 (alt incl : R) prec ops (s : mob NumR),
  reached junk now0 alt incl prec ops s ->
  let i := inclination_after incl ops * PI / 180 in
  let r := 1000 * (earth_radius_km + altitude_after alt ops) in
  0 <= r ->
  exists t, (t <= s_now s)%Z /\ (m_precision s = 0%Z -> t = s_now s) /\
    (exists n, n = plane_normal i (longitude_at ops + 2 * PI * (IZR t / 86400000000000)) /\
               norm n = 1 /\ inner n zhat = cos i /\ inner n (DoGetPosition junk s) = 0) /\
    Rabs (pz (DoGetPosition junk s)) <= r * Rabs (sin i).
Proof.
  intros junk now0 alt incl prec ops s H i r Hr.
  destruct (api_plane junk now0 alt incl prec ops s H Hr) as (t & A & B & C & D).
  exists t. repeat split; auto.
  eexists. split; [reflexivity|]. split; [apply plane_normal_angle|].
  split; [apply plane_normal_angle|exact C].
Qed.
Print Assumptions C02_in_orbital_plane.

Theorem C02_bound_attained : forall (junk : point) now0 (alt incl lon : R) (t : Z),
  incl <> 0 -> (now0 <= t)%Z ->
  exists off s,
    reached junk now0 alt incl 0 [OAdvance t; OSetPosition (pt lon off 0)] s /\
    pz (DoGetPosition junk s) = 1000 * (earth_radius_km + alt) * sin (incl * PI / 180).
Proof. exact api_plane_attained. Qed.
Print Assumptions C02_bound_attained.

(** ** C03 *)
Theorem C03_velocity : forall (junk : point) now0 (alt incl : R) prec ops (s : mob NumR),
  reached junk now0 alt incl prec ops s ->
  let h := earth_radius_km + altitude_after alt ops in
  0 < h ->
  exists v : point, DoGetVelocity junk s = Some v /\
    inner v (DoGetPosition junk s) = 0 /\
    norm v <= circular_speed h /\
    (DoGetPosition junk s = path alt incl ops (sec (s_now s)) -> norm v = circular_speed h).
Proof. exact api_velocity. Qed.
Print Assumptions C03_velocity.

(** ** C04: [path] is what GetPosition returns; its derivative is the in-plane
    motion [k * velocity] plus the rotation of the plane with the Earth. *)
Theorem C04_velocity_vs_motion : forall (junk : point) now0 (alt incl : R) ops (s : mob NumR),
  reached junk now0 alt incl 0 ops s -> keeps_precision ops ->
  let h := earth_radius_km + altitude_after alt ops in
  let d := inclination_after incl ops in
  0 < h ->
  let pos := DoGetPosition junk s in
  exists (v : point) (k : R), DoGetVelocity junk s = Some v /\
    pos = path alt incl ops (sec (s_now s)) /\
    derivative_at (path alt incl ops) (sec (s_now s))
      (plus (scale k v) (scale earth_rate (cross zhat pos))) /\
    Rabs k = h / earth_radius_km /\
    (d <= 90 -> 0 < k) /\ (90 < d -> k < 0) /\
    (0 <= d <= 180 -> 0 <= pz (cross pos (scale k v))).
Proof. exact api_motion. Qed.
Print Assumptions C04_velocity_vs_motion.

(** ** C05 *)
Theorem C05_speed_law : forall (junk : point) now0 (alt incl : R) ops (s : mob NumR),
  reached junk now0 alt incl 0 ops s -> keeps_precision ops ->
  let h := earth_radius_km + altitude_after alt ops in
  0 < h ->
  exists v : point, DoGetVelocity junk s = Some v /\
    norm v * norm v * (1000 * h) = 398600436000000 /\ norm v = circular_speed h.
Proof. exact api_speed. Qed.
Print Assumptions C05_speed_law.

Theorem C05_speed_decreases : forall (junk : point) now1 now2 (alt1 alt2 incl1 incl2 : R) ops1 ops2
    (s1 s2 : mob NumR) (v1 v2 : point),
  reached junk now1 alt1 incl1 0 ops1 s1 -> reached junk now2 alt2 incl2 0 ops2 s2 ->
  keeps_precision ops1 -> keeps_precision ops2 ->
  0 < earth_radius_km + altitude_after alt1 ops1 ->
  altitude_after alt1 ops1 < altitude_after alt2 ops2 ->
  DoGetVelocity junk s1 = Some v1 -> DoGetVelocity junk s2 = Some v2 ->
  norm v2 < norm v1.
Proof. exact api_speed_decreasing. Qed.
Print Assumptions C05_speed_decreases.

(** The in-plane displacement per second is v * r / 6371.009 km: with [k] and [v]
    of C04, |k v| = |v| * h / 6371.009, equal to |v| only at altitude 0. *)
Theorem C05_displacement : forall (junk : point) now0 (alt incl : R) ops (s : mob NumR),
  reached junk now0 alt incl 0 ops s -> keeps_precision ops ->
  let h := earth_radius_km + altitude_after alt ops in
  0 < h ->
  exists (v in_plane : point), DoGetVelocity junk s = Some v /\
    derivative_at (path alt incl ops) (sec (s_now s))
      (plus in_plane (scale earth_rate (cross zhat (DoGetPosition junk s)))) /\
    norm in_plane = norm v * h / 6371.009 /\
    (norm in_plane = norm v <-> altitude_after alt ops = 0).
Proof. exact api_displacement. Qed.
Print Assumptions C05_displacement.

(** ** C06 *)
Theorem C06_attributes_read_back : forall (junk : point) now0 (alt incl : R) prec ops (s : mob NumR),
  reached junk now0 alt incl prec ops s ->
  GetAltitude s = Some (altitude_after alt ops) /\
  GetInclination s = Some (inclination_after incl ops).
Proof. exact api_altitude. Qed.
Print Assumptions C06_attributes_read_back.

Theorem C06_altitude_binary64_refuted : forall fsin fcos ftan,
  exists h : b64, @AltitudeOf (Num64 fsin fcos ftan) (@HeightOf (Num64 fsin fcos ftan) h) <> h.
Proof. exact altitude_b64. Qed.
Print Assumptions C06_altitude_binary64_refuted.

(** In doubles both attributes come back almost as written, whatever else
    happened: the altitude (in km, up to a million) to 2^-32 km, the inclination to
    a relative 2^-50. *)
Theorem C06_read_back_binary64 : forall fsin fcos ftan (junk : vec (Num64 fsin fcos ftan)) now0 (alt incl : b64) prec ops s,
  reached junk now0 alt incl prec ops s ->
  let h : b64 := @last_altitude (Num64 fsin fcos ftan) alt ops in
  let i : b64 := @last_inclination (Num64 fsin fcos ftan) incl ops in
  exists h' i' : b64, GetAltitude s = Some h' /\ GetInclination s = Some i' /\
    (is_finite h = true -> 0 <= B2R h <= 1000000 -> Rabs (B2R h' - B2R h) <= / 4294967296) /\
    (is_finite i = true -> (B2R i = 0 \/ bpow radix2 (-1000) <= Rabs (B2R i) <= bpow radix2 1000) ->
     Rabs (B2R i' - B2R i) <= Rabs (B2R i) * / 1125899906842624).
Proof.
  intros fsin fcos ftan junk now0 alt incl prec ops s H h i. pose proof (reached_orbit _ _ _ _ _ _ _ _ H) as Ho.
  unfold orbit_of in Ho. unfold GetAltitude, GetInclination.
  destruct (m_height s) as [a|], (m_incl s) as [b|]; try discriminate.
  assert (Ha : a = @HeightOf (Num64 fsin fcos ftan) h) by (unfold h; congruence).
  assert (Hb : b = @RadiansOf (Num64 fsin fcos ftan) i) by (unfold i; congruence).
  rewrite Ha, Hb. eexists _, _. split; [reflexivity|]. split; [reflexivity|]. split.
  - apply altitude_64.
  - apply inclination_64.
Qed.
Print Assumptions C06_read_back_binary64.

(** Not exactly: 13 degrees reads back as something else. *)
Theorem C06_inclination_binary64_refuted : forall fsin fcos ftan,
  exists i : b64, is_finite i = true /\ B2R i = 13 /\
    @DegreesOf (Num64 fsin fcos ftan) (@RadiansOf (Num64 fsin fcos ftan) i) <> i.
Proof.
  intros fsin fcos ftan. exists (b64_Z 13). split; [vm_compute; reflexivity|].
  split; [apply (Alloc64Proofs.Z_exact_64 13); cbn; lia|].
  unfold DegreesOf, RadiansOf; cbn [nmul ndiv npi nZ Num64].
  intros H. apply (f_equal B2SF) in H. vm_compute in H. discriminate.
Qed.
Print Assumptions C06_inclination_binary64_refuted.

(** The hypotheses of [C06_read_back_binary64]: 550 km, then 600 km; 53 degrees. *)
Example ex_C06_binary64 : forall fsin fcos ftan (junk : vec (Num64 fsin fcos ftan)), exists s,
  reached junk 0 (b64_Z 550 : num (Num64 fsin fcos ftan)) (b64_Z 53 : num (Num64 fsin fcos ftan)) 0
    [OAdvance 90000000000; OSetAltitude (b64_Z 600 : num (Num64 fsin fcos ftan))] s /\
  is_finite (b64_Z 600) = true /\ 0 <= B2R (b64_Z 600) <= 1000000 /\
  bpow radix2 (-1000) <= Rabs (B2R (b64_Z 53)) <= bpow radix2 1000.
Proof.
  intros fsin fcos ftan junk. eexists. split; [|split; [|split]].
  - eexists _, _. split; [apply construct_ok; vm_compute; reflexivity|]. reflexivity.
  - vm_compute; reflexivity.
  - destruct (Alloc64Proofs.Z_exact_64 600) as [-> _]; [cbn; lia|lra].
  - destruct (Alloc64Proofs.Z_exact_64 53) as [-> _]; [cbn; lia|]. rewrite Rabs_pos_eq by lra. split.
    + apply Rle_trans with (bpow radix2 0); [apply bpow_le; lia|cbn; lra].
    + apply Rle_trans with (bpow radix2 6); [cbn; lra|apply bpow_le; lia].
Qed.
