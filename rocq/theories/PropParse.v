(** Text of locations and orbits (C59, C60). *)
Require Import ZArith QArith Qreduction Reals List Bool Ascii String Lia Lra.
From Flocq Require Import Core.Core IEEE754.BinarySingleNaN.
Require Import Verif.Base Verif.Num Verif.Num64 Verif.Vec Verif.MobilityModel Verif.AllocModel.
Require Import Verif.ParseModel Verif.ParseSpec Verif.ParseProofs Verif.ParseRecordProofs Verif.Decimal64Model Verif.SixDigitsProofs Verif.Alloc64Proofs.
Require Import Verif.NetExamples.
Import ListNotations.
Local Open Scope Z_scope.
Local Open Scope list_scope.

(** C59: a location is read exactly if the text starts with one, and then the text
    after it is left. *)
Theorem C59_location : forall (N : Num) to_double failed_double junk_char t (l : latlong N),
  let '(l', s') := read_latlong to_double failed_double junk_char (mkStream t false) l in
  (st_failed s' = false <-> exists lat lon rest, location_text (num N) to_double t lat lon rest) /\
  (forall lat lon rest, location_text (num N) to_double t lat lon rest -> l' = mkLatLong lat lon /\ s' = mkStream rest false).
Proof.
  intros N td fd jc t l. destruct (read_latlong td fd jc (mkStream t false) l) as [l' s'] eqn:E. split; [split|].
  - intros F. destruct (read_latlong_inv _ _ _ _ _ _ _ _ E F) as (rest & _ & T). eauto.
  - intros (lat & lon & rest & T). rewrite (read_latlong_ok _ _ fd jc _ _ _ _ l T) in E. injection E as _ <-. reflexivity.
  - intros lat lon rest T. rewrite (read_latlong_ok _ _ fd jc _ _ _ _ l T) in E. injection E as <- <-. auto.
Qed.
Print Assumptions C59_location.

Theorem C59_orbit : forall (N : Num) to_double failed_double junk_char t (o : leoorbit N),
  let '(o', s') := read_orbit to_double failed_double junk_char (mkStream t false) o in
  (st_failed s' = false <-> exists alt inc planes sats rest, orbit_text (num N) to_double t alt inc planes sats rest) /\
  (forall alt inc planes sats rest, orbit_text (num N) to_double t alt inc planes sats rest ->
     o' = mkLeoOrbit alt inc planes sats /\ s' = mkStream rest false).
Proof.
  intros N td fd jc t o. destruct (read_orbit td fd jc (mkStream t false) o) as [o' s'] eqn:E. split; [split|].
  - intros F. destruct (read_orbit_inv _ _ _ _ _ _ _ _ E F) as (rest & _ & T). eauto 10.
  - intros (alt & inc & p & s & rest & T). rewrite (read_orbit_ok _ _ fd jc _ _ _ _ _ _ o T) in E. injection E as _ <-. reflexivity.
  - intros alt inc p s rest T. rewrite (read_orbit_ok _ _ fd jc _ _ _ _ _ _ o T) in E. injection E as <- <-. auto.
Qed.
Print Assumptions C59_orbit.

(** A file is installed up to its first malformed record, whatever follows, without
    any error; this is the only outcome. *)
Theorem C59_ground_file : forall (N : Num) to_double failed_double junk_char t,
  exists l rest, locations (num N) to_double t l rest /\
    forall nodes, InstallGroundFile N to_double failed_double junk_char (Some t) nodes <->
      nodes = InstallLocations (map (fun p => mkLatLong (fst p) (snd p)) l).
Proof.
  intros N td fd jc t. destruct (location_file N td fd jc _ t (mkLatLong (nZ N 0) (nZ N 0)) (le_n _)) as (l & s' & rest & X & Y).
  exists (map (fun l => (ll_lat l, ll_lon l)) l), rest. split; [assumption|].
  assert (M : map (fun p => mkLatLong (fst p) (snd p)) (map (fun l : latlong N => (ll_lat l, ll_lon l)) l) = l).
  { rewrite map_map. rewrite <- (map_id l) at 2. apply map_ext. intros []. reflexivity. }
  rewrite M. intros nodes. split.
  - intros (l2 & s2 & X2 & ->). destruct (extracts_det _ _ _ _ _ _ X _ _ X2) as [-> _]. reflexivity.
  - intros ->. exists l, s'. auto.
Qed.
Print Assumptions C59_ground_file.

Theorem C59_orbit_file : forall (N : Num) to_double failed_double junk_char prec (junk : vec N) now t,
  exists l rest, orbits (num N) to_double t l rest /\
    forall nodes, InstallOrbitFile N to_double failed_double junk_char prec junk now (Some t) nodes <->
      nodes = InstallOrbits prec junk now (map (fun '(alt, inc, p, s) => mkLeoOrbit alt inc p s) l).
Proof.
  intros N td fd jc prec junk now t. destruct (orbit_file N td fd jc _ t (mkLeoOrbit (nZ N 0) (nZ N 0) 0 0) (le_n _)) as (l & s' & rest & X & Y).
  exists (map (fun o => (lo_alt o, lo_inc o, lo_planes o, lo_sats o)) l), rest. split; [assumption|].
  assert (M : map (fun '(alt, inc, p, s) => mkLeoOrbit alt inc p s) (map (fun o : leoorbit N => (lo_alt o, lo_inc o, lo_planes o, lo_sats o)) l) = l).
  { rewrite map_map. rewrite <- (map_id l) at 2. apply map_ext. intros []. reflexivity. }
  rewrite M. intros nodes. split.
  - intros (l2 & s2 & X2 & ->). destruct (extracts_det _ _ _ _ _ _ X _ _ X2) as [-> _]. reflexivity.
  - intros ->. exists l, s'. auto.
Qed.
Print Assumptions C59_orbit_file.

(** The records of a text are unique. *)
Theorem C59_unique : forall (N : Num) (to_double : bool -> Q -> option (num N)) t l1 r1 l2 r2,
  locations (num N) to_double t l1 r1 -> locations (num N) to_double t l2 r2 -> l1 = l2 /\ r1 = r2.
Proof.
  intros N td t l1 r1 l2 r2 H. revert l2 r2.
  induction H as [t NT|t lat lon r l rest T L IH]; intros l2 r2 H2; inversion H2 as [? NT2|? lat2 lon2 rr2 ? ? T2 L2]; subst.
  - auto.
  - exfalso. exact (NT _ _ _ T2).
  - exfalso. exact (NT2 _ _ _ T).
  - pose proof (read_latlong_ok N td (fun _ => nZ N 0) "0" _ _ _ _ (mkLatLong (nZ N 0) (nZ N 0)) T) as E1.
    rewrite (read_latlong_ok N td (fun _ => nZ N 0) "0" _ _ _ _ (mkLatLong (nZ N 0) (nZ N 0)) T2) in E1. injection E1 as -> -> ->.
    destruct (IH _ _ L2) as [-> ->]. auto.
Qed.
Print Assumptions C59_unique.

(** A file that does not exist gives no nodes, without an error. *)
Theorem C59_missing_file : forall (N : Num) to_double failed_double junk_char prec (junk : vec N) now,
  InstallGroundFile N to_double failed_double junk_char None [] /\
  InstallOrbitFile N to_double failed_double junk_char prec junk now None (Ok []).
Proof.
  intros N td fd jc prec junk now. split; eexists [], _; (split; [eapply extracts_end; [reflexivity|]|reflexivity]);
    destruct (jc =? ":")%char; reflexivity.
Qed.
Print Assumptions C59_missing_file.

(** C60: printed records with blanks (such as a line feed) after each are read back. *)
Theorem C60_locations : forall (N : Num) to_double failed_double junk_char six_digits (l : list (latlong N * list ascii)),
  Forall (fun p => printed_exactly N to_double six_digits (ll_lat (fst p)) /\ printed_exactly N to_double six_digits (ll_lon (fst p)) /\ blank (snd p)) l ->
  forall nodes, InstallGroundFile N to_double failed_double junk_char (Some (lines (print_latlong six_digits) l)) nodes <->
    nodes = InstallLocations (map fst l).
Proof.
  intros N td fd jc sd l H nodes. destruct (latlong_round_trip N td fd jc sd l [] (mkLatLong (nZ N 0) (nZ N 0)) (Forall_nil _) H) as (s' & X). split.
  - intros (l2 & s2 & X2 & ->). destruct (extracts_det _ _ _ _ _ _ X _ _ X2) as [-> _]. reflexivity.
  - intros ->. exists (map fst l), s'. auto.
Qed.
Print Assumptions C60_locations.
Theorem C60_orbits : forall (N : Num) to_double failed_double junk_char six_digits prec (junk : vec N) now (l : list (leoorbit N * list ascii)),
  Forall (fun p => printed_exactly N to_double six_digits (lo_alt (fst p)) /\ printed_exactly N to_double six_digits (lo_inc (fst p)) /\
                   0 <= lo_planes (fst p) <= 65535 /\ 0 <= lo_sats (fst p) <= 65535 /\ blank (snd p)) l ->
  forall nodes, InstallOrbitFile N to_double failed_double junk_char prec junk now (Some (lines (print_orbit six_digits) l)) nodes <->
    nodes = InstallOrbits prec junk now (map fst l).
Proof.
  intros N td fd jc sd prec junk now l H nodes. destruct (orbit_round_trip N td fd jc sd l [] (mkLeoOrbit (nZ N 0) (nZ N 0) 0 0) (Forall_nil _) H) as (s' & X). split.
  - intros (l2 & s2 & X2 & ->). destruct (extracts_det _ _ _ _ _ _ X _ _ X2) as [-> _]. reflexivity.
  - intros ->. exists (map fst l), s'. auto.
Qed.
Print Assumptions C60_orbits.

(** In binary64: every double that is the nearest one to a decimal number of at most
    six significant digits (in the normal range) is printed exactly. *)
Definition short (x : b64) : Prop :=
  exists neg m e, strtod64 neg (decimal m e) = Some x /\
    ((m = 0 /\ e = 0) \/ (0 < m < 1000000 /\ m mod 10 <> 0 /\ (bpow radix2 (-1022) <= IZR m * bpow radix10 e)%R)).

Theorem C60_binary64 : forall fsin fcos ftan x, short x -> printed_exactly (Num64 fsin fcos ftan) strtod64 printf64 x.
Proof.
  intros fs fc ft x (neg & m & e & T & [[-> ->]|(H & NT & L)]).
  - exists neg, 0, 0. split; [apply zero_round_trip; assumption|]. split; [lia|]. split; [auto|assumption].
  - exists neg, m, e. split; [apply six_round_trip; [split; assumption|assumption|assumption]|]. split; [lia|]. split; [auto|assumption].
Qed.
Print Assumptions C60_binary64.

(** Every such number up to 2^1023 has such a double. *)
Theorem C60_short_total : forall neg m e, 0 < m < 1000000 -> m mod 10 <> 0 ->
  (bpow radix2 (-1022) <= IZR m * bpow radix10 e <= bpow radix2 1023)%R ->
  exists x, short x /\ strtod64 neg (decimal m e) = Some x.
Proof.
  intros neg m e H N [L U]. destruct (strtod64_total neg m e) as (x & X); [split; assumption|exact U|].
  exists x. split; [|assumption]. exists neg, m, e. auto.
Qed.
Print Assumptions C60_short_total.

(** A double with more digits is not read back: 1234567 is printed as 1.23457e+06. *)
Lemma printf64_1234567 : printf64 (b64_Z 1234567) = (false, 123457, 1).
Proof.
  destruct (Z_exact_64 1234567 ltac:(lia)) as [V F].
  assert (SG : Bsign (b64_Z 1234567) = false) by (vm_compute; reflexivity).
  unfold printf64. rewrite Req_bool_false by (rewrite V; apply not_0_IZR; lia). rewrite V, SG.
  rewrite Rabs_pos_eq by (apply IZR_le; lia).
  assert (B6 : bpow radix10 6 = 1000000%R) by reflexivity. assert (B7 : bpow radix10 7 = 10000000%R) by reflexivity.
  assert (C : forall x, (1000000 <= x < 10000000)%R -> cexp radix10 (FLX_exp 6) x = 1).
  { intros x H. unfold cexp. rewrite (mag_unique radix10 x 7); [reflexivity|]. change (7 - 1) with 6. rewrite B6, B7.
    rewrite Rabs_pos_eq by lra. lra. }
  assert (R1 : round radix10 (FLX_exp 6) ZnearestE 1234567 = 1234570%R).
  { unfold round, scaled_mantissa. rewrite C by lra. assert (E : ZnearestE (1234567 * bpow radix10 (- (1))) = 123457).
    { apply Znearest_imp. change (bpow radix10 (-(1))) with (/ 10)%R. apply Rabs_lt. lra. }
    rewrite E. unfold F2R. cbn [Fnum Fexp]. change (bpow radix10 1) with 10%R. lra. }
  rewrite R1. unfold scaled_mantissa. rewrite C by lra.
  replace (1234570 * bpow radix10 (- (1)))%R with (IZR 123457) by (change (bpow radix10 (-(1))) with (/ 10)%R; lra).
  rewrite Ztrunc_IZR. reflexivity.
Qed.

Theorem C60_refuted : forall fsin fcos ftan failed_double junk_char l0, exists l l' : latlong (Num64 fsin fcos ftan),
  l' <> l /\
  @read_latlong (Num64 fsin fcos ftan) strtod64 failed_double junk_char (mkStream (print_latlong (N := Num64 fsin fcos ftan) printf64 l ++ ["010"%char]) false) l0 = (l', mkStream ["010"%char] false).
Proof.
  intros fs fc ft fd jc l0. set (N := Num64 fs fc ft).
  assert (S6 : six 123457 1) by (split; [lia|discriminate]).
  assert (D : dec 123457 1 = 1234570%R) by (unfold dec; change (bpow radix10 1) with 10%R; lra).
  destruct (strtod64_total false 123457 1 S6) as (y & Y).
  { rewrite D. apply Rle_trans with (bpow radix2 24); [change (bpow radix2 24) with 16777216%R; lra|apply bpow_le; lia]. }
  assert (VY : B2R y = 1234570%R).
  { destruct (strtod64_value false (decimal 123457 1) y) as (_ & V & _); [rewrite Q2R_decimal, D; lra|assumption|].
    rewrite V, Q2R_decimal, D. rewrite round_generic; [lra|apply valid_rnd_N|].
    apply (generic_format_FLT radix2 (-1074) 53). exists (Float radix2 1234570 0); [unfold F2R; cbn; lra|cbn; lia|cbn; lia]. }
  assert (T : real_text (num N) strtod64 (put_double (N := N) printf64 (b64_Z 1234567)) y).
  { unfold put_double. rewrite printf64_1234567. destruct (show_g_denotes false 123457 1 ltac:(lia)) as (m & e & DN & V).
    exists false, m, e. split; [assumption|]. unfold decimal in V. rewrite V. exact Y. }
  exists (@mkLatLong N (b64_Z 1234567) (b64_Z 1234567)), (@mkLatLong N y y). split.
  - intros E. assert (B : B2R y = B2R (b64_Z 1234567)) by exact (f_equal (fun l : latlong N => B2R (ll_lat l)) E).
    rewrite VY, (proj1 (Z_exact_64 1234567 ltac:(lia))) in B. apply eq_IZR in B. discriminate.
  - apply read_latlong_ok. exists [], (put_double (N := N) printf64 (b64_Z 1234567)), [], [], (put_double (N := N) printf64 (b64_Z 1234567)).
    split; [unfold print_latlong; cbn [ll_lat ll_lon app]; rewrite <- app_assoc; reflexivity|].
    do 3 (split; [constructor|]). split; [assumption|]. split; [assumption|].
    change ["010"%char] with (["010"%char] ++ []). apply blank_ends_number. split; [constructor; [cbn; auto|constructor]|discriminate].
Qed.
Print Assumptions C60_refuted.

(** Concrete cases: a file with two good records, a third with a wrong separator, and a
    fourth that is lost. *)
Definition whole (neg : bool) (q : Q) : option Z := Some (if neg then - Qround.Qfloor q else Qround.Qfloor q).
Definition text (s : string) : list ascii := list_ascii_of_string s.
Example ex_C59 : forall junk failed, InstallGroundFile NumZ whole failed junk (Some (text " 1.5e1 : -3 +7:8 1;2 9:9"))
  (InstallLocations [@mkLatLong NumZ 15 (-3); @mkLatLong NumZ 7 8]).
Proof.
  intros junk failed. eexists [@mkLatLong NumZ 15 (-3); @mkLatLong NumZ 7 8], _. split; [|reflexivity].
  eapply extracts_next; [vm_compute; reflexivity|reflexivity|]. eapply extracts_next; [vm_compute; reflexivity|reflexivity|].
  eapply extracts_end; vm_compute; reflexivity.
Qed.
(** A negative number of planes wraps around, one above 65535 ends the file. *)
Example ex_C59_orbits : forall junk failed, exists s',
  extracts (@read_orbit NumZ whole failed junk) (mkStream (text "550:53:72:22
    1:2:-1:65535 1:2:65536:1 3:4:5:6") false) (@mkLeoOrbit NumZ 0 0 0 0) [@mkLeoOrbit NumZ 550 53 72 22; @mkLeoOrbit NumZ 1 2 65535 65535] s'.
Proof.
  intros junk failed. eexists. eapply extracts_next; [vm_compute; reflexivity|reflexivity|]. eapply extracts_next; [vm_compute; reflexivity|reflexivity|].
  eapply extracts_end; [vm_compute; reflexivity|]. lazy. destruct junk. repeat match goal with |- context [if ?b then _ else _] => destruct b end; reflexivity.
Qed.

(** 123.456:-0.005 is printed, and read back in binary64. *)
Example ex_C60 : forall fsin fcos ftan, exists x y, strtod64 false (decimal 123456 (-3)) = Some x /\ strtod64 true (decimal 5 (-3)) = Some y /\
  print_latlong (N := Num64 fsin fcos ftan) printf64 (@mkLatLong (Num64 fsin fcos ftan) x y) = text "123.456:-0.005" /\
  forall failed junk nodes, InstallGroundFile (Num64 fsin fcos ftan) strtod64 failed junk (Some (text "123.456:-0.005 ")) nodes <->
    nodes = InstallLocations [@mkLatLong (Num64 fsin fcos ftan) x y].
Proof.
  intros fs fc ft.
  assert (R : forall m e, (1 <= IZR m * bpow radix10 (e + 3) / 1 <= 1000000)%R -> (bpow radix2 (-1022) <= IZR m * bpow radix10 e <= bpow radix2 1023)%R).
  { intros m e H. rewrite bpow_plus in H. change (bpow radix10 3) with 1000%R in H. split.
    - apply Rle_trans with (bpow radix2 (-10)); [apply bpow_le; lia|]. change (bpow radix2 (-10)) with (/ 1024)%R. lra.
    - apply Rle_trans with (bpow radix2 20); [|apply bpow_le; lia]. change (bpow radix2 20) with 1048576%R. lra. }
  destruct (C60_short_total false 123456 (-3) ltac:(lia) ltac:(discriminate)) as (x & SX & X); [apply R; cbn; lra|].
  destruct (C60_short_total true 5 (-3) ltac:(lia) ltac:(discriminate)) as (y & SY & Y); [apply R; cbn; lra|].
  exists x, y. split; [assumption|]. split; [assumption|].
  assert (PX : printf64 x = (false, 123456, -3)) by (apply six_round_trip; [split; [lia|discriminate]|apply (R 123456 (-3)); cbn; lra|assumption]).
  assert (PY : printf64 y = (true, 5, -3)) by (apply six_round_trip; [split; [lia|discriminate]|apply (R 5 (-3)); cbn; lra|assumption]).
  assert (PL : print_latlong (N := Num64 fs fc ft) printf64 (@mkLatLong (Num64 fs fc ft) x y) = text "123.456:-0.005").
  { unfold print_latlong, put_double. cbn [ll_lat ll_lon]. rewrite PX, PY. vm_compute. reflexivity. }
  split; [assumption|]. intros failed junk.
  pose proof (C60_locations (Num64 fs fc ft) strtod64 failed junk printf64 [(@mkLatLong (Num64 fs fc ft) x y, [" "%char])]) as H.
  cbn [lines map fst] in H. rewrite PL in H. apply H. constructor; [|constructor]. cbn [fst snd ll_lat ll_lon].
  split; [apply C60_binary64; assumption|]. split; [apply C60_binary64; assumption|]. split; [constructor; [cbn; auto|constructor]|discriminate].
Qed.
