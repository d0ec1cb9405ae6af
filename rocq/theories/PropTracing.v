(** C79: the tracing program, examples/leo-circular-orbit-tracing-example.cc. *)
Require Import Ascii String ZArith QArith Qreals List Bool Reals Lra Lia Sorted.
From Flocq Require Import Core.Core IEEE754.BinarySingleNaN.
Require Import Verif.Base Verif.Num Verif.NumR Verif.Num64 Verif.Vec Verif.OrbitModel Verif.MobilityModel Verif.AllocModel Verif.ParseModel
  Verif.Decimal64Model Verif.TracingModel Verif.GeomSpec Verif.OrbitSpec Verif.MobilitySpec Verif.AllocSpec Verif.ParseSpec Verif.Float64Spec Verif.TracingSpec
  Verif.OrbitProofs Verif.OrbitApiProofs Verif.MobilityProofs Verif.AllocProofs Verif.Alloc64Proofs Verif.AllocApiProofs Verif.ParseRecordProofs
  Verif.TracingProofs Verif.Tracing64Proofs Verif.PropFloat Verif.PropParse.
Import ListNotations.
Local Open Scope Z_scope.

Definition header : list ascii := list_ascii_of_string "Time,Satellite,x,y,z,Speed".

(** The instants at which satellites are observed. *)
Theorem C79_ticks : forall p T,
  StronglySorted Z.lt (ticks p T) /\
  forall t, In t (ticks p T) <-> exists k, 1 <= k /\ 0 < p /\ t = k * p /\ (t < T \/ (k = 1 /\ t = T)).
Proof. exact ticks_spec. Qed.
Print Assumptions C79_ticks.

(** Every second before the end of a minute, not at its end. *)
Example ex_C79_ticks : ticks 1000000000 60000000000 = map (fun k => Z.of_nat k * 1000000000) (seq 1 59) /\
  ticks 60000000000 60000000000 = [60000000000] /\ ticks 30000000000 60000000000 = [30000000000] /\ ticks 0 60000000000 = [].
Proof. repeat split; reflexivity. Qed.

(** The program prints the header and one line per instant and satellite, in this
    order. Real arithmetic. *)
Theorem C79_trace : forall six_digits show_time (junk : point) connect_nothing precision duration (os : list (leoorbit NumR)) out r,
  Forall (fun o => u16 (lo_planes o) /\ u16 (lo_sats o)) os -> Forall installable os ->
  Forall (fun o : leoorbit NumR => 0 < earth_radius_km + lo_alt o)%R os -> 0 <= duration ->
  connect_nothing = true \/ concat (map satellites os) <> [] ->
  (tracing six_digits show_time junk connect_nothing precision duration os out r <->
   r = Ok tt /\
   out = header :: map (fun x : Z * (nat * (leoorbit NumR * (Z * Z))) =>
     let '(t, (i, (o, ps))) := x in
     let p : point := trajectory (earth_radius_km + lo_alt o)%R (lo_inc o * PI / 180)%R (turn (fst ps) (lo_planes o)) (turn (snd ps) (lo_sats o)) (sec t) in
     let text := @put_double NumR six_digits in
     (show_time t ++ ":" :: show (Z.of_nat i) ++ ":" :: text (px p) ++ ":" :: text (py p) ++ ":" :: text (pz p) ++ ":" ::
      text (circular_speed (earth_radius_km + lo_alt o)%R))%char%list)
     (observations (ticks precision duration) (concat (map satellites os)))).
Proof. exact trace_R. Qed.
Print Assumptions C79_trace.

(** The orbits of the program itself: 632 satellites, 59 instants. *)
Lemma default_ok : Forall (fun o => u16 (lo_planes o) /\ u16 (lo_sats o)) (default_orbits NumR) /\ Forall installable (default_orbits NumR) /\
  Forall (fun o : leoorbit NumR => 0 < earth_radius_km + lo_alt o)%R (default_orbits NumR) /\
  length (concat (map satellites (default_orbits NumR))) = 632%nat.
Proof.
  split; [|split; [|split]].
  - repeat constructor; cbn; lia.
  - assert (NE : forall z, z <> 0 -> neq NumR (nZ NumR z) (nZ NumR 0) = false).
    { intros z Hz. apply Reqb_false. intros E. apply Hz. apply eq_IZR. exact E. }
    unfold default_orbits. constructor; [|constructor; [|constructor]]; (split; [cbn; lia|right; apply NE; discriminate]).
  - unfold default_orbits. constructor; [|constructor; [|constructor]]; cbn [lo_alt]; unfold earth_radius_km; cbn; lra.
  - cbn [default_orbits map concat]. rewrite !app_length. unfold satellites. rewrite !first_n_length. reflexivity.
Qed.

Example ex_C79_default : forall six_digits show_time (junk : point) connect_nothing to_double failed_double junk_char,
  exists out, tracing_main six_digits show_time junk connect_nothing to_double failed_double junk_char 1000000000 60000000000 None out (Ok tt) /\
    length out = S (59 * 632).
Proof.
  intros sd sh junk cn td fd jc. destruct default_ok as (A & B & C & L). eexists. split.
  - cbn [tracing_main]. apply C79_trace; try assumption; [lia| |split; reflexivity].
    right. intros E. rewrite E in L. discriminate.
  - cbn [length]. rewrite map_length. unfold observations. rewrite prod_length, combine_length, seq_length, L. reflexivity.
Qed.

(** Otherwise: a negative duration stops the program after the header; orbits that
    cannot be installed (C16), or no satellite at all where ns-3 minds, before it. *)
Theorem C79_negative_duration : forall N six_digits show_time (junk : vec N) connect_nothing precision duration (os : list (leoorbit N)) out r,
  Forall (fun o => u16 (lo_planes o) /\ u16 (lo_sats o)) os -> Forall installable os -> duration < 0 ->
  connect_nothing = true \/ concat (map satellites os) <> [] ->
  (tracing six_digits show_time junk connect_nothing precision duration os out r <-> r = Abort NegativeDelay /\ out = [header]).
Proof. exact tracing_negative. Qed.
Print Assumptions C79_negative_duration.

Theorem C79_failures : forall N six_digits show_time (junk : vec N) connect_nothing precision duration (os : list (leoorbit N)) out r,
  Forall (fun o => u16 (lo_planes o) /\ u16 (lo_sats o)) os ->
  ~ Forall installable os \/ (connect_nothing = false /\ concat (map satellites os) = []) ->
  tracing six_digits show_time junk connect_nothing precision duration os out r ->
  out = [] /\ (r = UB IntOverflow \/ r = Abort AssertFailed).
Proof.
  intros N sd sh junk cn p T os out r Hu H HT.
  assert (D : Forall installable os \/ ~ Forall installable os).
  { destruct (Forall_dec (@installable N)) with (l := os) as [F|F]; auto. intros o. unfold installable.
    destruct (Z_le_gt_dec (lo_planes o * lo_sats o) 2147483647); destruct (Z.eq_dec (lo_planes o * lo_sats o) 0);
      destruct (bool_dec (neq N (lo_inc o) (nZ N 0)) false) as [E|E];
      try (left; split; [lia|tauto]); right; intros [? [?|?]]; (lia || congruence). }
  destruct D as [D|D]; [|exact (tracing_uninstallable N sd sh junk cn p T os out r Hu D HT)].
  destruct H as [H|[H1 H2]]; [contradiction|].
  apply (tracing_nothing N sd sh junk cn p T os out r Hu D H1 H2) in HT. tauto.
Qed.
Print Assumptions C79_failures.

(** Inclination 0 (C16): nothing is printed. *)
Example ex_C79_failure : forall six_digits show_time (junk : point) connect_nothing out r,
  tracing six_digits show_time junk connect_nothing 1000000000 60000000000 [@mkLeoOrbit NumR 550%R 0%R 2 2] out r -> out = [].
Proof.
  intros sd sh junk cn out r H. apply C79_failures in H; [tauto| |].
  - repeat constructor; cbn; lia.
  - left. intros F. inversion F as [|? ? [_ [E|E]] _]; subst; cbn in E; [lia|]. unfold Reqb in E. destruct (Req_EM_T 0 0); [discriminate E|congruence].
Qed.

(** With --orbitFile: the orbits are the records of the text (C59). *)
Theorem C79_orbit_file : forall (N : Num) six_digits show_time (junk : vec N) connect_nothing to_double failed_double junk_char precision duration t,
  exists l rest, orbits (num N) to_double t l rest /\
    forall out r, tracing_main six_digits show_time junk connect_nothing to_double failed_double junk_char precision duration (Some (Some t)) out r <->
      tracing six_digits show_time junk connect_nothing precision duration (map (fun '(alt, inc, p, s) => mkLeoOrbit alt inc p s) l) out r.
Proof.
  intros N sd sh junk cn td fd jc p T t. destruct (C59_orbit_file N td fd jc p junk 0 t) as (l & rest & A & B).
  exists l, rest. split; [exact A|]. intros out r. cbn [tracing_main]. unfold tracing. split.
  - intros (nodes & X & Y). apply B in X. subst nodes. exact Y.
  - intros Y. eexists. split; [apply B; reflexivity|exact Y].
Qed.
Print Assumptions C79_orbit_file.

(** A file that does not exist is a constellation without satellites. *)
Theorem C79_missing_file : forall (N : Num) six_digits show_time (junk : vec N) connect_nothing to_double failed_double junk_char precision duration out r,
  tracing_main six_digits show_time junk connect_nothing to_double failed_double junk_char precision duration (Some None) out r <->
  tracing six_digits show_time junk connect_nothing precision duration [] out r.
Proof.
  intros N sd sh junk cn td fd jc p T out r. cbn [tracing_main]. unfold tracing at 1. cbn [InstallOrbits].
  assert (M : InstallOrbitFile N td fd jc p junk 0 None (Ok [])) by apply C59_missing_file. split.
  - intros (nodes & X & Y). destruct X as (l & s & X & ->). destruct M as (l' & s' & M & EM).
    destruct (extracts_det _ _ _ _ _ _ X _ _ M) as [-> _]. rewrite <- EM in Y. exact Y.
  - intros Y. exists (Ok []). split; [exact M|exact Y].
Qed.
Print Assumptions C79_missing_file.

(** The lines have six columns separated by colons. *)
Theorem C79_columns : forall N six_digits show_time (junk : vec N) connect_nothing precision duration (os : list (leoorbit N)) out r,
  (forall x, 0 <= snd (fst (six_digits x))) -> (forall t, ~ In ":"%char (show_time t) /\ ~ In ","%char (show_time t)) ->
  Forall (fun o => u16 (lo_planes o) /\ u16 (lo_sats o)) os -> Forall installable os -> 0 <= duration ->
  connect_nothing = true \/ concat (map satellites os) <> [] ->
  tracing six_digits show_time junk connect_nothing precision duration os out r ->
  exists lines, out = header :: lines /\ length lines = (length (ticks precision duration) * length (concat (map satellites os)))%nat /\
    fields ","%char header = 6%nat /\
    Forall (fun line => fields ":"%char line = 6%nat /\ fields ","%char line = 1%nat) lines.
Proof.
  intros N sd sh junk cn p T os out r HD HS Hu Hi HT HC H.
  apply (tracing_ok N sd sh junk cn p T os out r Hu Hi HT HC) in H. destruct H as [-> ->]. eexists. split; [reflexivity|].
  split; [rewrite map_length; unfold observations; rewrite prod_length, combine_length, seq_length, Nat.min_id, map_length; reflexivity|].
  split; [reflexivity|]. apply Forall_map, Forall_forall. intros x _.
  split; rewrite row_fields; auto; try (intros t; apply count_occ_not_In, HS); unfold sep; auto.
Qed.
Print Assumptions C79_columns.

(** The header promises columns separated by commas: no line has them. *)
Theorem C79_csv_refuted : forall six_digits show_time (junk : point) connect_nothing,
  (forall x, 0 <= snd (fst (six_digits x))) -> (forall t, ~ In ":"%char (show_time t) /\ ~ In ","%char (show_time t)) ->
  exists precision duration (os : list (leoorbit NumR)) line lines,
    tracing six_digits show_time junk connect_nothing precision duration os (header :: line :: lines) (Ok tt) /\
    fields ","%char line <> fields ","%char header.
Proof.
  intros sd sh junk cn HD HS. destruct default_ok as (A & B & C & L). exists 1000000000, 60000000000, (default_orbits NumR).
  assert (NE : cn = true \/ concat (map satellites (default_orbits NumR)) <> []) by (right; intros E; rewrite E in L; discriminate).
  pose proof (proj2 (C79_trace sd sh junk cn 1000000000 60000000000 _ _ (Ok tt) A B C ltac:(lia) NE) (conj eq_refl eq_refl)) as TR.
  pose proof (C79_columns NumR sd sh junk cn 1000000000 60000000000 (default_orbits NumR) _ _ HD HS A B ltac:(lia) NE TR) as (lines & E & EL & _ & F).
  rewrite E in TR. destruct lines as [|line lines]; [rewrite L in EL; discriminate|].
  exists line, lines. split; [exact TR|]. inversion F as [|? ? [_ F1] _]; subst. rewrite F1. discriminate.
Qed.
Print Assumptions C79_csv_refuted.

Local Open Scope R_scope.

(** In doubles: what a reader of the trace finds is the trajectory up to the six
    digits printed, i.e. up to 5 millionths of the radius of the orbit, and the
    rounding of C75. *)
Theorem C79_trace_binary64 : forall fsin fcos ftan, accurate fsin fcos ->
  forall show_time (junk : vec (Num64 fsin fcos ftan)) connect_nothing precision duration (os : list (leoorbit (Num64 fsin fcos ftan))) out r (n : R),
  Forall (fun o => u16 (lo_planes o) /\ u16 (lo_sats o)) os -> Forall installable os ->
  Forall (fun o : leoorbit (Num64 fsin fcos ftan) => is_finite (lo_alt o : b64) = true /\ 0 <= B2R (lo_alt o) <= 1000000 /\
    is_finite (lo_inc o : b64) = true /\ Rabs (B2R (lo_inc o)) <= 360) os ->
  (0 <= duration)%Z -> 1 <= n <= 100000 -> IZR duration <= n * 86400000000000 ->
  connect_nothing = true \/ concat (map satellites os) <> [] ->
  @tracing (Num64 fsin fcos ftan) printf64 show_time junk connect_nothing precision duration os out r ->
  r = Ok tt /\ exists lines, out = header :: lines /\
  Forall2 (fun line (x : Z * (nat * (leoorbit (Num64 fsin fcos ftan) * (Z * Z)))) =>
    let '(t, (i, (o, ps))) := x in
    let h := earth_radius_km + B2R (lo_alt o) in
    exists p v, row line (show_time t) i p v /\
      within (1000 * h * (5 / 1000000 + n * 2 / 1000000000000)) p
        (trajectory h (B2R (lo_inc o) * PI / 180) (turn (fst ps) (lo_planes o)) (turn (snd ps) (lo_sats o)) (sec t)) /\
      Rabs (v - circular_speed h) <= circular_speed h * (6 / 1000000))
    lines (observations (ticks precision duration) (concat (map satellites os))).
Proof.
  intros fsin fcos ftan ACC sh junk cn p T os out r n Hu Hi Hs HT Hn HN HC H.
  apply (tracing_ok (Num64 fsin fcos ftan) printf64 sh junk cn p T os out r Hu Hi HT HC) in H. destruct H as [-> ->].
  split; [reflexivity|]. eexists. split; [reflexivity|]. rewrite observations_map, map_map.
  assert (G : forall x, In x (observations (ticks p T) (concat (map satellites os))) -> In x (observations (ticks p T) (concat (map satellites os)))) by auto.
  revert G. generalize (observations (ticks p T) (concat (map satellites os))) at 1 3 4. intros l.
  induction l as [|[t [i [o ps]]] l IH]; intros G; cbn [map]; constructor; [|apply IH; intros x Hx; apply G; right; exact Hx].
  specialize (G (t, (i, (o, ps))) (or_introl eq_refl)). apply in_observations in G. destruct G as [G1 G2].
  apply nth_error_In in G2. apply in_satellites in G2. destruct G2 as [G2 G3]. destruct (G3 Hu) as (P1 & P2 & P3 & P4).
  rewrite Forall_forall in Hs. destruct (Hs _ G2) as (S1 & S2 & S3 & S4).
  apply (proj2 (ticks_spec p T)) in G1. destruct G1 as (k & K1 & K2 & K3 & K4).
  cbn [fst snd]. apply (line_64 fsin fcos ftan ACC); try assumption; [nia|].
  apply Rle_trans with (2 := HN). apply IZR_le. lia.
Qed.
Print Assumptions C79_trace_binary64.

(** The digits of [printf64] meet the hypothesis of C79_columns. *)
Example ex_C79_columns : forall x, (0 <= snd (fst (printf64 x)))%Z.
Proof.
  intros x. destruct (is_finite x) eqn:F.
  - destruct (printf64_close x F) as (neg & m & e & -> & Hm & _). exact Hm.
  - unfold printf64. rewrite Req_bool_true; [apply Z.le_refl|]. destruct x; try discriminate; reflexivity.
Qed.

(** The orbits of the program, in doubles, for a minute: every printed position is
    within 38 m of the satellite. *)
Example ex_C79_binary64 : forall ftan, let N := Num64 (fun x => fixed_point (sin (B2R x))) (fun x => fixed_point (cos (B2R x))) ftan in
  forall show_time (junk : vec N), exists lines,
  @tracing N printf64 show_time junk false 1000000000 60000000000 (default_orbits N) (header :: lines) (Ok tt) /\
  length lines = (59 * 632)%nat /\
  Forall2 (fun line (x : Z * (nat * (leoorbit N * (Z * Z)))) => let '(t, (i, (o, ps))) := x in exists p v, row line (show_time t) i p v /\
    within 38 p (trajectory (earth_radius_km + B2R (lo_alt o)) (B2R (lo_inc o) * PI / 180) (turn (fst ps) (lo_planes o)) (turn (snd ps) (lo_sats o)) (sec t)))
    lines (observations (ticks 1000000000 60000000000) (concat (map satellites (default_orbits N)))).
Proof.
  intros ftan N sh junk.
  assert (A : Forall (fun o => u16 (lo_planes o) /\ u16 (lo_sats o)) (default_orbits N)) by (repeat constructor; cbn; lia).
  assert (B : Forall installable (default_orbits N)).
  { unfold default_orbits. constructor; [|constructor; [|constructor]]; (split; [cbn; lia|right; vm_compute; reflexivity]). }
  assert (L : length (concat (map satellites (default_orbits N))) = 632%nat).
  { cbn [default_orbits map concat]. rewrite !app_length. unfold satellites. rewrite !first_n_length. reflexivity. }
  assert (NE : false = true \/ concat (map satellites (default_orbits N)) <> []) by (right; intros E; rewrite E in L; discriminate).
  pose proof (proj2 (tracing_ok N printf64 sh junk false 1000000000 60000000000 (default_orbits N) _ (Ok tt) A B ltac:(lia) NE) (conj eq_refl eq_refl)) as TR.
  assert (S : Forall (fun o : leoorbit N => is_finite (lo_alt o : b64) = true /\ 0 <= B2R (lo_alt o) <= 1000000 /\
    is_finite (lo_inc o : b64) = true /\ Rabs (B2R (lo_inc o)) <= 360) (default_orbits N)).
  { unfold default_orbits. repeat constructor; cbn [lo_alt lo_inc N Num64 nZ];
      destruct (Z_exact_64 1200 ltac:(lia)) as [V1 F1]; destruct (Z_exact_64 20 ltac:(lia)) as [V2 F2];
      destruct (Z_exact_64 1180 ltac:(lia)) as [V3 F3]; destruct (Z_exact_64 30 ltac:(lia)) as [V4 F4];
      try assumption; rewrite ?V1, ?V2, ?V3, ?V4; try rewrite Rabs_pos_eq; lra. }
  destruct (C79_trace_binary64 _ _ ftan ex_accurate sh junk false 1000000000 60000000000 _ _ _ 1 A B S ltac:(lia) ltac:(lra) ltac:(lra) NE TR) as (_ & lines & E & F).
  change (Num64 _ _ ftan) with N in F. exists lines. rewrite E in TR. split; [exact TR|].
  pose proof (Forall2_length F) as LF. unfold observations in LF. rewrite prod_length, combine_length, seq_length, L in LF. split; [rewrite LF; reflexivity|].
  clear E TR LF. assert (G : forall x, In x (observations (ticks 1000000000 60000000000) (concat (map satellites (default_orbits N)))) -> B2R (lo_alt (fst (snd (snd x)))) <= 1200).
  { intros [t [i [o ps]]] H. apply in_observations in H. destruct H as [_ H]. apply nth_error_In in H. apply in_satellites in H. destruct H as [H _].
    cbn [fst snd]. destruct H as [<-|[<-|[]]]; cbn [lo_alt N Num64 nZ]; [rewrite (proj1 (Z_exact_64 1200 ltac:(lia)))|rewrite (proj1 (Z_exact_64 1180 ltac:(lia)))]; lra. }
  induction F as [|line [t [i [o ps]]] lines l H F IH]; constructor.
  - specialize (G _ (or_introl eq_refl)). cbn [fst snd] in G. destruct H as (p & v & R & W & _). exists p, v. split; [exact R|].
    assert (EH : 1000 * (earth_radius_km + B2R (lo_alt o)) * (5 / 1000000 + 1 * 2 / 1000000000000) <= 38) by (unfold earth_radius_km; lra).
    destruct W as (W1 & W2 & W3). repeat split; eapply Rle_trans; eassumption.
  - apply IH. intros x Hx. apply G. right. exact Hx.
Qed.
