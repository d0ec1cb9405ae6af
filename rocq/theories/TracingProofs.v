Require Import Ascii String ZArith QArith List Bool Lia Sorted Reals.
Require Import Verif.Base Verif.Num Verif.NumR Verif.Vec Verif.GeomSpec Verif.OrbitModel Verif.MobilityModel Verif.AllocModel Verif.ParseModel
  Verif.TracingModel Verif.MobilitySpec Verif.AllocSpec Verif.ParseSpec Verif.TracingSpec
  Verif.OrbitSpec Verif.OrbitProofs Verif.OrbitApiProofs Verif.MobilityProofs Verif.AllocProofs Verif.ParseRecordProofs.
Import ListNotations.
Local Open Scope Z_scope.

Lemma Forall2_length : forall A B (R : A -> B -> Prop) l1 l2, Forall2 R l1 l2 -> length l1 = length l2.
Proof. intros A B R l1 l2 H. induction H; cbn; congruence. Qed.
Arguments Forall2_length {A B R l1 l2}.

(** ** The event queue *)
Lemma schedule_end : forall t e q, Forall (fun x => fst x <= t) q -> schedule t e q = (q ++ [(t, e)])%list.
Proof.
  intros t e q H. induction H as [|[t' e'] r H1 H2 IH]; [reflexivity|]. cbn [fst] in H1. cbn [schedule app].
  destruct (Z.ltb_spec t t'); [lia|]. rewrite IH. reflexivity.
Qed.

Lemma schedule_middle : forall t e q1 t2 e2 q2, Forall (fun x => fst x <= t) q1 -> t < t2 ->
  schedule t e (q1 ++ (t2, e2) :: q2) = (q1 ++ (t, e) :: (t2, e2) :: q2)%list.
Proof.
  intros t e q1 t2 e2 q2 H L. induction H as [|[t' e'] r H1 H2 IH]; cbn [schedule app fst] in *.
  - destruct (Z.ltb_spec t t2); [reflexivity|lia].
  - destruct (Z.ltb_spec t t'); [lia|]. rewrite IH. reflexivity.
Qed.

(** The updates at time [t] of the nodes i, ..., i + n - 1. *)
Definition updates (t : Z) (i n : nat) : list (Z * event) := map (fun j => (t, EUpdate j)) (seq i n).

Lemma updates_le : forall t u i n, t <= u -> Forall (fun x : Z * event => fst x <= u) (updates t i n).
Proof. intros t u i n H. unfold updates. apply Forall_map, Forall_forall. intros j _. exact H. Qed.

Lemma updates_snoc : forall t i n, (updates t i n ++ [(t, EUpdate (i + n))])%list = updates t i (S n).
Proof. intros. unfold updates. rewrite seq_S, map_app. reflexivity. Qed.

Section Run.
  Variable N : Num.
  Variable six_digits : num N -> bool * Z * Z.
  Variable show_time : Z -> list ascii.
  Variable junk : vec N.
  Variables p T : Z.
  Hypothesis Hp : 0 < p.

  Notation fire := (fire six_digits show_time junk).
  Notation run := (run six_digits show_time junk).

  (** A node on orbit [o] with one update pending at [t]. *)
  Definition waits (t : Z) (o : orbit N) (s : mob N) : Prop :=
    orbit_of s = Some o /\ m_precision s = p /\ s_pending s = [t].

  (** The line printed for node [i] on orbit [o] at time [t]. *)
  Definition obs_line (x : Z * (nat * orbit N)) : list ascii :=
    let '(t, (i, o)) := x in
    let pos := CalcPosition o t t in
    (show_time t ++ ":"%char :: show (Z.of_nat i) ++
      ":"%char :: put_double six_digits (vx pos) ++ ":"%char :: put_double six_digits (vy pos) ++
      ":"%char :: put_double six_digits (vz pos) ++ ":"%char :: put_double six_digits (vlen (VelocityAt o t pos)))%list.

  Lemma set_nth_app : forall l1 (s s' : mob N) l2, set_nth (length l1) s' (l1 ++ s :: l2) = (l1 ++ s' :: l2)%list.
  Proof. induction l1 as [|x l1 IH]; intros; cbn; [reflexivity|]. rewrite IH. reflexivity. Qed.

  Lemma fire_ok : forall t o s l1 l2 q, waits t o s ->
    exists s', waits (t + p) o s' /\
      fire t (length l1) (l1 ++ s :: l2) q =
        Ok (obs_line (t, (length l1, o)), mkSim (l1 ++ s' :: l2) (schedule (t + p) (EUpdate (length l1)) q)).
  Proof.
    intros t o s l1 l2 q (Ho & Pp & Pend). unfold TracingModel.fire.
    rewrite nth_error_app2 by lia. replace (length l1 - length l1)%nat with O by lia. cbn [nth_error].
    rewrite Pend. cbn [remove_one]. rewrite Z.eqb_refl.
    set (s1 := set_now (set_pending s []) t).
    assert (O1 : orbit_of s1 = Some o) by exact Ho.
    assert (P1 : m_precision s1 = p) by exact Pp.
    exists (fst (Update junk s1)). split.
    - split; [rewrite (Update_orbit _ junk); exact O1|]. split; [rewrite (Update_prec _ junk); exact P1|].
      rewrite (Update_pending _ junk), P1. destruct (Z.ltb_spec 0 p); [reflexivity|lia].
    - unfold CourseChange, DoGetVelocity. rewrite (Update_orbit _ junk), O1. cbn [option_map].
      assert (EP : DoGetPosition junk (fst (Update junk s1)) = CalcPosition o t t).
      { unfold DoGetPosition. rewrite (Update_prec _ junk), P1. destruct (Z.eqb_spec p 0); [lia|].
        rewrite (Update_position _ junk s1 o O1). reflexivity. }
      rewrite EP, (Update_now _ junk). cbn [bind]. rewrite set_nth_app.
      rewrite (Update_pending _ junk), P1. destruct (Z.ltb_spec 0 p); [|lia]. reflexivity.
  Qed.

  (** What is pending besides the updates of the current round. *)
  Definition after (u : Z) (i : nat) : list (Z * event) :=
    if u <? T then (updates u 0 i ++ [(T, EStop)])%list else ((T, EStop) :: updates u 0 i)%list.

  Lemma round_ok : forall t os2 os1 l1 l2, t <= T ->
    Forall2 (waits (t + p)) os1 l1 -> Forall2 (waits t) os2 l2 ->
    exists l2', Forall2 (waits (t + p)) os2 l2' /\
    forall out r, run (mkSim (l1 ++ l2') (after (t + p) (length l1 + length l2))) out r ->
      run (mkSim (l1 ++ l2) (updates t (length l1) (length l2) ++ after (t + p) (length l1)))
        (map obs_line (map (fun x => (t, x)) (combine (seq (length os1) (length os2)) os2)) ++ out) r.
  Proof.
    intros t os2. induction os2 as [|o os2 IH]; intros os1 l1 l2 HT H1 H2.
    - inversion H2; subst. exists []. split; [constructor|]. intros out r R. cbn. rewrite Nat.add_0_r in R. exact R.
    - inversion H2 as [|? s ? l2r W H2']; subst.
      destruct (fire_ok t o s l1 l2r (updates t (S (length l1)) (length l2r) ++ after (t + p) (length l1)) W) as (s' & W' & F).
      destruct (IH (os1 ++ [o]) (l1 ++ [s']) l2r HT) as (l2' & HL & RR).
      { apply Forall2_app; [exact H1|]. constructor; [exact W'|constructor]. }
      { exact H2'. }
      exists (s' :: l2'). split; [constructor; assumption|]. intros out r R.
      cbn [length]. unfold updates. cbn [seq map app].
      pose proof (Forall2_length H1) as EL.
      cbn [combine]. rewrite EL. eapply run_update; [exact F|].
      assert (EQ : schedule (t + p) (EUpdate (length l1)) (updates t (S (length l1)) (length l2r) ++ after (t + p) (length l1)) =
                   (updates t (length (l1 ++ [s'])) (length l2r) ++ after (t + p) (length (l1 ++ [s'])))%list).
      { rewrite app_length. cbn [length]. rewrite Nat.add_1_r. unfold after.
        destruct (Z.ltb_spec (t + p) T).
        - rewrite app_assoc. rewrite schedule_middle; [|apply Forall_app; split; apply updates_le; lia|lia].
          rewrite <- app_assoc. f_equal. rewrite <- (updates_snoc _ 0). rewrite <- app_assoc. reflexivity.
        - rewrite schedule_end.
          + rewrite <- app_assoc. f_equal. cbn [app]. f_equal. apply (updates_snoc _ 0).
          + apply Forall_app. split; [apply updates_le; lia|]. constructor; [cbn; lia|]. apply updates_le. lia. }
      rewrite EQ. replace (l1 ++ s' :: l2r)%list with ((l1 ++ [s']) ++ l2r)%list by (rewrite <- app_assoc; reflexivity).
      specialize (RR out r).
      rewrite !app_length in RR. cbn [length] in RR. rewrite EL, Nat.add_1_r in RR.
      rewrite !app_length. cbn [length]. rewrite Nat.add_1_r. apply RR.
      rewrite <- app_assoc. cbn [app]. replace (S (length l1) + length l2r)%nat with (length l1 + length (s :: l2r))%nat by (cbn; lia).
      exact R.
  Qed.

  (** From the beginning of a round: [n] further rounds start before [T]. *)
  Lemma rounds_ok : forall n t os l, t <= T -> t + Z.of_nat n * p < T \/ n = O /\ t = T -> T <= t + (Z.of_nat n + 1) * p ->
    Forall2 (waits t) os l ->
    run (mkSim l (updates t 0 (length l) ++ [(T, EStop)]))
      (map obs_line (list_prod (map (fun k => t + Z.of_nat k * p) (seq 0 (S n))) (combine (seq 0 (length os)) os))) (Ok tt).
  Proof.
    induction n as [|n IH]; intros t os l HT H1 H2 HF.
    - destruct (round_ok t os [] [] l HT (Forall2_nil _) HF) as (l' & _ & R).
      assert (E : after (t + p) 0 = [(T, EStop)]) by (unfold after; destruct (_ <? _); reflexivity).
      specialize (R [] (Ok tt)). cbn [length app] in R. rewrite E, app_nil_r in R.
      cbn [seq map list_prod]. rewrite app_nil_r, Z.mul_0_l, Z.add_0_r. apply R.
      cbn [plus]. unfold after. destruct (Z.ltb_spec (t + p) T); [lia|]. constructor.
    - destruct (round_ok t os [] [] l HT (Forall2_nil _) HF) as (l' & HF' & R).
      assert (E : after (t + p) 0 = [(T, EStop)]) by (unfold after; destruct (_ <? _); reflexivity).
      destruct H1 as [H1|[H1 _]]; [|discriminate].
      specialize (IH (t + p) os l'). rewrite Nat2Z.inj_succ in *.
      assert (L : t + p < T) by nia.
      specialize (IH ltac:(lia) ltac:(left; lia) ltac:(lia) HF').
      specialize (R _ _ ltac:(cbn [app length plus]; unfold after; rewrite (proj2 (Z.ltb_lt _ _) L);
                              rewrite <- (Forall2_length HF), (Forall2_length HF'); exact IH)).
      cbn [length app] in R. rewrite E in R.
      rewrite <- cons_seq. cbn [map list_prod]. rewrite map_app. rewrite Z.mul_0_l, Z.add_0_r.
      rewrite <- seq_shift.
      replace (map (fun k => t + Z.of_nat k * p) (map S (seq 0 (S n)))) with (map (fun k => t + p + Z.of_nat k * p) (seq 0 (S n))).
      + exact R.
      + rewrite map_map. apply map_ext. intros k. rewrite Nat2Z.inj_succ. lia.
  Qed.
End Run.

Lemma installed_updates : forall N p os (l : list (mob N)) i, Forall2 (waits N p p) os l ->
  installed_events i l (updates p 0 i) = updates p 0 (i + length l).
Proof.
  intros N p os l i H. revert i. induction H as [|o s os l W H IH]; intros i; cbn [installed_events length].
  - rewrite Nat.add_0_r. reflexivity.
  - destruct W as (_ & _ & ->). cbn [schedule_updates fold_left].
    unfold schedule_updates. cbn [fold_left]. rewrite schedule_end by (apply updates_le; lia).
    change (updates p 0 i ++ [(p, EUpdate i)])%list with (updates p 0 i ++ [(p, EUpdate (0 + i))])%list.
    rewrite updates_snoc, IH. f_equal. lia.
Qed.

Lemma no_updates : forall N (l : list (mob N)) i q, Forall (fun s => s_pending s = []) l -> installed_events i l q = q.
Proof. intros N l i q H. revert i q. induction H as [|s l E H IH]; intros; cbn; [reflexivity|]. rewrite E. apply IH. Qed.

Lemma run_det : forall N sd sh (junk : vec N) st out1 r1, run sd sh junk st out1 r1 -> forall out2 r2, run sd sh junk st out2 r2 -> out1 = out2 /\ r1 = r2.
Proof.
  intros N sd sh junk st out1 r1 H. induction H as [|nodes t q|nodes t i q line st out r F H IH|nodes t i q w F|nodes t i q w F];
    intros out2 r2 H2; inversion H2; subst; auto; try congruence; try (split; congruence).
  match goal with A : fire _ _ _ _ _ _ _ = Ok _, B : fire _ _ _ _ _ _ _ = Ok _ |- _ => rewrite A in B; injection B as <- <- end.
  match goal with R : run _ _ _ _ _ _ |- _ => destruct (IH _ _ R) as [-> ->]; auto end.
Qed.

Lemma ticks_seq : forall p T, 0 < p <= T ->
  ticks p T = map (fun k => p + Z.of_nat k * p) (seq 0 (if p =? T then 1 else Z.to_nat ((T - 1) / p))).
Proof.
  intros p T H. unfold ticks. destruct (Z.leb_spec p 0); [lia|]. destruct (Z.eqb_spec p T).
  - cbn [seq map]. f_equal. lia.
  - unfold first_n. apply map_ext. intros k. lia.
Qed.

(** The lines of a run, for an arbitrary arithmetic. *)
Lemma run_lines : forall N sd sh (junk : vec N) p T (os : list (orbit N)) (l : list (mob N)), 0 <= T ->
  Forall2 (fun o s => orbit_of s = Some o /\ m_precision s = p /\ s_pending s = (if 0 <? p then [p] else [])) os l ->
  run sd sh junk (mkSim l (schedule T EStop (installed_events 0 l [])))
    (map (obs_line N sd sh) (observations (ticks p T) os)) (Ok tt).
Proof.
  intros N sd sh junk p T os l HT HF. unfold observations.
  destruct (Z.ltb_spec 0 p) as [Hp|Hp].
  - assert (HF' : Forall2 (waits N p p) os l) by exact HF.
    assert (EI : installed_events 0 l [] = updates p 0 (length l)) by exact (installed_updates N p os l 0 HF').
    rewrite EI. destruct (Z_le_gt_dec p T) as [L|L].
    + rewrite schedule_end by (apply updates_le; lia).
      rewrite ticks_seq by lia.
      set (n := if p =? T then 1%nat else Z.to_nat ((T - 1) / p)).
      assert (E : exists m, n = S m /\ (p + Z.of_nat m * p < T \/ m = O /\ p = T) /\ T <= p + (Z.of_nat m + 1) * p).
      { unfold n. destruct (Z.eqb_spec p T) as [<-|NE]; [exists O; repeat split; lia|].
        assert (1 <= (T - 1) / p) by (apply Z.div_le_lower_bound; lia).
        pose proof (Z.mul_div_le (T - 1) p Hp). pose proof (Z.mul_succ_div_gt (T - 1) p Hp).
        exists (Z.to_nat ((T - 1) / p) - 1)%nat. split; [lia|].
        rewrite Nat2Z.inj_sub, Z2Nat.id by lia. split; [left|]; lia. }
      destruct E as (m & -> & E1 & E2). eapply rounds_ok; eassumption.
    + assert (ES : schedule T EStop (updates p 0 (length l)) = (T, EStop) :: updates p 0 (length l)).
      { unfold updates. destruct (length l); cbn; [reflexivity|]. destruct (Z.ltb_spec T p); [reflexivity|lia]. }
      rewrite ES. replace (ticks p T) with (@nil Z); [apply run_stop|].
      unfold ticks. destruct (Z.leb_spec p 0); [lia|]. destruct (Z.eqb_spec p T); [lia|].
      replace (Z.to_nat ((T - 1) / p)) with O; [reflexivity|].
      destruct (Z.eq_dec T 0) as [->|]; [|rewrite Z.div_small; lia].
      assert ((0 - 1) / p <= 0) by (apply Z.div_le_upper_bound; lia). lia.
  - rewrite no_updates.
    + unfold ticks. destruct (Z.leb_spec p 0); [|lia]. apply run_stop.
    + clear -HF. induction HF as [|? ? ? ? (_ & _ & E) H IH]; constructor; assumption.
Qed.

(** ** Installed satellites *)
Definition sat_orbit {N} (x : leoorbit N * (Z * Z)) : orbit N :=
  let c := circ_vec N (lo_planes (fst x)) (lo_sats (fst x)) (snd x) in
  mkOrbit (HeightOf (lo_alt (fst x))) (RadiansOf (lo_inc (fst x))) (vx c) (vy c).

Lemma is_sat_waits : forall N p (junk : vec N) o ps s, is_sat N p junk 0 o ps s ->
  orbit_of s = Some (sat_orbit (o, ps)) /\ m_precision s = p /\ s_pending s = (if 0 <? p then [p] else []).
Proof.
  intros N p junk o ps s H. unfold is_sat in H. pose proof (reached_orbit _ _ _ _ _ _ _ _ H) as EO.
  split; [exact EO|]. destruct H as (s0 & u & HC & HR).
  destruct (neq N (lo_inc o) (nZ N 0)) eqn:E; [rewrite construct_abort in HC by exact E; discriminate|].
  rewrite construct_ok in HC by exact E. injection HC as <- <-. cbn [mrun mstep bind] in HR. injection HR as <-.
  split; reflexivity.
Qed.

Lemma sorted_map_seq : forall p n i, 0 < p -> StronglySorted Z.lt (map (fun k => (Z.of_nat k + 1) * p) (seq i n)).
Proof.
  intros p n. induction n as [|n IH]; intros i Hp; cbn [seq map]; constructor; [apply IH; exact Hp|].
  apply Forall_map, Forall_forall. intros k Hk. apply in_seq in Hk. nia.
Qed.

Lemma ticks_spec : forall p T,
  StronglySorted Z.lt (ticks p T) /\
  forall t, In t (ticks p T) <-> exists k, 1 <= k /\ 0 < p /\ t = k * p /\ (t < T \/ (k = 1 /\ t = T)).
Proof.
  intros p T. unfold ticks. destruct (Z.leb_spec p 0) as [L|L].
  - split; [constructor|]. intros t. split; [intros []|]. intros (k & _ & H & _). lia.
  - destruct (Z.eqb_spec p T) as [<-|NE].
    + split; [repeat constructor|]. intros t. split.
      * intros [<-|[]]. exists 1. lia.
      * intros (k & Hk & _ & -> & H). left. nia.
    + unfold first_n. split; [apply sorted_map_seq; exact L|]. intros t. rewrite in_map_iff. split.
      * intros (k & <- & Hk). apply in_seq in Hk. exists (Z.of_nat k + 1). repeat split; try lia.
        left. assert (Z.of_nat k + 1 <= (T - 1) / p) by lia. pose proof (Z.mul_div_le (T - 1) p L). nia.
      * intros (k & Hk & _ & -> & H). assert (HT : k * p < T) by (destruct H as [H|[-> H]]; lia).
        exists (Z.to_nat (k - 1)). rewrite Z2Nat.id by lia. split; [lia|]. apply in_seq.
        assert (k <= (T - 1) / p) by (apply Z.div_le_lower_bound; lia). lia.
Qed.

(** ** The program *)
Section Program.
  Variable N : Num.
  Variable sd : num N -> bool * Z * Z.
  Variable sh : Z -> list ascii.
  Variable junk : vec N.
  Variable cn : bool.

  Lemma traced_det : forall T l out1 r1 out2 r2, traced sd sh junk cn T l out1 r1 -> traced sd sh junk cn T l out2 r2 -> out1 = out2 /\ r1 = r2.
  Proof.
    intros T l out1 r1 out2 r2. unfold traced. destruct (negb cn && _); [intros [-> ->] [-> ->]; auto|].
    destruct (T <? 0); [intros [-> ->] [-> ->]; auto|].
    intros (l1 & -> & H1) (l2 & -> & H2). destruct (run_det _ _ _ _ _ _ _ H1 _ _ H2) as [-> ->]. auto.
  Qed.

  Lemma sats_waits : forall p (os : list (leoorbit N)) l,
    Forall2 (fun s x => is_sat N p junk 0 (fst x) (snd x) s) l (concat (map satellites os)) ->
    Forall2 (fun o s => orbit_of s = Some o /\ m_precision s = p /\ s_pending s = (if 0 <? p then [p] else []))
      (map sat_orbit (concat (map satellites os))) l.
  Proof.
    intros p os l H. induction H as [|s [o ps] l xs H1 H2 IH]; cbn [map]; constructor; [|exact IH].
    apply is_sat_waits with (1 := H1).
  Qed.

  Lemma tracing_ok : forall p T (os : list (leoorbit N)) out r,
    Forall (fun o => u16 (lo_planes o) /\ u16 (lo_sats o)) os -> Forall installable os -> 0 <= T ->
    cn = true \/ concat (map satellites os) <> [] ->
    (tracing sd sh junk cn p T os out r <->
     r = Ok tt /\ out = csv_header :: map (obs_line N sd sh) (observations (ticks p T) (map sat_orbit (concat (map satellites os))))).
  Proof.
    intros p T os out r Hu Hi HT HC. unfold tracing.
    destruct (InstallOrbits_ok N p junk 0 os Hu Hi) as (l & -> & HF).
    assert (TR : traced sd sh junk cn T l (csv_header :: map (obs_line N sd sh) (observations (ticks p T) (map sat_orbit (concat (map satellites os))))) (Ok tt)).
    { unfold traced. replace (negb cn && _) with false.
      - destruct (Z.ltb_spec T 0); [lia|]. eexists. split; [reflexivity|]. apply run_lines; [exact HT|]. apply sats_waits, HF.
      - symmetry. destruct HC as [->|HC]; [reflexivity|]. destruct l; [|apply andb_false_r]. inversion HF. congruence. }
    split; [|intros [-> ->]; exact TR]. intros H. destruct (traced_det _ _ _ _ _ _ H TR) as [-> ->]. auto.
  Qed.

  Lemma tracing_negative : forall p T (os : list (leoorbit N)) out r,
    Forall (fun o => u16 (lo_planes o) /\ u16 (lo_sats o)) os -> Forall installable os -> T < 0 ->
    cn = true \/ concat (map satellites os) <> [] ->
    (tracing sd sh junk cn p T os out r <-> r = Abort NegativeDelay /\ out = [csv_header]).
  Proof.
    intros p T os out r Hu Hi HT HC. unfold tracing.
    destruct (InstallOrbits_ok N p junk 0 os Hu Hi) as (l & -> & HF). unfold traced.
    replace (negb cn && _) with false.
    - destruct (Z.ltb_spec T 0); [tauto|lia].
    - symmetry. destruct HC as [->|HC]; [reflexivity|]. destruct l; [|apply andb_false_r]. inversion HF. congruence.
  Qed.

  Lemma tracing_nothing : forall p T (os : list (leoorbit N)) out r,
    Forall (fun o => u16 (lo_planes o) /\ u16 (lo_sats o)) os -> Forall installable os ->
    cn = false -> concat (map satellites os) = [] ->
    (tracing sd sh junk cn p T os out r <-> r = Abort AssertFailed /\ out = []).
  Proof.
    intros p T os out r Hu Hi HC HE. unfold tracing.
    destruct (InstallOrbits_ok N p junk 0 os Hu Hi) as (l & -> & HF). unfold traced.
    rewrite HE in HF. inversion HF; subst. cbn. tauto.
  Qed.

  Lemma tracing_uninstallable : forall p T (os : list (leoorbit N)) out r,
    Forall (fun o => u16 (lo_planes o) /\ u16 (lo_sats o)) os -> ~ Forall installable os ->
    tracing sd sh junk cn p T os out r -> out = [] /\ (r = UB IntOverflow \/ r = Abort AssertFailed).
  Proof.
    intros p T os out r Hu Hi. unfold tracing.
    destruct (InstallOrbits_fail N p junk 0 os Hu Hi) as (o & l1 & l2 & _ & _ & _ & ->).
    destruct (_ <? _); intros [-> ->]; auto.
  Qed.
End Program.

(** ** Columns *)
Lemma count_app : forall (l1 l2 : list ascii) c, count_occ ascii_dec (l1 ++ l2) c = (count_occ ascii_dec l1 c + count_occ ascii_dec l2 c)%nat.
Proof. intros. induction l1 as [|a l IH]; cbn; [reflexivity|]. destruct (ascii_dec a c); rewrite IH; reflexivity. Qed.

Definition sep (c : ascii) : Prop := c = ":"%char \/ c = ","%char.

Lemma digits_sep : forall c ds, sep c -> digits ds -> count_occ ascii_dec ds c = O.
Proof.
  intros c ds Hc H. apply count_occ_not_In. intros Hi. unfold digits in H. rewrite Forall_forall in H. specialize (H c Hi).
  destruct Hc as [-> | ->]; cbn in H; repeat (destruct H as [H|H]; [discriminate|]); destruct H.
Qed.
Lemma sign_sep : forall c s neg, sep c -> sign s neg -> count_occ ascii_dec s c = O.
Proof. intros c s neg [-> | ->] H; destruct H; reflexivity. Qed.
Lemma mantissa_sep : forall c t a b, sep c -> mantissa t a b -> count_occ ascii_dec t c = O.
Proof.
  intros c t a b Hc H. destruct H as [a D|a b D1 D2]; [apply digits_sep; assumption|].
  rewrite count_app, (digits_sep c a Hc D1). change (count_occ ascii_dec ("."%char :: b) c = O).
  rewrite count_occ_cons_neq; [apply digits_sep; assumption|]. destruct Hc as [-> | ->]; discriminate.
Qed.
Lemma exponent_sep : forall c t x, sep c -> exponent t x -> count_occ ascii_dec t c = O.
Proof.
  intros c t x Hc H. destruct H as [|l s neg ds HL HS HD HN]; [reflexivity|].
  rewrite count_occ_cons_neq by (destruct HL as [-> | ->]; destruct Hc as [-> | ->]; discriminate).
  rewrite count_app, (sign_sep c s neg Hc HS), (digits_sep c ds Hc HD). reflexivity.
Qed.
Lemma denotes_sep : forall c t neg m e, sep c -> denotes t neg m e -> count_occ ascii_dec t c = O.
Proof.
  intros c t neg m e Hc H. destruct H as [s neg t a b u x HS HM HN HE].
  rewrite !count_app, (sign_sep c s neg Hc HS), (mantissa_sep c t a b Hc HM), (exponent_sep c u x Hc HE). reflexivity.
Qed.
Lemma put_double_sep : forall N (sd : num N -> bool * Z * Z) c x, sep c -> 0 <= snd (fst (sd x)) -> count_occ ascii_dec (put_double sd x) c = O.
Proof.
  intros N sd c x Hc H. unfold put_double. destruct (sd x) as [[neg m] e]. cbn in H.
  destruct (show_g_denotes neg m e H) as (m' & e' & D & _). eapply denotes_sep; eassumption.
Qed.

Lemma row_fields : forall N (sd : num N -> bool * Z * Z) sh c x, (forall x, 0 <= snd (fst (sd x))) ->
  (forall t, count_occ ascii_dec (sh t) c = O) -> sep c ->
  fields c (obs_line N sd sh x) = if ascii_dec c ":"%char then 6%nat else 1%nat.
Proof.
  intros N sd sh c [t [i o]] HD HT Hc. unfold fields, obs_line. cbv zeta.
  assert (P : forall y, count_occ ascii_dec (put_double sd y) c = O) by (intros; apply put_double_sep; auto).
  assert (S : count_occ ascii_dec (show (Z.of_nat i)) c = O) by (apply digits_sep; [exact Hc|]; apply show_spec; lia).
  rewrite !count_app, HT. destruct Hc as [-> | ->].
  - rewrite (count_occ_cons_eq _ _ eq_refl), count_app, S. repeat (rewrite (count_occ_cons_eq _ _ eq_refl), ?count_app, ?P). reflexivity.
  - assert (NE : ":"%char <> ","%char) by discriminate.
    rewrite (count_occ_cons_neq _ _ NE), count_app, S. repeat (rewrite (count_occ_cons_neq _ _ NE), ?count_app, ?P). reflexivity.
Qed.

(** ** Over the reals *)
Lemma combine_map_r : forall A B C (f : B -> C) (l1 : list A) l2, combine l1 (map f l2) = map (fun x => (fst x, f (snd x))) (combine l1 l2).
Proof. induction l1 as [|a l1 IH]; intros [|b l2]; cbn; try reflexivity. rewrite IH. reflexivity. Qed.

Lemma observations_map : forall A B (f : A -> B) ts l,
  observations ts (map f l) = map (fun x => (fst x, (fst (snd x), f (snd (snd x))))) (observations ts l).
Proof.
  intros A B f ts l. unfold observations. rewrite map_length, combine_map_r. induction ts as [|t ts IH]; [reflexivity|].
  cbn [list_prod]. rewrite map_app, IH, !map_map. reflexivity.
Qed.

Lemma in_observations : forall A ts (l : list A) t i x, In (t, (i, x)) (observations ts l) -> In t ts /\ nth_error l i = Some x.
Proof.
  intros A ts l t i x H. unfold observations in H. apply in_prod_iff in H. destruct H as [H1 H2]. split; [exact H1|].
  assert (G : forall k, In (i, x) (combine (seq k (length l)) l) -> nth_error l (i - k) = Some x /\ (k <= i)%nat).
  { clear. induction l as [|a l IH]; intros k H; [destruct H|]. cbn [length seq combine] in H. destruct H as [E|H].
    - injection E as -> ->. replace (i - i)%nat with O by lia. split; [reflexivity|lia].
    - destruct (IH (S k) H) as [A1 A2]. split; [|lia]. replace (i - k)%nat with (S (i - S k)) by lia. exact A1. }
  destruct (G O H2) as [G1 _]. rewrite Nat.sub_0_r in G1. exact G1.
Qed.

Lemma in_satellites : forall N (os : list (leoorbit N)) o ps, In (o, ps) (concat (map satellites os)) -> In o os /\
  (Forall (fun o => u16 (lo_planes o) /\ u16 (lo_sats o)) os -> 0 < lo_planes o <= 65535 /\ 0 < lo_sats o <= 65535 /\ 0 <= fst ps < lo_planes o /\ 0 <= snd ps < lo_sats o).
Proof.
  intros N os o ps H. apply in_concat in H. destruct H as (l & Hl & H). apply in_map_iff in Hl. destruct Hl as (o' & <- & Ho).
  unfold satellites, first_n in H. apply in_map_iff in H. destruct H as (k & E & Hk). injection E as <- <-. split; [exact Ho|].
  intros HF. rewrite Forall_forall in HF. destruct (HF _ Ho) as [HP HS]. unfold u16 in *. apply in_seq in Hk. cbn [fst snd].
  assert (0 < lo_planes o') by nia. assert (0 < lo_sats o') by nia.
  assert (Z.of_nat k / lo_sats o' < lo_planes o') by (apply Z.div_lt_upper_bound; lia).
  pose proof (Z.div_pos (Z.of_nat k) (lo_sats o') ltac:(lia) ltac:(lia)). pose proof (Z.mod_pos_bound (Z.of_nat k) (lo_sats o') ltac:(lia)). lia.
Qed.

Lemma trace_R : forall six_digits show_time (junk : point) connect_nothing precision duration (os : list (leoorbit NumR)) out r,
  Forall (fun o => u16 (lo_planes o) /\ u16 (lo_sats o)) os -> Forall installable os ->
  Forall (fun o : leoorbit NumR => 0 < earth_radius_km + lo_alt o)%R os -> 0 <= duration ->
  connect_nothing = true \/ concat (map satellites os) <> [] ->
  (tracing six_digits show_time junk connect_nothing precision duration os out r <->
   r = Ok tt /\
   out = csv_header :: map (fun x : Z * (nat * (leoorbit NumR * (Z * Z))) =>
     let '(t, (i, (o, ps))) := x in
     let p : point := trajectory (earth_radius_km + lo_alt o)%R (lo_inc o * PI / 180)%R (turn (fst ps) (lo_planes o)) (turn (snd ps) (lo_sats o)) (sec t) in
     let text := @put_double NumR six_digits in
     (show_time t ++ ":" :: show (Z.of_nat i) ++ ":" :: text (px p) ++ ":" :: text (py p) ++ ":" :: text (pz p) ++ ":" ::
      text (circular_speed (earth_radius_km + lo_alt o)%R))%char%list)
     (observations (ticks precision duration) (concat (map satellites os)))).
Proof.
  intros sd sh junk cn p T os out r Hu Hi Ha HT HC. rewrite (tracing_ok NumR sd sh junk cn p T os out r Hu Hi HT HC).
  rewrite observations_map, map_map.
  match goal with |- _ /\ out = csv_header :: map ?f ?l <-> _ /\ out = csv_header :: map ?g ?l =>
    assert (E : map f l = map g l); [|rewrite E; reflexivity] end.
  apply map_ext_in. intros [t [i [o ps]]] HI. apply in_observations in HI. destruct HI as [_ HI]. apply nth_error_In in HI.
  apply in_satellites in HI. destruct HI as [HI _]. rewrite Forall_forall in Ha. specialize (Ha _ HI).
  cbn [fst snd]. unfold obs_line. cbv zeta.
  assert (EO : @sat_orbit NumR (o, ps) = @mkOrbit NumR (earth_radius_km + lo_alt o)%R (lo_inc o * PI / 180)%R (turn (fst ps) (lo_planes o)) (turn (snd ps) (lo_sats o))).
  { unfold sat_orbit. cbn [fst snd]. rewrite circ_vec_R, height_R, radians_R. reflexivity. }
  rewrite EO. set (orb := mkOrbit _ _ _ _).
  assert (EV : vlen (VelocityAt orb t (CalcPosition orb t t)) = circular_speed (earth_radius_km + lo_alt o)).
  { exact (velocity_fresh orb t Ha). }
  rewrite EV, trajectory_at. reflexivity.
Qed.
