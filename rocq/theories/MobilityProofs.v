Require Import ZArith List Bool Lia Permutation.
Require Import Verif.Base Verif.Num Verif.Vec Verif.OrbitModel Verif.MobilityModel Verif.MobilitySpec.
Import ListNotations.
Local Open Scope Z_scope.

Section Proofs.
  Variable N : Num.
  Variable junk : vec N.
  Implicit Types s : mob N.

  Lemma mrun_app : forall ops1 ops2 s,
    mrun junk s (ops1 ++ ops2) = bind (mrun junk s ops1) (fun s' => mrun junk s' ops2).
  Proof.
    induction ops1 as [|op r IH]; intros ops2 s; cbn; [reflexivity|].
    destruct (mstep junk s op); cbn; auto.
  Qed.

  (** ** Parameters *)

  Definition params s : option (num N) * option (num N) * (num N * num N) :=
    (m_height s, m_incl s, (m_lon s, m_off s)).

  Lemma Update_params : forall s, params (fst (Update junk s)) = params s.
  Proof. intros s. unfold Update. destruct (position_now junk s); reflexivity. Qed.

  Lemma mstep_params : forall s op s', mstep junk s op = Ok s' ->
    params s' =
    ((match op with OSetAltitude h => Some (HeightOf h) | _ => m_height s end),
     (match op with OSetInclination i => Some (RadiansOf i) | _ => m_incl s end),
     (match op with OSetPosition p => (vx p, vy p) | _ => (m_lon s, m_off s) end)).
  Proof.
    intros s op s' H. destruct op as [p|h|i|p|t|]; cbn in H.
    - injection H as <-. unfold DoSetPosition. rewrite Update_params. reflexivity.
    - injection H as <-. unfold SetAltitude. rewrite Update_params. reflexivity.
    - unfold SetInclination in H. destruct (neq N i (nZ N 0)); cbn in H; [discriminate|].
      injection H as <-. rewrite Update_params. reflexivity.
    - injection H as <-. reflexivity.
    - destruct (_ && _); injection H as <-; reflexivity.
    - destruct (s_pending s) eqn:E; [injection H as <-; reflexivity|].
      injection H as <-. rewrite Update_params. reflexivity.
  Qed.

  Lemma params_eq : forall s h i lo,
    params s = (h, i, lo) -> m_height s = h /\ m_incl s = i /\ m_lon s = fst lo /\ m_off s = snd lo.
  Proof.
    intros s h i [a b] H. unfold params in H. injection H as <- <- <- <-. auto.
  Qed.

  Lemma run_params : forall ops s s' h i,
    m_height s = Some (HeightOf h) -> m_incl s = Some (RadiansOf i) ->
    mrun junk s ops = Ok s' ->
    orbit_of s' = Some (mkOrbit (HeightOf (last_altitude h ops))
                                (RadiansOf (last_inclination i ops))
                                (fst (last_start (m_lon s, m_off s) ops))
                                (snd (last_start (m_lon s, m_off s) ops))).
  Proof.
    induction ops as [|op r IH]; intros s s' h i Hh Hi H; cbn in H.
    - injection H as <-. unfold orbit_of. rewrite Hh, Hi. reflexivity.
    - destruct (mstep junk s op) as [s1| |] eqn:E; cbn in H; try discriminate.
      pose proof (mstep_params _ _ _ E) as P. apply params_eq in P. destruct P as (P1 & P2 & P3 & P4).
      specialize (IH s1 s' (match op with OSetAltitude h' => h' | _ => h end)
                     (match op with OSetInclination i' => i' | _ => i end)).
      rewrite IH.
      + unfold last_altitude, last_inclination, last_start; cbn [fold_left].
        replace (m_lon s1, m_off s1)
          with (match op with OSetPosition p => (vx p, vy p) | _ => (m_lon s, m_off s) end); [reflexivity|].
        rewrite P3, P4. destruct op; reflexivity.
      + rewrite P1. destruct op; auto.
      + rewrite P2. destruct op; auto.
      + exact H.
  Qed.

  (** ** Aborts *)

  Lemma mstep_ok : forall s op,
    is_ok (mstep junk s op) = match op with OSetInclination i => negb (neq N i (nZ N 0)) | _ => true end.
  Proof.
    intros s op. destruct op as [p|h|i|p|t|]; cbn; try reflexivity.
    - unfold SetInclination. destruct (neq N i (nZ N 0)); reflexivity.
    - destruct (_ && _); reflexivity.
    - destruct (s_pending s); reflexivity.
  Qed.

  Lemma mrun_ok : forall ops s, is_ok (mrun junk s ops) = true <-> legal ops.
  Proof.
    induction ops as [|op r IH]; intros s; cbn.
    - split; [intros _ i []|reflexivity].
    - pose proof (mstep_ok s op) as E.
      destruct (mstep junk s op) as [s1| |]; cbn in *.
      + rewrite IH. split; intros H i Hi.
        * destruct Hi as [->|Hi]; [|apply H, Hi]. symmetry in E. apply negb_true_iff in E. exact E.
        * apply H. right; exact Hi.
      + split; [discriminate|]. intros H. destruct op; try discriminate.
        specialize (H i (or_introl eq_refl)). rewrite H in E. discriminate.
      + split; [discriminate|]. intros H. destruct op; try discriminate.
        specialize (H i (or_introl eq_refl)). rewrite H in E. discriminate.
  Qed.

  Lemma mrun_abort : forall ops s, ~ legal ops -> exists w, mrun junk s ops = Abort w.
  Proof.
    induction ops as [|op r IH]; intros s H.
    - exfalso. apply H. intros i [].
    - cbn. destruct (mstep junk s op) as [s1|w|w] eqn:E; cbn.
      + apply IH. intros Hl. apply H. intros i [->|Hi]; [|apply Hl, Hi].
        pose proof (mstep_ok s (OSetInclination i)) as Ho. rewrite E in Ho. cbn in Ho.
        symmetry in Ho. apply negb_true_iff in Ho. exact Ho.
      + eauto.
      + exfalso. destruct op; cbn in E; try discriminate.
        * unfold SetInclination in E. destruct (neq _ _ _); discriminate.
        * destruct (_ && _); discriminate.
        * destruct (s_pending s); discriminate.
  Qed.

  (** ** The clock and the pending updates *)

  Lemma earliest_le : forall l t, earliest t l <= t /\ forall x, In x l -> earliest t l <= x.
  Proof.
    induction l as [|y r IH]; intros t; cbn.
    - split; [lia|intros x []].
    - destruct (IH (Z.min t y)) as [H1 H2]. split; [lia|].
      intros x [->|Hx]; [lia|]. apply H2, Hx.
  Qed.

  Lemma earliest_in : forall l t, In (earliest t l) (t :: l).
  Proof.
    induction l as [|y r IH]; intros t; cbn [earliest]; [left; reflexivity|].
    destruct (IH (Z.min t y)) as [H|H].
    - rewrite <- H. destruct (Z.min_spec t y) as [[_ ->]|[_ ->]]; cbn; auto.
    - right. right. exact H.
  Qed.

  Lemma remove_one_perm : forall l t, In t l -> Permutation l (t :: remove_one t l).
  Proof.
    induction l as [|x r IH]; intros t H; [destruct H|]. cbn.
    destruct (Z.eqb_spec t x) as [->|Hne]; [reflexivity|].
    destruct H as [->|H]; [congruence|].
    rewrite (IH t H) at 1. apply perm_swap.
  Qed.

  (** Pending updates lie in the future of the clock. *)
  Definition future s : Prop := Forall (fun x => s_now s <= x) (s_pending s).

  Lemma Update_pending : forall s, s_pending (fst (Update junk s)) =
    if 0 <? m_precision s then s_pending s ++ [s_now s + m_precision s] else s_pending s.
  Proof. intros s. unfold Update. destruct (position_now junk s); reflexivity. Qed.
  Lemma Update_now : forall s, s_now (fst (Update junk s)) = s_now s.
  Proof. intros s. unfold Update. destruct (position_now junk s); reflexivity. Qed.
  Lemma Update_prec : forall s, m_precision (fst (Update junk s)) = m_precision s.
  Proof. intros s. unfold Update. destruct (position_now junk s); reflexivity. Qed.
  Lemma Update_notified : forall s, s_notified (fst (Update junk s)) = s_now s :: s_notified s.
  Proof. intros s. unfold Update. destruct (position_now junk s); reflexivity. Qed.
  Lemma Update_position : forall s o, orbit_of s = Some o ->
    m_position (fst (Update junk s)) = CalcPosition o (s_now s) (s_now s).
  Proof. intros s o H. unfold Update, position_now. rewrite H. reflexivity. Qed.
  Lemma orbit_of_params : forall s s', params s = params s' -> orbit_of s = orbit_of s'.
  Proof.
    intros s s' H. unfold params in H. injection H as H1 H2 H3 H4.
    unfold orbit_of. rewrite H1, H2, H3, H4. reflexivity.
  Qed.
  Lemma Update_orbit : forall s, orbit_of (fst (Update junk s)) = orbit_of s.
  Proof. intros s. apply orbit_of_params, Update_params. Qed.

  (** A setter is an Update of a state with the same clock, pending updates and
      precision. *)
  Lemma setter_shape : forall s op s', is_setter op = true -> mstep junk s op = Ok s' ->
    exists s1, s' = fst (Update junk s1) /\ s_now s1 = s_now s /\ s_pending s1 = s_pending s
               /\ m_precision s1 = m_precision s /\ s_notified s1 = s_notified s.
  Proof.
    intros s op s' Hs H. destruct op as [p|h|i|p|t|]; try discriminate; cbn in H.
    - injection H as <-. unfold DoSetPosition. eexists; split; [reflexivity|]. auto.
    - injection H as <-. unfold SetAltitude. eexists; split; [reflexivity|]. auto.
    - unfold SetInclination in H. destruct (neq _ _ _); cbn in H; [discriminate|].
      injection H as <-. eexists; split; [reflexivity|]. auto.
  Qed.

  Lemma fire_shape : forall s s', mstep junk s OFire = Ok s' -> s_pending s <> [] ->
    exists t, In t (s_pending s) /\ Forall (fun x => t <= x) (s_pending s) /\
      s' = fst (Update junk (set_now (set_pending s (remove_one t (s_pending s))) t)).
  Proof.
    intros s s' H Hne. cbn in H. destruct (s_pending s) as [|x r] eqn:E; [congruence|].
    injection H as <-. exists (earliest x r). split; [apply earliest_in|]. split; [|reflexivity].
    destruct (earliest_le r x) as [H1 H2]. constructor; [exact H1|].
    apply Forall_forall. exact H2.
  Qed.

  Lemma mstep_future : forall s op s', 0 <= m_precision s ->
    future s -> mstep junk s op = Ok s' -> future s' /\ s_now s <= s_now s'.
  Proof.
    intros s op s' Hp Hf H.
    destruct (is_setter op) eqn:Hs.
    - destruct (setter_shape s op s' Hs H) as (s1 & -> & H1 & H2 & H3 & H4).
      unfold future. rewrite Update_pending, Update_now, H1, H2, H3. split; [|lia].
      destruct (Z.ltb_spec 0 (m_precision s)); [|exact Hf].
      apply Forall_app. split; [exact Hf|]. constructor; [lia|constructor].
    - destruct op as [p|h|i|p|t|]; try discriminate.
      + cbn in H. injection H as <-. split; [exact Hf|cbn; lia].
      + cbn in H. destruct (_ && _) eqn:E; injection H as <-; [|split; [exact Hf|lia]].
        apply andb_true_iff in E. destruct E as [E1 E2]. apply Z.leb_le in E1.
        split; [|exact E1]. unfold future; cbn.
        rewrite Forall_forall. rewrite forallb_forall in E2. intros x Hx.
        apply Z.leb_le, E2, Hx.
      + destruct (s_pending s) as [|x r] eqn:E.
        { cbn in H. rewrite E in H. injection H as <-. split; [exact Hf|lia]. }
        destruct (fire_shape s s' H) as (t & Hin & Hmin & ->); [congruence|].
        assert (Hfut : forall y, In y (s_pending s) -> s_now s <= y) by (apply Forall_forall; exact Hf).
        unfold future. rewrite Update_pending, Update_now; cbn [s_now set_now set_pending s_pending m_precision].
        split; [|apply Hfut, Hin].
        assert (Hrem : Forall (fun y => t <= y) (remove_one t (s_pending s))).
        { apply Forall_forall. intros y Hy. rewrite Forall_forall in Hmin. apply Hmin.
          apply (Permutation_in (l := t :: remove_one t (s_pending s))).
          - symmetry. apply remove_one_perm, Hin.
          - right; exact Hy. }
        destruct (Z.ltb_spec 0 (m_precision s)); [|exact Hrem].
        apply Forall_app. split; [exact Hrem|]. constructor; [lia|constructor].
  Qed.

  Lemma mstep_precision : forall s op s', mstep junk s op = Ok s' ->
    m_precision s' = match op with OSetPrecision p => p | _ => m_precision s end.
  Proof.
    intros s op s' H.
    destruct (is_setter op) eqn:Hs.
    - destruct (setter_shape s op s' Hs H) as (s1 & -> & _ & _ & H3 & _).
      rewrite Update_prec, H3. destruct op; try discriminate; reflexivity.
    - destruct op as [p|h|i|p|t|]; try discriminate.
      + cbn in H. injection H as <-. reflexivity.
      + cbn in H. destruct (_ && _); injection H as <-; reflexivity.
      + cbn in H. destruct (s_pending s); injection H as <-; [reflexivity|].
        rewrite Update_prec. reflexivity.
  Qed.

  (** ** Bounded staleness *)

  (** The cached position was computed at [t], with the current parameters, and
      an update is due at most one precision later. *)
  Definition tracked s : Prop :=
    exists o t x, orbit_of s = Some o /\ t <= s_now s /\ m_position s = CalcPosition o t t /\
      In x (s_pending s) /\ x <= t + m_precision s.

  Lemma Update_tracked : forall s o, orbit_of s = Some o -> 0 < m_precision s ->
    tracked (fst (Update junk s)).
  Proof.
    intros s o Ho Hp. exists o, (s_now s), (s_now s + m_precision s).
    rewrite Update_orbit, Update_now, Update_pending, Update_prec, (Update_position s o Ho).
    repeat split; auto; try lia.
    destruct (Z.ltb_spec 0 (m_precision s)); [|lia]. apply in_or_app. right. left. reflexivity.
  Qed.

  Lemma mstep_initialised : forall s op s', orbit_of s <> None -> mstep junk s op = Ok s' -> orbit_of s' <> None.
  Proof.
    intros s op s' Ho H. pose proof (mstep_params s op s' H) as P. apply params_eq in P.
    destruct P as (P1 & P2 & _). unfold orbit_of in *. rewrite P1, P2.
    destruct (m_height s), (m_incl s); try congruence.
    destruct op; discriminate.
  Qed.

  Lemma setter_tracked : forall s op s', is_setter op = true -> orbit_of s <> None ->
    0 < m_precision s -> mstep junk s op = Ok s' -> tracked s'.
  Proof.
    intros s op s' Hs Ho Hp H.
    pose proof (mstep_initialised s op s' Ho H) as Ho'.
    destruct (setter_shape s op s' Hs H) as (s1 & -> & H1 & H2 & H3 & H4).
    rewrite Update_orbit in Ho'. destruct (orbit_of s1) as [o|] eqn:E; [|congruence].
    apply (Update_tracked s1 o E). lia.
  Qed.

  Lemma mstep_tracked : forall s op s', 0 < m_precision s -> future s -> tracked s ->
    (forall p, op <> OSetPrecision p) -> mstep junk s op = Ok s' -> tracked s'.
  Proof.
    intros s op s' Hp Hf Ht Hk H.
    assert (Ho : orbit_of s <> None) by (destruct Ht as (o & t & x & E & _); congruence).
    destruct (is_setter op) eqn:Hs; [exact (setter_tracked s op s' Hs Ho Hp H)|].
    destruct op as [p|h|i|p|t|]; try discriminate.
    - exfalso. exact (Hk p eq_refl).
    - cbn in H. destruct (_ && _) eqn:E; injection H as <-; [|exact Ht].
      apply andb_true_iff in E. destruct E as [E1 E2]. apply Z.leb_le in E1.
      destruct Ht as (o & u & x & T1 & T2 & T3 & T4 & T5).
      exists o, u, x. cbn. repeat split; auto. lia.
    - destruct (s_pending s) as [|x r] eqn:E.
      { cbn in H. rewrite E in H. injection H as <-. exact Ht. }
      destruct (fire_shape s s' H) as (t & Hin & Hmin & ->); [congruence|].
      destruct Ht as (o & u & y & T1 & _).
      apply (Update_tracked _ o); [exact T1|exact Hp].
  Qed.

  Lemma run_tracked : forall ops s s', 0 < m_precision s -> future s -> tracked s ->
    keeps_precision ops -> mrun junk s ops = Ok s' ->
    tracked s' /\ future s' /\ m_precision s' = m_precision s.
  Proof.
    induction ops as [|op r IH]; intros s s' Hp Hf Ht Hk H; cbn in H.
    - injection H as <-. auto.
    - destruct (mstep junk s op) as [s1| |] eqn:E; cbn in H; try discriminate.
      assert (Hop : forall p, op <> OSetPrecision p).
      { intros p ->. apply (Hk p). left; reflexivity. }
      pose proof (mstep_precision _ _ _ E) as P.
      assert (P' : m_precision s1 = m_precision s) by (destruct op; try exact P; exfalso; eapply Hop; reflexivity).
      destruct (mstep_future s op s1 ltac:(lia) Hf E) as [Hf1 _].
      pose proof (mstep_tracked s op s1 Hp Hf Ht Hop E) as Ht1.
      rewrite <- P'. apply IH; auto; try lia.
      intros p Hin. apply (Hk p). right; exact Hin.
  Qed.

  Lemma run_precision_future : forall ops s s', 0 <= m_precision s -> future s ->
    keeps_precision ops -> mrun junk s ops = Ok s' ->
    future s' /\ m_precision s' = m_precision s /\ s_now s <= s_now s'.
  Proof.
    induction ops as [|op r IH]; intros s s' Hp Hf Hk H; cbn in H.
    - injection H as <-. split; [exact Hf|]. split; [reflexivity|lia].
    - destruct (mstep junk s op) as [s1| |] eqn:E; cbn in H; try discriminate.
      assert (Hop : forall p, op <> OSetPrecision p).
      { intros p ->. apply (Hk p). left; reflexivity. }
      pose proof (mstep_precision _ _ _ E) as P.
      assert (P' : m_precision s1 = m_precision s) by (destruct op; try exact P; exfalso; eapply Hop; reflexivity).
      destruct (mstep_future s op s1 Hp Hf E) as [Hf1 Hn1].
      destruct (IH s1 s') as (A & B & C); auto; try lia.
      + intros p Hin. apply (Hk p). right; exact Hin.
      + repeat split; auto; lia.
  Qed.

  Lemma run_initialised : forall ops s s', orbit_of s <> None -> mrun junk s ops = Ok s' -> orbit_of s' <> None.
  Proof.
    induction ops as [|op r IH]; intros s s' Ho H; cbn in H.
    - injection H as <-. exact Ho.
    - destruct (mstep junk s op) as [s1| |] eqn:E; cbn in H; try discriminate.
      eapply IH; [|exact H]. eapply mstep_initialised; eauto.
  Qed.

  Lemma staleness : forall ops s s' o',
    orbit_of s <> None -> 0 < m_precision s -> future s ->
    keeps_precision ops -> existsb is_setter ops = true -> mrun junk s ops = Ok s' ->
    orbit_of s' = Some o' ->
    exists t, s_now s' - m_precision s <= t <= s_now s' /\ DoGetPosition junk s' = CalcPosition o' t t.
  Proof.
    intros ops s s' o' Ho Hp Hf Hk He H Ho'.
    apply existsb_exists in He. destruct He as (op & Hin & Hs).
    apply in_split in Hin. destruct Hin as (l1 & l2 & ->).
    rewrite mrun_app in H. destruct (mrun junk s l1) as [s1| |] eqn:E1; cbn in H; try discriminate.
    destruct (mstep junk s1 op) as [s2| |] eqn:E2; cbn in H; try discriminate.
    assert (Hk1 : keeps_precision l1) by (intros p Hi; apply (Hk p), in_or_app; left; exact Hi).
    assert (Hk2 : keeps_precision l2) by (intros p Hi; apply (Hk p), in_or_app; right; right; exact Hi).
    destruct (run_precision_future l1 s s1 ltac:(lia) Hf Hk1 E1) as (F1 & P1 & _).
    pose proof (run_initialised l1 s s1 Ho E1) as O1.
    pose proof (setter_tracked s1 op s2 Hs O1 ltac:(lia) E2) as T2.
    destruct (mstep_future s1 op s2 ltac:(lia) F1 E2) as [F2 _].
    assert (P2 : m_precision s2 = m_precision s1).
    { rewrite (mstep_precision _ _ _ E2). destruct op; try discriminate; reflexivity. }
    destruct (run_tracked l2 s2 s' ltac:(lia) F2 T2 Hk2 H) as (T & F & P).
    destruct T as (o & t & x & T1 & T3 & T4 & T5 & T6).
    exists t. split.
    - unfold future in F. rewrite Forall_forall in F. specialize (F x T5). lia.
    - unfold DoGetPosition. destruct (Z.eqb_spec (m_precision s') 0); [lia|]. congruence.
  Qed.

  (** ** Zero precision *)

  Lemma mstep_zero : forall s op s', m_precision s = 0 -> s_pending s = [] ->
    mstep junk s op = Ok s' -> s_pending s' = [].
  Proof.
    intros s op s' Hp He H.
    destruct (is_setter op) eqn:Hs.
    - destruct (setter_shape s op s' Hs H) as (s1 & -> & H1 & H2 & H3 & H4).
      rewrite Update_pending, H2, H3, Hp. exact He.
    - destruct op as [p|h|i|p|t|]; try discriminate; cbn in H.
      + injection H as <-. exact He.
      + destruct (_ && _); injection H as <-; exact He.
      + rewrite He in H. injection H as <-. exact He.
  Qed.

  Lemma run_zero : forall ops s s', m_precision s = 0 -> s_pending s = [] -> keeps_precision ops ->
    mrun junk s ops = Ok s' -> s_pending s' = [] /\ m_precision s' = 0.
  Proof.
    induction ops as [|op r IH]; intros s s' Hp He Hk H; cbn in H.
    - injection H as <-. auto.
    - destruct (mstep junk s op) as [s1| |] eqn:E; cbn in H; try discriminate.
      pose proof (mstep_precision _ _ _ E) as P.
      apply (IH s1); auto.
      + destruct op; try (rewrite P; exact Hp). exfalso. apply (Hk p). left; reflexivity.
      + eapply mstep_zero; eauto.
      + intros p Hin. apply (Hk p). right; exact Hin.
  Qed.

  Lemma zero_exact : forall s o, m_precision s = 0 -> orbit_of s = Some o ->
    DoGetPosition junk s = CalcPosition o (s_now s) (s_now s).
  Proof. intros s o Hp Ho. unfold DoGetPosition, position_now. rewrite Hp, Ho. reflexivity. Qed.

  (** ** Counting notifications *)

  (** [l] lists for every setter call so far its time and the number of
      notifications it has caused. *)
  Definition counted s (base : nat) (l : list (Z * Z)) : Prop :=
    Permutation (s_pending s) (map (fun c => fst c + snd c * m_precision s) l) /\
    Z.of_nat (length (s_notified s)) = Z.of_nat base + sumZ (map snd l) /\
    Forall (fun c => 1 <= snd c /\ fst c + (snd c - 1) * m_precision s <= s_now s) l.

  Lemma sumZ_app : forall a b, sumZ (a ++ b) = sumZ a + sumZ b.
  Proof. induction a; intros b; cbn; [reflexivity|]. unfold sumZ in *; cbn. rewrite IHa. lia. Qed.

  Lemma mstep_counted : forall s op s' base l, 0 < m_precision s -> future s ->
    (forall p, op <> OSetPrecision p) -> mstep junk s op = Ok s' -> counted s base l ->
    exists l', counted s' base l' /\
      map fst l' = map fst l ++ (if is_setter op then [s_now s] else []).
  Proof.
    intros s op s' base l Hp Hf Hk H (C1 & C2 & C3).
    destruct (mstep_future s op s' ltac:(lia) Hf H) as [Hf' Hnow].
    destruct (is_setter op) eqn:Hs.
    - destruct (setter_shape s op s' Hs H) as (s1 & -> & H1 & H2 & H3 & H4).
      exists (l ++ [(s_now s, 1)]). rewrite map_app. split; [|reflexivity].
      unfold counted. rewrite Update_pending, Update_notified, Update_prec, Update_now, H1, H2, H3, H4.
      destruct (Z.ltb_spec 0 (m_precision s)); [|lia]. repeat split.
      + rewrite map_app. cbn [map fst snd]. apply Permutation_app; [exact C1|].
        replace (s_now s + 1 * m_precision s) with (s_now s + m_precision s) by lia. reflexivity.
      + rewrite map_app, sumZ_app. cbn [length map snd sumZ fold_right]. lia.
      + apply Forall_app. split; [exact C3|]. constructor; [cbn; lia|constructor].
    - rewrite app_nil_r. destruct op as [p|h|i|p|t|]; try discriminate.
      + exfalso. exact (Hk p eq_refl).
      + cbn in H. destruct (_ && _) eqn:E; injection H as <-.
        * exists l. split; [|reflexivity]. repeat split; auto.
          eapply Forall_impl; [|exact C3]. intros c [A B]. cbn in *. lia.
        * exists l. split; [repeat split; auto|reflexivity].
      + destruct (s_pending s) as [|x r] eqn:E.
        { cbn in H. rewrite E in H. injection H as <-. exists l. split; [|reflexivity].
          repeat split; auto. rewrite E. exact C1. }
        destruct (fire_shape s s' H) as (t & Hin & Hmin & ->); [congruence|].
        rewrite <- E in C1.
        (* the element of l that is due at t *)
        assert (Hc : In t (map (fun c => fst c + snd c * m_precision s) l)).
        { eapply Permutation_in; [exact C1|exact Hin]. }
        apply in_map_iff in Hc. destruct Hc as ([c n] & Hcn & Hinl). cbn in Hcn.
        apply in_split in Hinl. destruct Hinl as (l1 & l2 & ->).
        exists (l1 ++ (c, n + 1) :: l2). split; [|rewrite !map_app; reflexivity].
        unfold counted. rewrite Update_pending, Update_notified, Update_prec, Update_now.
        cbn [s_now set_now set_pending s_pending m_precision s_notified].
        destruct (Z.ltb_spec 0 (m_precision s)); [|lia]. repeat split.
        * rewrite map_app in C1. cbn [map fst snd] in C1. rewrite map_app; cbn [map fst snd].
          assert (Hperm : Permutation (remove_one t (s_pending s))
                   (map (fun c => fst c + snd c * m_precision s) l1
                    ++ map (fun c => fst c + snd c * m_precision s) l2)).
          { apply (Permutation_cons_inv (a := t)).
            rewrite <- (remove_one_perm (s_pending s) t Hin). rewrite C1, Hcn.
            symmetry. apply Permutation_middle. }
          rewrite Permutation_app_comm. cbn [app].
          replace (c + (n + 1) * m_precision s) with (t + m_precision s) by lia.
          rewrite Hperm. apply Permutation_middle.
        * rewrite map_app, sumZ_app in *. cbn [map snd sumZ fold_right length] in *.
          unfold sumZ in *. cbn [fold_right] in *. lia.
        * apply Forall_app in C3. destruct C3 as [A B]. inversion B as [|? ? B1 B2]; subst.
          assert (Ht : s_now s <= c + n * m_precision s).
          { unfold future in Hf. rewrite Forall_forall in Hf. apply Hf, Hin. }
          apply Forall_app. split.
          -- eapply Forall_impl; [|exact A]. intros d [D1 D2]. cbn in *. lia.
          -- constructor; [cbn in *; lia|].
             eapply Forall_impl; [|exact B2]. intros d [D1 D2]. cbn in *. lia.
  Qed.

  Lemma run_counted : forall ops s s' base l, 0 < m_precision s -> future s ->
    keeps_precision ops -> mrun junk s ops = Ok s' -> counted s base l ->
    exists l', counted s' base l' /\ map fst l' = map fst l ++ call_times junk s ops.
  Proof.
    induction ops as [|op r IH]; intros s s' base l Hp Hf Hk H HC; cbn in H.
    - injection H as <-. exists l. cbn. rewrite app_nil_r. auto.
    - destruct (mstep junk s op) as [s1| |] eqn:E; cbn in H; try discriminate.
      assert (Hop : forall p, op <> OSetPrecision p).
      { intros p ->. apply (Hk p). left; reflexivity. }
      pose proof (mstep_precision _ _ _ E) as P.
      assert (P' : m_precision s1 = m_precision s) by (destruct op; try exact P; exfalso; eapply Hop; reflexivity).
      destruct (mstep_future s op s1 ltac:(lia) Hf E) as [Hf1 _].
      destruct (mstep_counted s op s1 base l Hp Hf Hop E HC) as (l1 & C1 & M1).
      destruct (IH s1 s' base l1) as (l' & C' & M'); auto; try lia.
      + intros p Hin. apply (Hk p). right; exact Hin.
      + exists l'. split; [exact C'|]. rewrite M', M1. cbn [call_times]. rewrite E.
        rewrite <- app_assoc. reflexivity.
  Qed.

  Lemma notifications : forall ops s s', 0 < m_precision s -> s_pending s = [] ->
    keeps_precision ops -> mrun junk s ops = Ok s' ->
    length (s_pending s') = length (call_times junk s ops) /\
    (Forall (fun x => s_now s' < x) (s_pending s') ->
     Z.of_nat (length (s_notified s')) =
       Z.of_nat (length (s_notified s))
       + sumZ (map (firings (m_precision s) (s_now s')) (call_times junk s ops))).
  Proof.
    intros ops s s' Hp He Hk H.
    assert (Hf : future s) by (unfold future; rewrite He; constructor).
    assert (HC : counted s (length (s_notified s)) []).
    { unfold counted. rewrite He. cbn. repeat split; auto. lia. }
    destruct (run_counted ops s s' _ [] Hp Hf Hk H HC) as (l & (C1 & C2 & C3) & M).
    destruct (run_precision_future ops s s' ltac:(lia) Hf Hk H) as (_ & P & _).
    cbn in M. rewrite <- M. split.
    - rewrite (Permutation_length C1), !map_length. reflexivity.
    - intros Hdone. rewrite C2. f_equal.
      assert (Hl : Forall (fun c => s_now s' < fst c + snd c * m_precision s') l).
      { apply Forall_forall. intros c Hc. rewrite Forall_forall in Hdone. apply Hdone.
        eapply Permutation_in; [symmetry; exact C1|].
        apply (in_map (fun c => fst c + snd c * m_precision s')). exact Hc. }
      rewrite P in *. rewrite map_map.
      clear - C3 Hl Hp. induction l as [|[c n] l IH]; [reflexivity|].
      inversion C3 as [|? ? A B]; subst. inversion Hl as [|? ? A' B']; subst.
      cbn [fst snd] in A, A'. cbn [map fst snd sumZ fold_right].
      fold (sumZ (map snd l)). fold (sumZ (map (fun x => firings (m_precision s) (s_now s') (fst x)) l)).
      rewrite IH by assumption. f_equal. unfold firings.
      assert ((s_now s' - c) / m_precision s = n - 1); [|lia].
      symmetry. apply (Z.div_unique _ _ _ (s_now s' - c - (n - 1) * m_precision s)); lia.
  Qed.
End Proofs.

(** ** Construction *)

Lemma construct_ok : forall N (junk : vec N) now alt incl p,
  neq N incl (nZ N 0) = false ->
  construct junk now alt incl p =
  Ok (mkMob (Some (HeightOf alt)) (Some (RadiansOf incl)) (nZ N 0) (nZ N 0)
            (CalcPosition (mkOrbit (HeightOf alt) (RadiansOf incl) (nZ N 0) (nZ N 0)) now now)
            p now [] [now; now], true).
Proof.
  intros N junk now alt incl p H. unfold construct, SetAltitude, Update, position_now, orbit_of, fresh; cbn.
  unfold SetInclination. rewrite H. reflexivity.
Qed.

Lemma construct_abort : forall N (junk : vec N) now alt incl p,
  neq N incl (nZ N 0) = true -> construct junk now alt incl p = Abort AssertFailed.
Proof.
  intros N junk now alt incl p H. unfold construct, SetAltitude, Update, position_now, orbit_of, fresh; cbn.
  unfold SetInclination. rewrite H. reflexivity.
Qed.

Lemma mstep_no_junk : forall N (j1 j2 : vec N) s op, orbit_of s <> None -> mstep j1 s op = mstep j2 s op.
Proof.
  intros N j1 j2 s op Ho.
  assert (Hu : forall s, orbit_of s <> None -> Update j1 s = Update j2 s).
  { intros s0 H0. unfold Update, position_now. destruct (orbit_of s0); [reflexivity|congruence]. }
  assert (Hi : exists h i, m_height s = Some h /\ m_incl s = Some i).
  { unfold orbit_of in Ho. destruct (m_height s), (m_incl s); try congruence. eauto. }
  destruct Hi as (h & i & Hh & Hi).
  destruct op as [p|h'|i'|p|t|]; cbn.
  - unfold DoSetPosition. rewrite Hu; [reflexivity|]. unfold orbit_of; cbn. rewrite Hh, Hi. discriminate.
  - unfold SetAltitude. rewrite Hu; [reflexivity|]. unfold orbit_of; cbn. rewrite Hi. discriminate.
  - unfold SetInclination. destruct (neq _ _ _); [reflexivity|]. rewrite Hu; [reflexivity|].
    unfold orbit_of; cbn. rewrite Hh. discriminate.
  - reflexivity.
  - reflexivity.
  - destruct (s_pending s); [reflexivity|]. rewrite Hu; [reflexivity|].
    unfold orbit_of; cbn. rewrite Hh, Hi. discriminate.
Qed.

Lemma mrun_no_junk : forall N (j1 j2 : vec N) ops s, orbit_of s <> None -> mrun j1 s ops = mrun j2 s ops.
Proof.
  induction ops as [|op r IH]; intros s Ho; cbn; [reflexivity|].
  rewrite (mstep_no_junk N j1 j2 s op Ho).
  destruct (mstep j2 s op) as [s1| |] eqn:E; cbn; auto.
  apply IH. eapply mstep_initialised; eauto.
Qed.

(** ** Whole histories *)

Lemma reached_start : forall N (junk : vec N) now0 alt incl prec ops s,
  reached junk now0 alt incl prec ops s ->
  exists s0, mrun junk s0 ops = Ok s /\
    m_height s0 = Some (HeightOf alt) /\ m_incl s0 = Some (RadiansOf incl) /\
    m_lon s0 = nZ N 0 /\ m_off s0 = nZ N 0 /\ m_precision s0 = prec /\ s_now s0 = now0 /\
    s_pending s0 = [] /\ s_notified s0 = [now0; now0] /\ orbit_of s0 <> None /\
    (exists o, orbit_of s0 = Some o /\ m_position s0 = CalcPosition o now0 now0).
Proof.
  intros N junk now0 alt incl prec ops s (s0 & u & H1 & H2).
  destruct (neq N incl (nZ N 0)) eqn:E.
  - rewrite construct_abort in H1 by exact E. discriminate.
  - rewrite construct_ok in H1 by exact E. injection H1 as <- <-.
    eexists. split; [exact H2|]. cbn. repeat split; try discriminate.
    eexists. split; reflexivity.
Qed.

Lemma reached_orbit : forall N (junk : vec N) now0 alt incl prec ops s,
  reached junk now0 alt incl prec ops s ->
  orbit_of s = Some (mkOrbit (HeightOf (last_altitude alt ops))
                             (RadiansOf (last_inclination incl ops))
                             (fst (last_start (nZ N 0, nZ N 0) ops))
                             (snd (last_start (nZ N 0, nZ N 0) ops))).
Proof.
  intros N junk now0 alt incl prec ops s H.
  destruct (reached_start _ _ _ _ _ _ _ _ H) as (s0 & R & A & B & C & D & _).
  rewrite (run_params N junk ops s0 s alt incl A B R), C, D. reflexivity.
Qed.

(** The cached position always belongs to the current orbit. *)
Definition cached {N} (s : mob N) : Prop :=
  exists o t, orbit_of s = Some o /\ t <= s_now s /\ m_position s = CalcPosition o t t.

Lemma Update_cached : forall N (junk : vec N) s o, orbit_of s = Some o -> cached (fst (Update junk s)).
Proof.
  intros N junk s o Ho. exists o, (s_now s).
  rewrite Update_orbit, Update_now, (Update_position N junk s o Ho). repeat split; auto. lia.
Qed.

Lemma mstep_cached : forall N (junk : vec N) s op s', cached s -> mstep junk s op = Ok s' -> cached s'.
Proof.
  intros N junk s op s' HC H.
  assert (Ho : orbit_of s <> None) by (destruct HC as (o & t & E & _); congruence).
  pose proof (mstep_initialised N junk s op s' Ho H) as Ho'.
  destruct (is_setter op) eqn:Hs.
  - destruct (setter_shape N junk s op s' Hs H) as (s1 & -> & _).
    rewrite Update_orbit in Ho'. destruct (orbit_of s1) as [o|] eqn:E; [|congruence].
    exact (Update_cached N junk s1 o E).
  - destruct op as [p|h|i|p|t|]; try discriminate.
    + cbn in H. injection H as <-. exact HC.
    + cbn in H. destruct (_ && _) eqn:E; injection H as <-; [|exact HC].
      apply andb_true_iff in E. destruct E as [E1 _]. apply Z.leb_le in E1.
      destruct HC as (o & u & A & B & C). exists o, u. cbn. repeat split; auto. lia.
    + destruct (s_pending s) as [|x r] eqn:E.
      { cbn in H. rewrite E in H. injection H as <-. exact HC. }
      destruct (fire_shape N junk s s' H) as (t & _ & _ & ->); [congruence|].
      destruct HC as (o & u & A & _). apply (Update_cached N junk _ o). exact A.
Qed.

Lemma mrun_cached : forall N (junk : vec N) ops s s', cached s -> mrun junk s ops = Ok s' -> cached s'.
Proof.
  induction ops as [|op r IH]; intros s s' HC H; cbn in H.
  - injection H as <-. exact HC.
  - destruct (mstep junk s op) as [s1| |] eqn:E; cbn in H; try discriminate.
    eapply IH; [|exact H]. eapply mstep_cached; eauto.
Qed.

(** GetPosition returns the position, for the values written last, of some
    instant that is not in the future. *)
Lemma reached_position : forall N (junk : vec N) now0 alt incl prec ops s,
  reached junk now0 alt incl prec ops s ->
  exists t, t <= s_now s /\ (m_precision s = 0 -> t = s_now s) /\
    DoGetPosition junk s =
    CalcPosition (mkOrbit (HeightOf (last_altitude alt ops))
                          (RadiansOf (last_inclination incl ops))
                          (fst (last_start (nZ N 0, nZ N 0) ops))
                          (snd (last_start (nZ N 0, nZ N 0) ops))) t t.
Proof.
  intros N junk now0 alt incl prec ops s H.
  pose proof (reached_orbit _ _ _ _ _ _ _ _ H) as Ho.
  destruct (reached_start _ _ _ _ _ _ _ _ H) as (s0 & R & _ & _ & _ & _ & _ & T & _ & _ & _ & o0 & O0 & P0).
  assert (C0 : cached s0) by (exists o0, now0; rewrite T; repeat split; auto; lia).
  destruct (mrun_cached N junk ops s0 s C0 R) as (o & t & A & B & C).
  rewrite Ho in A. injection A as <-. unfold DoGetPosition, position_now. rewrite Ho.
  destruct (Z.eqb_spec (m_precision s) 0) as [E|E].
  - exists (s_now s). repeat split; auto. lia.
  - exists t. repeat split; auto. congruence.
Qed.

Lemma reached_velocity : forall N (junk : vec N) now0 alt incl prec ops s,
  reached junk now0 alt incl prec ops s ->
  DoGetVelocity junk s =
  Some (VelocityAt (mkOrbit (HeightOf (last_altitude alt ops))
                            (RadiansOf (last_inclination incl ops))
                            (fst (last_start (nZ N 0, nZ N 0) ops))
                            (snd (last_start (nZ N 0, nZ N 0) ops))) (s_now s) (DoGetPosition junk s)).
Proof.
  intros. unfold DoGetVelocity. rewrite (reached_orbit _ _ _ _ _ _ _ _ H). reflexivity.
Qed.

Lemma reached_future : forall N (junk : vec N) now0 alt incl prec ops s, 0 <= prec ->
  keeps_precision ops -> reached junk now0 alt incl prec ops s -> m_precision s = prec.
Proof.
  intros N junk now0 alt incl prec ops s Hp Hk H.
  destruct (reached_start _ _ _ _ _ _ _ _ H) as (s0 & R & _ & _ & _ & _ & P & _ & E & _).
  destruct (run_precision_future N junk ops s0 s) as (_ & Q & _); auto; try lia.
  unfold future. rewrite E. constructor.
Qed.

Lemma reached_staleness : forall N (junk : vec N) now0 alt incl prec ops s,
  0 < prec -> keeps_precision ops -> existsb is_setter ops = true ->
  reached junk now0 alt incl prec ops s ->
  exists t, s_now s - prec <= t <= s_now s /\
    DoGetPosition junk s =
    CalcPosition (mkOrbit (HeightOf (last_altitude alt ops))
                          (RadiansOf (last_inclination incl ops))
                          (fst (last_start (nZ N 0, nZ N 0) ops))
                          (snd (last_start (nZ N 0, nZ N 0) ops))) t t.
Proof.
  intros N junk now0 alt incl prec ops s Hp Hk He H.
  pose proof (reached_orbit _ _ _ _ _ _ _ _ H) as Ho.
  destruct (reached_start _ _ _ _ _ _ _ _ H) as (s0 & R & _ & _ & _ & _ & P & _ & E & _ & O & _).
  rewrite <- P. eapply staleness; eauto; try lia.
  unfold future. rewrite E. constructor.
Qed.

Lemma reached_zero : forall N (junk : vec N) now0 alt incl ops s,
  keeps_precision ops -> reached junk now0 alt incl 0 ops s ->
  s_pending s = [] /\
  DoGetPosition junk s =
    CalcPosition (mkOrbit (HeightOf (last_altitude alt ops))
                          (RadiansOf (last_inclination incl ops))
                          (fst (last_start (nZ N 0, nZ N 0) ops))
                          (snd (last_start (nZ N 0, nZ N 0) ops))) (s_now s) (s_now s).
Proof.
  intros N junk now0 alt incl ops s Hk H.
  destruct (reached_position _ _ _ _ _ _ _ _ H) as (t & _ & A & B).
  destruct (reached_start _ _ _ _ _ _ _ _ H) as (s0 & R & _ & _ & _ & _ & P & _ & E & _).
  destruct (run_zero N junk ops s0 s P E Hk R) as (Q & Z0).
  split; [exact Q|]. rewrite B, (A Z0). reflexivity.
Qed.

Lemma reached_notifications : forall N (junk : vec N) now0 alt incl prec ops s s0 u,
  0 < prec -> keeps_precision ops ->
  construct junk now0 alt incl prec = Ok (s0, u) -> mrun junk s0 ops = Ok s ->
  length (s_pending s) = length (call_times junk s0 ops) /\
  (Forall (fun x => s_now s < x) (s_pending s) ->
   Z.of_nat (length (s_notified s)) = 2 + sumZ (map (firings prec (s_now s)) (call_times junk s0 ops))).
Proof.
  intros N junk now0 alt incl prec ops s s0 u Hp Hk H1 H2.
  destruct (neq N incl (nZ N 0)) eqn:E.
  - rewrite construct_abort in H1 by exact E. discriminate.
  - rewrite construct_ok in H1 by exact E. injection H1 as <- <-.
    match type of H2 with mrun _ ?x _ = _ =>
      destruct (notifications N junk ops x s Hp eq_refl Hk H2) as [A B]
    end.
    split; [exact A|]. intros HF. rewrite (B HF). reflexivity.
Qed.

(** Without any setter call after construction nothing is ever scheduled. *)
Lemma no_setter_run : forall N (junk : vec N) ops s s',
  s_pending s = [] -> forallb (fun op => negb (is_setter op)) ops = true ->
  mrun junk s ops = Ok s' ->
  s_pending s' = [] /\ m_position s' = m_position s /\ s_notified s' = s_notified s.
Proof.
  induction ops as [|op r IH]; intros s s' He Hn H; cbn in H.
  - injection H as <-. auto.
  - cbn in Hn. apply andb_true_iff in Hn. destruct Hn as [Hn Hr].
    destruct (mstep junk s op) as [s1| |] eqn:E; cbn in H; try discriminate.
    assert (A : s_pending s1 = [] /\ m_position s1 = m_position s /\ s_notified s1 = s_notified s).
    { destruct op as [p|h|i|p|t|]; try discriminate; cbn in E.
      - injection E as <-. auto.
      - destruct (_ && _); injection E as <-; auto.
      - rewrite He in E. injection E as <-. auto. }
    destruct A as (A1 & A2 & A3). destruct (IH s1 s' A1 Hr H) as (B1 & B2 & B3).
    repeat split; congruence.
Qed.

Lemma reached_no_setter : forall N (junk : vec N) now0 alt incl prec ops s,
  0 < prec -> keeps_precision ops ->
  forallb (fun op => negb (is_setter op)) ops = true ->
  reached junk now0 alt incl prec ops s ->
  DoGetPosition junk s =
    CalcPosition (mkOrbit (HeightOf alt) (RadiansOf incl) (nZ N 0) (nZ N 0)) now0 now0 /\
  s_pending s = [].
Proof.
  intros N junk now0 alt incl prec ops s Hp Hk Hn H.
  assert (P := reached_future _ _ _ _ _ _ _ _ (Z.lt_le_incl _ _ Hp) Hk H).
  destruct H as (s0 & u & H1 & H2).
  destruct (neq N incl (nZ N 0)) eqn:E.
  - rewrite construct_abort in H1 by exact E. discriminate.
  - rewrite construct_ok in H1 by exact E. injection H1 as <- <-.
    match type of H2 with mrun _ ?x _ = _ =>
      destruct (no_setter_run N junk ops x s eq_refl Hn H2) as (A & B & _)
    end.
    split; [|exact A]. unfold DoGetPosition. destruct (Z.eqb_spec (m_precision s) 0); [lia|].
    rewrite B. reflexivity.
Qed.

(** Switching Precision to 0 ends the update sequence for good: switching it
    back on does not restart it. *)
Definition toggle_ops (N : Num) (p : vec N) (prec later : Z) : list (mop N) :=
  [OSetPosition p; OSetPrecision 0; OFire; OSetPrecision prec; OAdvance later].

Lemma toggle_stale : forall N (junk : vec N) alt incl (p : vec N) prec later,
  0 < prec -> prec <= later -> neq N incl (nZ N 0) = false ->
  exists s, reached junk 0 alt incl prec (toggle_ops N p prec later) s /\
    s_now s = later /\ m_precision s = prec /\
    DoGetPosition junk s = CalcPosition (mkOrbit (HeightOf alt) (RadiansOf incl) (vx p) (vy p)) prec prec.
Proof.
  intros N junk alt incl p prec later Hp Hl Hi.
  eexists. split; [|split; [|split]].
  - eexists _, _. split; [apply construct_ok; exact Hi|].
    unfold toggle_ops, mrun, bind, mstep, DoSetPosition, Update, SetPrecision, position_now, orbit_of.
    cbn [m_height m_incl m_lon m_off m_position m_precision s_now s_pending s_notified].
    destruct (Z.ltb_spec 0 prec); [|lia].
    cbn [fst app m_height m_incl m_lon m_off m_position m_precision s_now s_pending s_notified
         earliest remove_one set_now set_pending Z.ltb Z.compare].
    rewrite Z.eqb_refl. cbn [forallb].
    destruct (Z.leb_spec (0 + prec) later); [|lia]. cbn [andb]. reflexivity.
  - reflexivity.
  - reflexivity.
  - unfold DoGetPosition. cbn [m_precision set_now m_position].
    destruct (Z.eqb_spec prec 0); [lia|]. rewrite Z.add_0_l. reflexivity.
Qed.

Lemma histories_defined : forall N (junk : vec N) now0 alt incl prec s0 u ops,
  construct junk now0 alt incl prec = Ok (s0, u) ->
  (legal ops -> exists s, forall junk', mrun junk' s0 ops = Ok s) /\
  (~ legal ops -> exists w, mrun junk s0 ops = Abort w).
Proof.
  intros N junk now0 alt incl prec s0 u ops H.
  assert (Ho : orbit_of s0 <> None).
  { destruct (neq N incl (nZ N 0)) eqn:E.
    - rewrite construct_abort in H by exact E. discriminate.
    - rewrite construct_ok in H by exact E. injection H as <- <-. discriminate. }
  split.
  - intros Hl. apply (mrun_ok N junk ops s0) in Hl.
    destruct (mrun junk s0 ops) as [s| |] eqn:E; try discriminate.
    exists s. intros junk'. rewrite (mrun_no_junk N junk' junk ops s0 Ho). exact E.
  - apply mrun_abort.
Qed.
