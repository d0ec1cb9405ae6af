(** Proofs about satellites left alone and their networks. *)
Require Import ZArith Reals Lra Lia List Bool.
Require Import Verif.Base Verif.Num Verif.NumR Verif.Vec Verif.OrbitModel Verif.MobilityModel Verif.AllocModel
  Verif.GeomSpec Verif.OrbitSpec Verif.MobilitySpec Verif.AllocSpec Verif.ConstellationSpec
  Verif.LossProofs Verif.LeoLossProofs
  Verif.OrbitProofs Verif.OrbitApiProofs Verif.MobilityProofs Verif.AllocProofs Verif.AllocApiProofs Verif.Float64Proofs Verif.NetSteps Verif.TracingProofs.
Import ListNotations.
Local Open Scope Z_scope.

Section Alone.
  Variable N : Num.
  Variable junk : vec N.
  Variable o : orbit N.

  (** Precision p > 0, last refreshed at k * p. *)
  Definition cached (p k : Z) (s : mob N) : Prop :=
    orbit_of s = Some o /\ m_precision s = p /\ s_pending s = [(k + 1) * p] /\
    m_position s = CalcPosition o (k * p) (k * p) /\ k * p <= s_now s <= (k + 1) * p.

  Lemma cached_fire : forall p k s s', 0 < p -> cached p k s -> mstep junk s OFire = Ok s' -> cached p (k + 1) s'.
  Proof.
    intros p k s s' Hp (HO & HP & HQ & HX & HN) H. cbn [mstep] in H. rewrite HQ in H. cbn [earliest remove_one] in H. rewrite Z.eqb_refl in H.
    injection H as <-. unfold Update, position_now. change (orbit_of (set_now (set_pending s []) ((k + 1) * p))) with (orbit_of s). rewrite HO.
    cbn [fst]. repeat split; cbn [orbit_of m_height m_incl m_lon m_off m_precision s_pending m_position s_now set_now set_pending].
    - exact HO.
    - exact HP.
    - rewrite HP. rewrite (proj2 (Z.ltb_lt 0 p) Hp). cbn [app]. f_equal. lia.
    - lia.
    - nia.
  Qed.

  Lemma cached_advance : forall p k s s' t, cached p k s -> mstep junk s (OAdvance t) = Ok s' -> cached p k s'.
  Proof.
    intros p k s s' t (HO & HP & HQ & HX & HN) H. cbn [mstep] in H. rewrite HQ in H. cbn [forallb] in H.
    destruct (Z.leb_spec (s_now s) t); cbn [andb] in H; [|injection H as <-; repeat split; assumption || apply HN].
    destruct (Z.leb_spec t ((k + 1) * p)); cbn [andb] in H; injection H as <-; repeat split; try assumption; cbn; lia.
  Qed.

  Lemma cached_run : forall p ops k s s', 0 < p -> Forall passive ops -> cached p k s -> mrun junk s ops = Ok s' ->
    exists k', k <= k' /\ cached p k' s'.
  Proof.
    intros p ops. induction ops as [|op r IH]; intros k s s' Hp HF HC H; cbn [mrun] in H.
    - injection H as <-. exists k. split; [lia|exact HC].
    - apply bind_ok in H as (s1 & H1 & H). inversion HF as [|? ? [->|[t ->]] HF']; subst.
      + destruct (IH (k + 1) s1 s' Hp HF' (cached_fire p k s s1 Hp HC H1) H) as (k' & L & C). exists k'. split; [lia|exact C].
      + exact (IH k s1 s' Hp HF' (cached_advance p k s s1 t HC H1) H).
  Qed.

  (** Precision 0 or less: nothing is pending. *)
  Definition quiet (p : Z) (s : mob N) : Prop :=
    orbit_of s = Some o /\ m_precision s = p /\ s_pending s = [] /\ m_position s = CalcPosition o 0 0.

  Lemma quiet_run : forall p ops s s', Forall passive ops -> quiet p s -> mrun junk s ops = Ok s' -> quiet p s'.
  Proof.
    intros p ops. induction ops as [|op r IH]; intros s s' HF HC H; cbn [mrun] in H.
    - injection H as <-. exact HC.
    - apply bind_ok in H as (s1 & H1 & H). inversion HF as [|? ? HO HF']; subst. apply (IH s1 s' HF'); [|exact H].
      destruct HC as (C1 & C2 & C3 & C4). destruct HO as [->|[t ->]]; cbn [mstep] in H1; rewrite C3 in H1.
      + injection H1 as <-. repeat split; assumption.
      + cbn [forallb] in H1. rewrite andb_true_r in H1. destruct (_ <=? _); injection H1 as <-; repeat split; assumption.
  Qed.

  (** What an installed satellite looks like at the beginning. *)
  Definition starts (p : Z) (s : mob N) : Prop :=
    orbit_of s = Some o /\ m_precision s = p /\ s_pending s = (if 0 <? p then [p] else []) /\ m_position s = CalcPosition o 0 0 /\ s_now s = 0.

  Lemma alone_position : forall p s0 t s, starts p s0 -> left_alone junk s0 t s ->
    exists tau, refreshed p t tau /\ DoGetPosition junk s = CalcPosition o tau tau.
  Proof.
    intros p s0 t s (HO & HP & HQ & HX & HN) (ops & HF & HR & HT & HL).
    destruct (Z.ltb_spec 0 p) as [Hp|Hp].
    - assert (C : cached p 0 s0).
      { repeat split; try assumption; [rewrite HQ; f_equal; lia|lia|lia]. }
      destruct (cached_run p ops 0 s0 s Hp HF C HR) as (k & Hk & C1 & C2 & C3 & C4 & C5).
      exists (k * p). split; [left; split; [exact Hp|]; exists k; rewrite <- HT; lia|].
      unfold DoGetPosition. rewrite C2. destruct (Z.eqb_spec p 0); [lia|exact C4].
    - assert (C : quiet p s0) by (repeat split; assumption).
      destruct (quiet_run p ops s0 s HF C HR) as (C1 & C2 & C3 & C4). unfold DoGetPosition. rewrite C2.
      destruct (Z.eqb_spec p 0) as [->|NE].
      + exists t. split; [right; left; auto|]. unfold position_now. rewrite C1, HT. reflexivity.
      + exists 0. split; [right; right; lia|exact C4].
  Qed.

  (** Every instant is reached. *)
  Lemma mrun_app : forall l1 l2 x y, mrun junk x l1 = Ok y -> mrun junk x (l1 ++ l2) = mrun junk y l2.
  Proof.
    induction l1 as [|a l IH]; intros l2 x y H; cbn [mrun app] in *; [injection H as <-; reflexivity|].
    apply bind_ok in H as (z & H1 & H2). rewrite H1. cbn [bind]. apply IH. exact H2.
  Qed.

  Lemma fires : forall p n k s, 0 < p -> cached p k s -> s_now s = k * p -> exists ops s', Forall passive ops /\ mrun junk s ops = Ok s' /\
    cached p (k + Z.of_nat n) s' /\ s_now s' = (k + Z.of_nat n) * p.
  Proof.
    intros p n. induction n as [|n IH]; intros k s Hp HC HN.
    - exists [], s. split; [constructor|]. split; [reflexivity|]. rewrite Z.add_0_r. split; [exact HC|exact HN].
    - destruct (IH k s Hp HC HN) as (ops & s' & HF & HR & C & _).
      assert (E : exists s'', mstep junk s' OFire = Ok s'').
      { cbn [mstep]. destruct (s_pending s'); eexists; reflexivity. }
      destruct E as (s'' & E). exists (ops ++ [OFire]), s''. split; [apply Forall_app; split; [exact HF|]; repeat constructor|].
      split; [rewrite (mrun_app _ _ _ _ HR); cbn [mrun]; rewrite E; reflexivity|].
      assert (C2 := cached_fire p _ s' s'' Hp C E). replace (k + Z.of_nat (S n)) with (k + Z.of_nat n + 1) by lia. split; [exact C2|].
      destruct C as (_ & _ & C3 & _). cbn [mstep] in E. rewrite C3 in E. cbn [earliest remove_one] in E. injection E as <-.
      unfold Update. destruct (position_now junk _). reflexivity.
  Qed.

  (** The latest refresh. *)
  Definition latest (p t : Z) : Z := if 0 <? p then p * (t / p) else if p =? 0 then t else 0.

  Lemma moves_latest : forall p s0, starts p s0 -> moves junk s0 (fun t => CalcPosition o (latest p t) (latest p t)).
  Proof.
    intros p s0 (HO & HP & HQ & HX & HN) t Ht.
    assert (AD : forall ops s, Forall passive ops -> mrun junk s0 ops = Ok s -> s_now s <= t -> Forall (fun x => t <= x) (s_pending s) ->
      left_alone junk s0 t (set_now s t)).
    { intros ops s HF HR L FP. exists (ops ++ [OAdvance t]). split; [apply Forall_app; split; [exact HF|constructor; [|constructor]; right; eauto]|].
      split; [|split; [reflexivity|exact FP]]. rewrite (mrun_app _ _ _ _ HR). cbn [mrun mstep]. rewrite (proj2 (Z.leb_le _ _) L).
      rewrite (proj2 (forallb_forall _ _)); [reflexivity|]. intros x Hx. rewrite Forall_forall in FP. apply Z.leb_le, FP, Hx. }
    unfold latest. destruct (Z.ltb_spec 0 p) as [Hp|Hp].
    - assert (C : cached p 0 s0).
      { repeat split; try assumption; [rewrite HQ; f_equal; lia|lia|lia]. }
      destruct (fires p (Z.to_nat (t / p)) 0 s0 Hp C ltac:(lia)) as (ops & s' & HF & HR & C' & NW).
      pose proof (Z.div_pos t p Ht Hp). rewrite Z2Nat.id, Z.add_0_l in * by lia.
      pose proof (Z.mul_div_le t p Hp). pose proof (Z.mul_succ_div_gt t p Hp).
      destruct C' as (C1 & C2 & C3 & C4 & C5). exists (set_now s' t). split; [apply (AD ops s' HF HR); [lia|]; rewrite C3; constructor; [lia|constructor]|].
      unfold DoGetPosition. cbn [m_precision set_now m_position]. rewrite C2. destruct (Z.eqb_spec p 0); [lia|]. rewrite C4, Z.mul_comm. reflexivity.
    - exists (set_now s0 t). split; [apply (AD [] s0); [constructor|reflexivity|lia|rewrite HQ; constructor]|].
      unfold DoGetPosition. cbn [m_precision set_now m_position]. rewrite HP. destruct (Z.eqb_spec p 0) as [->|NE]; [|symmetry; exact HX].
      unfold position_now. change (orbit_of (set_now s0 t)) with (orbit_of s0). rewrite HO. reflexivity.
  Qed.
End Alone.

Lemma sat_starts : forall N p (junk : vec N) o ps s, is_sat N p junk 0 o ps s -> starts N (sat_orbit (o, ps)) p s.
Proof.
  intros N p junk o ps s H. destruct (is_sat_waits N p junk o ps s H) as (A & B & C). split; [exact A|]. split; [exact B|]. split; [exact C|].
  unfold is_sat in H. destruct H as (s0 & u & HC & HR).
  destruct (neq N (lo_inc o) (nZ N 0)) eqn:E; [rewrite construct_abort in HC by exact E; discriminate|].
  rewrite construct_ok in HC by exact E. injection HC as <- <-. cbn [mrun mstep bind] in HR. injection HR as <-. split; reflexivity.
Qed.

Lemma installed_starts : forall N p (junk : vec N) (os : list (leoorbit N)) nodes i s o ps,
  Forall (fun o => u16 (lo_planes o) /\ u16 (lo_sats o)) os -> InstallOrbits p junk 0 os = Ok nodes ->
  nth_error nodes i = Some s -> nth_error (concat (map satellites os)) i = Some (o, ps) -> starts N (sat_orbit (o, ps)) p s.
Proof.
  intros N p junk os nodes i s o ps Hu HI HS HX.
  assert (D : Forall installable os).
  { destruct (Forall_dec (@installable N)) with (l := os) as [F|F]; [|exact F|].
    - intros x. unfold installable.
      destruct (Z_le_gt_dec (lo_planes x * lo_sats x) 2147483647); destruct (Z.eq_dec (lo_planes x * lo_sats x) 0);
        destruct (bool_dec (neq N (lo_inc x) (nZ N 0)) false) as [E|E];
        try (left; split; [lia|tauto]); right; intros [? [?|?]]; (lia || congruence).
    - exfalso. destruct (InstallOrbits_fail N p junk 0 os Hu F) as (x & l1 & l2 & _ & _ & _ & E). rewrite E in HI. destruct (_ <? _); discriminate. }
  destruct (InstallOrbits_ok N p junk 0 os Hu D) as (l & E & HF). rewrite E in HI. injection HI as ->. apply sat_starts with (junk := junk).
  clear - HF HS HX. revert i HS HX. induction HF as [|s' x l xs H HF IH]; intros [|i] HS HX; cbn in HS, HX; try discriminate.
  - injection HS as <-. injection HX as ->. exact H.
  - exact (IH i HS HX).
Qed.

Lemma installed_satellite : forall N p (junk : vec N) (os : list (leoorbit N)) i o ps,
  Forall (fun o => u16 (lo_planes o) /\ u16 (lo_sats o)) os -> Forall installable os -> nth_error (concat (map satellites os)) i = Some (o, ps) ->
  satellite junk p os (fun t => CalcPosition (sat_orbit (o, ps)) (latest p t) (latest p t)) o ps.
Proof.
  intros N p junk os i o ps Hu Hi HX. destruct (InstallOrbits_ok N p junk 0 os Hu Hi) as (nodes & HI & F).
  pose proof (Forall2_length F) as L. destruct (nth_error nodes i) as [s|] eqn:S.
  - exists nodes, i, s. repeat split; try assumption. apply moves_latest. eapply installed_starts; eassumption.
  - apply nth_error_None in S. pose proof (nth_error_Some (concat (map satellites os)) i) as [X _]. rewrite HX in X. specialize (X ltac:(discriminate)). lia.
Qed.

Lemma sat_orbit_R : forall (o : leoorbit NumR) ps tau, CalcPosition (sat_orbit (o, ps)) tau tau = sat_path o ps tau.
Proof.
  intros o ps tau. rewrite trajectory_at. unfold sat_path, sat_orbit. cbn [fst snd o_height o_incl o_lon o_off].
  rewrite height_R, radians_R. reflexivity.
Qed.

(** ** How far a satellite gets *)
Local Open Scope R_scope.

Lemma inner_sq_nonneg : forall a : point, 0 <= inner a a.
Proof. intros a. unfold inner. nra. Qed.

Lemma cauchy_schwarz : forall a b : point, inner a b * inner a b <= inner a a * inner b b.
Proof.
  intros [a1 a2 a3] [b1 b2 b3]. unfold inner, px, py, pz. cbn [vx vy vz]. change (num NumR) with R in *.
  pose proof (Rle_0_sqr (a1 * b2 - a2 * b1)). pose proof (Rle_0_sqr (a1 * b3 - a3 * b1)). pose proof (Rle_0_sqr (a2 * b3 - a3 * b2)). unfold Rsqr in *. nra.
Qed.

Lemma inner_norms : forall a b : point, inner a b <= norm a * norm b.
Proof.
  intros a b. pose proof (cauchy_schwarz a b) as C. rewrite <- (norm_sq a), <- (norm_sq b) in C.
  pose proof (norm_nonneg a). pose proof (norm_nonneg b). assert (0 <= norm a * norm b) by (apply Rmult_le_pos; assumption).
  destruct (Rle_or_lt (inner a b) (norm a * norm b)) as [|L]; [assumption|]. nra.
Qed.

Lemma norm_plus : forall a b : point, norm (plus a b) <= norm a + norm b.
Proof.
  intros a b. pose proof (norm_nonneg a). pose proof (norm_nonneg b). pose proof (inner_norms a b) as I.
  destruct (Rle_or_lt (norm (plus a b)) (norm a + norm b)) as [|L]; [assumption|].
  apply norm_lt_sq in L; [|lra]. pose proof (norm_sq a). pose proof (norm_sq b).
  assert (E : inner (plus a b) (plus a b) = inner a a + 2 * inner a b + inner b b).
  { unfold inner, plus, pt, px, py, pz. cbn [vx vy vz]. ring. }
  nra.
Qed.

Lemma distance_triangle : forall a b c : point, distance a c <= distance a b + distance b c.
Proof.
  intros a b c. unfold distance. replace (minus c a) with (plus (minus b a) (minus c b)); [apply norm_plus|].
  unfold plus, minus, pt, px, py, pz. cbn [vx vy vz]. f_equal; change (num NumR) with R; ring.
Qed.

Lemma chord_le : forall x, 2 - 2 * cos x <= x * x.
Proof.
  intros x. pose proof (sin_abs (x / 2)) as S. replace x with (2 * (x / 2)) at 1 by field. rewrite cos_2a_sin.
  pose proof (Rabs_pos (sin (x / 2))). pose proof (Rabs_pos (x / 2)).
  assert (Rabs (sin (x / 2)) * Rabs (sin (x / 2)) <= Rabs (x / 2) * Rabs (x / 2)) by (apply Rmult_le_compat; assumption).
  rewrite <- !Rabs_mult, !Rabs_pos_eq in H1 by nra. nra.
Qed.

Lemma norm_le_of_sq : forall d (a : point), 0 <= d -> inner a a <= d * d -> norm a <= d.
Proof. intros d a Hd H. destruct (Rle_or_lt (norm a) d) as [|L]; [assumption|]. apply norm_lt_sq in L; lra. Qed.

Lemma turn_distance : forall r i lam lam' th, 0 <= r -> distance (circle_point r i lam th) (circle_point r i lam' th) <= r * Rabs (lam' - lam).
Proof.
  intros r i lam lam' th Hr. unfold distance. apply norm_le_of_sq; [apply Rmult_le_pos; [assumption|apply Rabs_pos]|].
  replace (r * Rabs (lam' - lam) * (r * Rabs (lam' - lam))) with (r * r * (Rabs (lam' - lam) * Rabs (lam' - lam))) by ring.
  rewrite <- Rabs_mult, Rabs_pos_eq by (apply Rle_0_sqr). pose proof (chord_le (lam' - lam)) as C.
  assert (E : inner (minus (circle_point r i lam' th) (circle_point r i lam th)) (minus (circle_point r i lam' th) (circle_point r i lam th))
    = (r * r) * ((cos th * cos i) * (cos th * cos i) + sin th * sin th) * (2 - 2 * cos (lam' - lam))).
  { rewrite cos_minus. unfold inner, minus, circle_point, pt, px, py, pz. cbn [vx vy vz]. pose proof (sc1 lam). pose proof (sc1 lam').
    set (a := cos lam) in *. set (b := sin lam) in *. set (a' := cos lam') in *. set (b' := sin lam') in *.
    transitivity ((r * r) * ((cos th * cos i) * (cos th * cos i) + sin th * sin th) * ((a' * a' + b' * b') + (a * a + b * b) - 2 * (a' * a + b' * b))); [ring|].
    replace (a' * a' + b' * b') with 1 by lra. replace (a * a + b * b) with 1 by lra. ring. }
  rewrite E. pose proof (sc1 th). pose proof (sc1 i).
  assert (0 <= (cos th * cos i) * (cos th * cos i) + sin th * sin th <= 1).
  { split; [nra|]. assert (cos i * cos i <= 1) by nra. assert ((cos th * cos th) * (cos i * cos i) <= (cos th * cos th) * 1) by (apply Rmult_le_compat_l; nra). nra. }
  assert (0 <= 2 - 2 * cos (lam' - lam)) by (pose proof (COS_bound (lam' - lam)); lra).
  rewrite Rmult_assoc. apply Rmult_le_compat_l; [nra|].
  rewrite <- (Rmult_1_l ((lam' - lam) * (lam' - lam))). apply Rmult_le_compat; lra.
Qed.

Lemma along_distance : forall r i lam th th', 0 <= r -> distance (circle_point r i lam th) (circle_point r i lam th') <= r * Rabs (th' - th).
Proof.
  intros r i lam th th' Hr. unfold distance. apply norm_le_of_sq; [apply Rmult_le_pos; [assumption|apply Rabs_pos]|].
  replace (r * Rabs (th' - th) * (r * Rabs (th' - th))) with (r * r * (Rabs (th' - th) * Rabs (th' - th))) by ring.
  rewrite <- Rabs_mult, Rabs_pos_eq by (apply Rle_0_sqr). pose proof (chord_le (th' - th)) as C.
  assert (E : inner (minus (circle_point r i lam th') (circle_point r i lam th)) (minus (circle_point r i lam th') (circle_point r i lam th))
    = (r * r) * (2 - 2 * cos (th' - th))).
  { rewrite cos_minus. unfold inner, minus, circle_point, pt, px, py, pz. cbn [vx vy vz]. pose proof (sc1 lam). pose proof (sc1 i). pose proof (sc1 th). pose proof (sc1 th').
    set (a := cos th) in *. set (b := sin th) in *. set (a' := cos th') in *. set (b' := sin th') in *.
    set (x := cos lam) in *. set (y := sin lam) in *. set (c := cos i) in *. set (s := sin i) in *.
    transitivity ((r * r) * ((a' - a) * (a' - a) * (c * c * (x * x + y * y) + s * s) + (b' - b) * (b' - b) * (x * x + y * y))); [ring|].
    replace (x * x + y * y) with 1 by lra. replace (c * c * 1 + s * s) with 1 by lra.
    transitivity ((r * r) * ((a' * a' + b' * b') + (a * a + b * b) - 2 * (a' * a + b' * b))); [ring|].
    replace (a' * a' + b' * b') with 1 by lra. replace (a * a + b * b) with 1 by lra. ring. }
  rewrite E. apply Rmult_le_compat_l; [nra|exact C].
Qed.

Lemma trajectory_distance : forall r_km i lon off tau tau', 0 <= r_km ->
  distance (trajectory r_km i lon off tau) (trajectory r_km i lon off tau') <= ground_speed r_km i * Rabs (tau' - tau).
Proof.
  intros r i lon off tau tau' Hr. unfold trajectory.
  eapply Rle_trans; [apply distance_triangle with (b := circle_point (1000 * r) i (lon + earth_rate * tau') (angular_rate r i * tau + off))|].
  eapply Rle_trans; [apply Rplus_le_compat; [apply turn_distance; lra|apply along_distance; lra]|]. unfold ground_speed.
  replace (lon + earth_rate * tau' - (lon + earth_rate * tau)) with (earth_rate * (tau' - tau)) by ring.
  replace (angular_rate r i * tau' + off - (angular_rate r i * tau + off)) with (angular_rate r i * (tau' - tau)) by ring.
  rewrite !Rabs_mult. replace (Rabs earth_rate) with earth_rate; [right; ring|].
  symmetry. apply Rabs_pos_eq. unfold earth_rate. pose proof PI_RGT_0. lra.
Qed.

Lemma sat_path_norm : forall (o : leoorbit NumR) ps tau, 0 <= earth_radius_km + lo_alt o -> norm (sat_path o ps tau) = 1000 * (earth_radius_km + lo_alt o).
Proof. intros o ps tau H. unfold sat_path, trajectory. apply circle_norm. lra. Qed.

(** ** Links *)
Require Import Verif.LossModel Verif.FrameModel Verif.NetModel Verif.HelperModel Verif.LossSpec Verif.NetSpec Verif.LossApiProofs.
Lemma satellite_position : forall (junk : point) precision os path o ps t,
  Forall (fun o : leoorbit NumR => u16 (lo_planes o) /\ u16 (lo_sats o)) os ->
  satellite junk precision os path o ps -> (0 <= t)%Z ->
  exists tau, refreshed precision t tau /\ path t = sat_path o ps tau.
Proof.
  intros junk p os path o ps t Hu (nodes & i & s & HI & HS & HX & M) Ht. destruct (M t Ht) as (s' & A & E).
  pose proof (installed_starts NumR p junk os nodes i s o ps Hu HI HS HX) as ST.
  destruct (alone_position NumR junk (sat_orbit (o, ps)) p s t s' ST A) as (tau & R & EX).
  exists tau. split; [exact R|]. rewrite E, EX. apply sat_orbit_R.
Qed.

Lemma isl_link : forall has_mob pos (w : world NumR) c d dst a b,
  c_loss (w_chan w c) = Some (isl_loss pos) -> node_of w d = Some a -> node_of w dst = Some b ->
  has_mob a = true -> has_mob b = true -> -900 <= g_txp (d_cfg (w_dev w d)) ->
  let P : point := pos a (w_now w) in let Q : point := pos b (w_now w) in
  P <> Q -> isl_earth_radius <= norm P \/ isl_earth_radius <= norm Q ->
  (hears has_mob w c d dst = true <-> unobstructed isl_earth_radius P Q) /\
  (hears has_mob w c d dst = true -> power_at has_mob w c d dst = g_txp (d_cfg (w_dev w d))).
Proof.
  intros has_mob pos w c d dst a b HL Ha Hb Ma Mb HP P Q NE OUT.
  destruct (isl_rx_geometry (g_txp (d_cfg (w_dev w d))) P Q NE OUT) as [V1 V2].
  pose proof (GetLos_correct P Q NE OUT) as L. fold isl_earth_radius in L.
  unfold hears, power_at, cut_off, link_power. rewrite Ha, Hb, HL, Ma, Mb. cbn [andb]. unfold isl_loss. fold P Q.
  change (nlt NumR) with Rltb. change (nZ NumR (-900)) with (-900).
  destruct (GetLos P Q) eqn:LOS.
  - assert (U : unobstructed isl_earth_radius P Q) by (apply L; reflexivity). rewrite (V1 U).
    rewrite (proj2 (Rltb_false _ _)) by assumption. cbn [negb]. tauto.
  - assert (U : ~ unobstructed isl_earth_radius P Q) by (intros U; apply L in U; discriminate). rewrite (V2 U).
    rewrite (proj2 (Rltb_true _ _)) by lra. cbn [negb]. split; [|discriminate]. split; [discriminate|tauto].
Qed.

Lemma speed_link : forall has_mob pos seconds v (w : world NumR) c d dst a b tx,
  c_delay (w_chan w c) = Some (constant_speed pos seconds v) -> node_of w d = Some a -> node_of w dst = Some b ->
  has_mob a = true -> has_mob b = true ->
  delay_to has_mob w c d dst tx = seconds (distance (pos a (w_now w)) (pos b (w_now w)) / v).
Proof.
  intros has_mob pos seconds v w c d dst a b tx HD Ha Hb Ma Mb. unfold delay_to, link_delay. rewrite Ha, Hb, HD, Ma, Mb. cbn [andb].
  reflexivity.
Qed.

Lemma segment_close : forall (p q p' q' : point) D t, 0 <= t <= 1 -> distance p p' <= D -> distance q q' <= D ->
  norm (on_segment p q t) - D <= norm (on_segment p' q' t).
Proof.
  intros p q p' q' D t Ht Hp Hq.
  assert (E : on_segment p q t = plus (on_segment p' q' t) (plus (GeomSpec.scale (1 - t) (minus p p')) (GeomSpec.scale t (minus q q')))).
  { unfold on_segment, plus, GeomSpec.scale, minus, pt, px, py, pz. cbn [vx vy vz]. f_equal; change (num NumR) with R; ring. }
  rewrite E. pose proof (norm_plus (on_segment p' q' t) (plus (GeomSpec.scale (1 - t) (minus p p')) (GeomSpec.scale t (minus q q')))) as T1.
  pose proof (norm_plus (GeomSpec.scale (1 - t) (minus p p')) (GeomSpec.scale t (minus q q'))) as T2.
  rewrite !norm_scale_pos in T2 by lra. fold (distance p' p) in T2. fold (distance q' q) in T2. rewrite (distance_sym p'), (distance_sym q') in T2.
  assert ((1 - t) * distance p p' <= (1 - t) * D) by (apply Rmult_le_compat_l; lra).
  assert (t * distance q q' <= t * D) by (apply Rmult_le_compat_l; lra). lra.
Qed.

Lemma unobstructed_close : forall r (p q p' q' : point) D, distance p p' <= D -> distance q q' <= D ->
  unobstructed r p q -> unobstructed (r - D) p' q'.
Proof. intros r p q p' q' D Hp Hq U t Ht. specialize (U t Ht). pose proof (segment_close p q p' q' D t Ht Hp Hq). lra. Qed.

Lemma stale_distance : forall (o : leoorbit NumR) ps precision t tau, (0 <= precision)%Z -> refreshed precision t tau ->
  0 <= earth_radius_km + lo_alt o ->
  distance (sat_path o ps tau) (sat_path o ps t) <= ground_speed (earth_radius_km + lo_alt o) (lo_inc o * PI / 180) * sec (t - tau) /\
  (0 <= t - tau <= precision)%Z.
Proof.
  intros o ps p t tau Hp R Hr. assert (B : (0 <= t - tau <= p)%Z) by (destruct R as [(H & k & K1 & -> & K2)|[(-> & ->)|(H & _)]]; lia).
  split; [|exact B]. eapply Rle_trans; [apply trajectory_distance; exact Hr|]. right. f_equal.
  unfold sec. rewrite minus_IZR. rewrite Rabs_pos_eq; [field|]. assert (0 <= IZR (t - tau)) by (apply IZR_le; lia). rewrite minus_IZR in H. lra.
Qed.

Lemma ground_link : forall has_mob pos e atm fspl margin (w : world NumR) c d dst a b (g s : point),
  c_loss (w_chan w c) = Some (leo_loss pos (leo_model e atm fspl margin)) -> node_of w d = Some a -> node_of w dst = Some b ->
  has_mob a = true -> has_mob b = true -> 0 <= e < 90 -> -900 <= g_txp (d_cfg (w_dev w d)) - atm - fspl - margin ->
  (pos a (w_now w) = g /\ pos b (w_now w) = s) \/ (pos a (w_now w) = s /\ pos b (w_now w) = g) ->
  0 < norm g <= leo_earth_radius -> leo_earth_radius < norm s ->
  (hears has_mob w c d dst = true <-> distance g s <= slant_range leo_earth_radius (norm s) (radians e)) /\
  (hears has_mob w c d dst = true -> radians e <= elevation g s /\ power_at has_mob w c d dst = g_txp (d_cfg (w_dev w d)) - atm - fspl - margin).
Proof.
  intros has_mob pos e atm fspl margin w c d dst a b g s HL Ha Hb Ma Mb He HB GS Hg Hs.
  set (tx := g_txp (d_cfg (w_dev w d))) in *.
  assert (X : leo_loss pos (leo_model e atm fspl margin) tx a b (w_now w) = LeoCalcRxPower (leo_model e atm fspl margin) tx g s).
  { unfold leo_loss. destruct GS as [[-> ->]|[-> ->]]; [reflexivity|apply leo_rx_sym_R]. }
  assert (F : farther g s = norm s) by (apply farther_sat; lra).
  destruct (budget_api e atm fspl margin tx g s He ltac:(rewrite F; lra)) as [B1 B2]. rewrite F in B1, B2.
  unfold hears, power_at, cut_off, link_power. rewrite Ha, Hb, HL, Ma, Mb. cbn [andb]. fold tx. rewrite X.
  change (nlt NumR) with Rltb. change (nZ NumR (-900)) with (-900).
  destruct (Rle_or_lt (distance g s) (slant_range leo_earth_radius (norm s) (radians e))) as [L|L].
  - rewrite (B1 L). rewrite (proj2 (Rltb_false _ _)) by assumption. cbn [negb]. split; [tauto|]. intros _. split; [|reflexivity].
    apply (mask_sound_api e atm fspl margin tx); try assumption. rewrite (B1 L). lra.
  - rewrite (B2 L). rewrite (proj2 (Rltb_true _ _)) by lra. cbn [negb]. split; [|discriminate]. split; [discriminate|lra].
Qed.
