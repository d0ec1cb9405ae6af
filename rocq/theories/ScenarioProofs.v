(** The set-up of the example programs. *)
Require Import ZArith List Bool String Lia ZifyBool.
Require Import Verif.Base Verif.Num Verif.Vec Verif.OrbitModel Verif.MobilityModel Verif.AllocModel Verif.LossModel Verif.FrameModel Verif.NetModel Verif.NetSpec
  Verif.HelperModel Verif.LeoHelperModel Verif.ScenarioModel Verif.AllocSpec Verif.NetRunSpec Verif.HelperSpec Verif.LeoHelperSpec Verif.ConstellationSpec Verif.ScenarioSpec
  Verif.NetSteps Verif.NetInv Verif.NetChanProofs Verif.AllocProofs Verif.HelperProofs Verif.HelperSafeProofs Verif.HelperApiProofs Verif.LeoHelperProofs Verif.TracingProofs Verif.ConstellationProofs Verif.HeardSpec Verif.NetHeardProofs.
Import ListNotations.
Local Open Scope Z_scope.

(** ** Addresses *)
Lemma assign_seq : forall n base k a, 0 < k ->
  assign base k (seq a n) = if (n =? 0)%nat || (k + Z.of_nat n <=? 65535)
    then Ok (map (fun i => ((a + i)%nat, base + k + Z.of_nat i)) (seq 0 n)) else Abort AssertFailed.
Proof.
  induction n as [|n IH]; intros base k a Hk; [reflexivity|]. cbn [seq assign].
  destruct (Z.ltb_spec 65534 k) as [L|L].
  { replace (k + Z.of_nat (S n) <=? 65535) with false by lia. reflexivity. }
  rewrite IH by lia. replace ((S n =? 0)%nat || (k + Z.of_nat (S n) <=? 65535)) with ((n =? 0)%nat || (k + 1 + Z.of_nat n <=? 65535)) by lia.
  destruct (_ || _); [|reflexivity]. cbn [bind map]. f_equal. f_equal; [f_equal; lia|].
  rewrite <- seq_shift, map_map. apply map_ext. intros i. f_equal; lia.
Qed.
Lemma filter_map : forall (A B : Type) (f : A -> B) P l, filter P (map f l) = map f (filter (fun x => P (f x)) l).
Proof. induction l as [|a l IH]; [reflexivity|]. cbn. destruct (P (f a)); cbn; rewrite IH; reflexivity. Qed.
Lemma filter_seq : forall n a m, filter (fun i => Nat.eqb i m) (seq a n) = if ((a <=? m) && (m <? a + n))%nat then [m] else [].
Proof.
  induction n as [|n IH]; intros a m; cbn [seq filter].
  - replace ((a <=? m) && (m <? a + 0))%nat with false by lia. reflexivity.
  - rewrite IH. destruct (Nat.eqb_spec a m) as [->|NE].
    + replace ((S m <=? m) && (m <? S m + n))%nat with false by lia. replace ((m <=? m) && (m <? m + S n))%nat with true by lia. reflexivity.
    + replace ((a <=? m) && (m <? a + S n))%nat with ((S a <=? m) && (m <? S a + n))%nat by lia. reflexivity.
Qed.
Lemma nth_error_seq : forall n a i, nth_error (seq a n) i = if (i <? n)%nat then Some (a + i)%nat else None.
Proof.
  induction n as [|n IH]; intros a i; [destruct i; reflexivity|]. destruct i as [|i]; cbn [seq nth_error].
  { replace (0 <? S n)%nat with true by lia. f_equal. lia. }
  rewrite IH. replace (S i <? S n)%nat with (i <? n)%nat by lia. destruct (i <? n)%nat; [f_equal; lia|reflexivity].
Qed.
(** The interfaces of a node: that of the ground network, then that of the other one. *)
Lemma interfaces_spec : forall (n m : nat) (isl : bool) b1 b2 x, (n <= m)%nat -> (x < m)%nat ->
  interfaces (seq 0 m ++ if isl then seq 0 n else []) (addressed b1 0 m ++ if isl then addressed b2 m n else []) x =
  (b1 + 1 + Z.of_nat x) :: if isl && (x <? n)%nat then [b2 + 1 + Z.of_nat x] else [].
Proof.
  intros n m isl b1 b2 x H1 H2. unfold interfaces. rewrite filter_app, map_app. unfold addressed.
  set (nodes := seq 0 m ++ _).
  assert (A : map snd (filter (fun y => match nth_error nodes (fst y) with Some k => Nat.eqb k x | None => false end) (map (fun i => ((0 + i)%nat, b1 + 1 + Z.of_nat i)) (seq 0 m))) = [b1 + 1 + Z.of_nat x]).
  { rewrite filter_map. rewrite (filter_ext_in _ (fun i => Nat.eqb i x)).
    - rewrite filter_seq. replace ((0 <=? x) && (x <? 0 + m))%nat with true by lia. reflexivity.
    - intros i Hi. apply in_seq in Hi. cbn [fst]. unfold nodes. rewrite nth_error_app1 by (rewrite seq_length; lia).
      rewrite nth_error_seq. replace (0 + i <? m)%nat with true by lia. reflexivity. }
  rewrite A. cbn [app]. f_equal. destruct isl; [|reflexivity]. cbn [andb].
  rewrite filter_map. rewrite (filter_ext_in _ (fun i => Nat.eqb i x)).
  - rewrite filter_seq. replace ((0 <=? x) && (x <? 0 + n))%nat with (x <? n)%nat by lia. destruct (x <? n)%nat; reflexivity.
  - intros i Hi. apply in_seq in Hi. cbn [fst]. unfold nodes. rewrite nth_error_app2 by (rewrite seq_length; lia).
    rewrite seq_length, nth_error_seq. replace (m + i - m)%nat with i by lia. replace (i <? n)%nat with true by lia. reflexivity.
Qed.
Lemma addressed_fst : forall b d n, map fst (addressed b d n) = seq d n.
Proof.
  intros b d n. unfold addressed. rewrite map_map. cbn [fst]. revert d. induction n as [|n IH]; intros d; [reflexivity|].
  cbn [seq map]. rewrite <- seq_shift, map_map. f_equal; [lia|]. rewrite <- (IH (S d)). apply map_ext. intros i. lia.
Qed.

Section Set_up.
  Context {N : Num}.
  Variable pos : nat -> Z -> vec N.
  Variable seconds : num N -> Z.
  Variable junk : vec N.

  (** The ground helper of the programs, for a link class. *)
  Definition ut_calls (o : options N) : list (leo_call N) :=
    [HGndAttribute (ARate (op_rate o)); HSatAttribute (ARate (op_rate o)); HConstellation (op_constellation o)].
  Definition ut_helper (o : options N) (p : preset) : leo_helper N :=
    let more := [ATxPower (ndec N (ps_eirp p) 1); ARxLoss (nZ N 0); ARxGain (ndec N (ps_gain p) 1); ARate (ps_rate p)] in
    mkLeoHelper ([AType false; ARate (op_rate o)] ++ more) ([AType true; ARate (op_rate o)] ++ more) (drop_tail 100) (drop_tail 100)
      [ADelay (Some (constant_speed pos seconds (nZ N 299792458)))] (nZ N 299702458) (nZ N (ps_elevation p)) (ndec N (ps_fspl p) 1)
      (ndec N (fst (ps_atmospheric p)) (snd (ps_atmospheric p))) (ndec N (ps_margin p) 2).
  Definition the_isl_helper (o : options N) : isl_helper N :=
    mkIslHelper [ARate (op_rate o)] (drop_tail 100) [ADelay (Some (constant_speed pos seconds (nZ N 299792458))); ALoss (Some (isl_loss pos))].
  Lemma ut_calls_spec : forall o,
    (exists p, In p published /\ ps_name p = op_constellation o /\ leo_helper_calls (new_leo_helper pos seconds) (ut_calls o) = Ok (ut_helper o p)) \/
    (~ In (op_constellation o) (map ps_name published) /\ leo_helper_calls (new_leo_helper pos seconds) (ut_calls o) = Abort AssertFailed).
  Proof.
    intros o. cbn [leo_helper_calls leo_helper_call ut_calls bind].
    match goal with |- context [SetConstellation ?x _] => destruct (SetConstellation_cases x (op_constellation o)) as [(p & P1 & P2 & E)|[P E]]; rewrite E end.
    - left. exists p. split; [exact P1|]. split; [exact P2|reflexivity].
    - right. split; [exact P|reflexivity].
  Qed.

  Definition acts_of (o : options N) (p : preset) : list (act N) :=
    let n := List.length (fleet o) in
    ALeoInstall (ut_helper o p) (seq 0 n) (seq n (S (server o) - n)) :: if op_islEnabled o then [AIslInstall (the_isl_helper o) (seq 0 n)] else [].
  Definition net1 : Z := 167837696.
  Definition net2 : Z := 167903232.

  Lemma installable_dec : forall os : list (leoorbit N), Forall installable os \/ ~ Forall installable os.
  Proof.
    intros os. destruct (Forall_dec (@installable N)) with (l := os) as [F|F]; [|left; exact F|right; exact F].
    intros x. unfold installable.
    destruct (Z_le_gt_dec (lo_planes x * lo_sats x) 2147483647); destruct (Z.eq_dec (lo_planes x * lo_sats x) 0);
      destruct (bool_dec (neq N (lo_inc x) (nZ N 0)) false) as [E|E];
      try (left; split; [lia|tauto]); right; intros [? [?|?]]; (lia || congruence).
  Qed.
  Lemma grid_of : forall o : options N, well_typed o -> exists grid : list (vec N), InstallGrid (op_latGws o) (op_lonGws o) = Ok grid /\ List.length grid = gateways o.
  Proof.
    intros o (_ & HL & HM). destruct (InstallGrid_ok N (op_latGws o) (op_lonGws o)) as (l & E & L & _).
    - unfold max32. lia.
    - unfold max32. lia.
    - exists l. split; [exact E|]. unfold gateways. change (2 ^ 32) with max32. lia.
  Qed.

  Lemma set_up_ok : forall o, well_typed o -> feasible o ->
    exists sats grid p, InstallOrbits (op_precision o) junk 0 (op_orbits o) = Ok sats /\ List.length sats = List.length (fleet o) /\
      InstallGrid (op_latGws o) (op_lonGws o) = Ok grid /\ List.length grid = gateways o /\
      In p published /\ ps_name p = op_constellation o /\
      set_up_scenario pos seconds junk o = Ok (mkScenario sats (grid ++ InstallPair (op_source o) (op_destination o)) (acts_of o p)
        (seq 0 (S (server o)) ++ if op_islEnabled o then seq 0 (List.length (fleet o)) else [])
        (addressed net1 0 (S (server o)) ++ if op_islEnabled o then addressed net2 (S (server o)) (List.length (fleet o)) else [])
        (client o) (server o) (net1 + 1 + Z.of_nat (server o))).
  Proof.
    intros o WT (F1 & F2 & F3). pose proof WT as (Hu & _).
    destruct (InstallOrbits_ok N (op_precision o) junk 0 (op_orbits o) Hu F1) as (sats & ES & LS). apply TracingProofs.Forall2_length in LS. fold (fleet o) in LS.
    destruct (grid_of o WT) as (grid & EG & LG).
    destruct (ut_calls_spec o) as [(p & P1 & P2 & EU)|[X _]]; [|contradiction].
    exists sats, grid, p. split; [exact ES|]. split; [exact LS|]. split; [exact EG|]. split; [exact LG|]. split; [exact P1|]. split; [exact P2|].
    unfold set_up_scenario. rewrite ES. cbn [bind]. rewrite EG. cbn [bind].
    assert (LST : List.length (grid ++ InstallPair (op_source o) (op_destination o)) = (gateways o + 2)%nat) by (rewrite app_length, LG; reflexivity).
    rewrite LST, LS. fold (ut_calls o). rewrite EU. cbn [bind]. rewrite <- seq_app.
    set (n := List.length (fleet o)) in *.
    assert (EM : (n + (gateways o + 2) = S (server o))%nat) by (unfold server, client; lia). rewrite EM.
    destruct (proj1 (install_stack_spec (seq 0 (S (server o))) (fun _ => false)) (conj (seq_NoDup _ _) (fun _ _ => eq_refl))) as (has & EH). rewrite EH. cbn [bind].
    rewrite assign_seq by lia. replace ((S (server o) =? 0)%nat || (1 + Z.of_nat (S (server o)) <=? 65535)) with true by lia. cbn [bind].
    fold net1. fold (addressed net1 0 (S (server o))).
    assert (USERS : skipn (List.length grid) (seq n (gateways o + 2)) = [client o; server o]).
    { rewrite LG. rewrite seq_app. rewrite skipn_app, seq_length, Nat.sub_diag. rewrite skipn_all2 by (rewrite seq_length; lia). cbn. unfold server, client. fold n. f_equal; f_equal; lia. }
    assert (NM : (n <= S (server o))%nat) by lia.
    unfold acts_of. fold n. replace (S (server o) - n)%nat with (gateways o + 2)%nat by lia.
    destruct (op_islEnabled o) eqn:EI.
    - cbn [isl_helper_calls isl_helper_call leo_only bind new_isl_helper ih_dev ih_queue ih_chan app].
      rewrite assign_seq by lia. replace ((n =? 0)%nat || (1 + Z.of_nat n <=? 65535)) with true by lia. cbn [bind].
      rewrite USERS. cbn [nth]. unfold GetAddress. fold net2. fold (addressed net2 (S (server o)) n).
      pose proof (interfaces_spec n (S (server o)) true net1 net2 (server o) NM ltac:(lia)) as IS. cbn [andb] in IS. rewrite IS.
      replace (server o <? n)%nat with false by lia. cbn [nth_error Nat.sub bind]. reflexivity.
    - cbn [bind]. rewrite USERS. cbn [nth]. unfold GetAddress.
      pose proof (interfaces_spec n (S (server o)) false net1 net2 (server o) NM ltac:(lia)) as IS. cbn [andb] in IS. rewrite !app_nil_r in *. rewrite IS.
      cbn [nth_error Nat.sub bind]. reflexivity.
  Qed.

  Lemma set_up_fails : forall o, well_typed o -> ~ feasible o -> is_ok (set_up_scenario pos seconds junk o) = false.
  Proof.
    intros o WT NF. pose proof WT as (Hu & _). destruct (installable_dec (op_orbits o)) as [F|F].
    - destruct (InstallOrbits_ok N (op_precision o) junk 0 (op_orbits o) Hu F) as (sats & ES & LS). apply TracingProofs.Forall2_length in LS. fold (fleet o) in LS.
      destruct (grid_of o WT) as (grid & EG & LG). unfold set_up_scenario. rewrite ES. cbn [bind]. rewrite EG. cbn [bind]. fold (ut_calls o).
      destruct (ut_calls_spec o) as [(p & P1 & P2 & EU)|[X EU]]; rewrite EU; [|reflexivity]. cbn [bind].
      assert (LST : List.length (grid ++ InstallPair (op_source o) (op_destination o)) = (gateways o + 2)%nat) by (rewrite app_length, LG; reflexivity).
      rewrite LST, LS, <- seq_app. destruct (install_stack _ _); [|reflexivity|reflexivity]. cbn [bind].
      assert (EM : (List.length (fleet o) + (gateways o + 2) = S (server o))%nat) by (unfold server, client; lia). rewrite EM.
      rewrite assign_seq by lia. destruct (_ || _) eqn:B; [|reflexivity]. exfalso. apply NF. split; [exact F|]. split; [rewrite <- P2; apply in_map; exact P1|lia].
    - destruct (InstallOrbits_fail N (op_precision o) junk 0 (op_orbits o) Hu F) as (x & l1 & l2 & _ & _ & _ & E). unfold set_up_scenario. rewrite E.
      destruct (_ <? _); reflexivity.
  Qed.
  Lemma feasible_dec : forall o : options N, feasible o \/ ~ feasible o.
  Proof.
    intros o. destruct (installable_dec (op_orbits o)) as [F|F]; [|right; intros (X & _); contradiction].
    destruct (ut_calls_spec o) as [(p & P1 & P2 & _)|[X _]]; [|right; intros (_ & Y & _); contradiction].
    destruct (Z_le_gt_dec (Z.of_nat (S (server o))) 65534); [left; split; [exact F|]; split; [rewrite <- P2; apply in_map; exact P1|assumption]|].
    right. intros (_ & _ & Y). lia.
  Qed.
End Set_up.

Section Built.
  Context {N : Num}.
  Variable crc : list Z -> Z.
  Variable fcs : bool.
  Variable tx_time : Z -> Z -> Z.
  Variable has_mob : nat -> bool.
  Variable pos : nat -> Z -> vec N.
  Variable seconds : num N -> Z.
  Notation run := (@run N crc fcs tx_time has_mob).

  Lemma nth_classes : forall a b i, nth i (repeat true a ++ repeat false b) false = (i <? a)%nat.
  Proof.
    induction a as [|a IH]; intros b i; cbn [repeat app].
    - replace (i <? 0)%nat with false by lia. revert i. induction b as [|b IH]; intros [|i]; cbn; auto.
    - destruct i as [|i]; [reflexivity|]. cbn [nth]. rewrite IH. lia.
  Qed.
  Lemma ut_kind : forall o p sats i, leo_kind (ut_helper pos seconds o p) sats i = if (i <? List.length sats)%nat then Sat else Gnd.
  Proof. intros o p sats i. unfold leo_kind, leo_attrs. destruct (i <? List.length sats)%nat; reflexivity. Qed.

  Lemma world_built : forall (o : options N) p, Z.of_nat (S (server o)) <= 65534 ->
    exists w, run (initial_for (acts_of pos seconds o p)) (program pos seconds 0 0 0 (acts_of pos seconds o p)) = Ok w /\ built pos seconds o p w.
  Proof.
    intros o p HS. set (h := ut_helper pos seconds o p). set (n := List.length (fleet o)). set (m := S (server o)).
    assert (NM : (n + 2 <= m)%nat) by (unfold m, server, client; fold n; lia).
    set (acts := acts_of pos seconds o p). set (w0 := initial_for acts).
    assert (EA : acts = ALeoInstall h (seq 0 n) (seq n (m - n)) :: if op_islEnabled o then [AIslInstall (the_isl_helper pos seconds o) (seq 0 n)] else []) by reflexivity.
    assert (LN : List.length (seq 0 n ++ seq n (m - n)) = m) by (rewrite app_length, !seq_length; lia).
    assert (DC : forall i, nth i (device_classes acts) false = (i <? m)%nat).
    { intros i. rewrite EA. cbn [device_classes]. rewrite LN. destruct (op_islEnabled o); cbn [device_classes]; rewrite ?app_nil_r.
      - apply nth_classes.
      - rewrite <- (nth_classes m 0 i). cbn [repeat]. rewrite app_nil_r. reflexivity. }
    assert (W0 : forall x, w_dev w0 x = new_dev (N := N) (x <? m)%nat) by (intros x; unfold w0, initial_for, initial; cbn [w_dev]; rewrite DC; reflexivity).
    destruct (leo_install_spec crc fcs tx_time has_mob pos seconds h 0 0 (seq 0 n) (seq n (m - n)) 0 w0) as (w1 & H1 & T & D & K & L & LO & DE & SI).
    { unfold w0, initial_for, initial. cbn [w_chan]. rewrite EA. reflexivity. }
    { rewrite LN. intros i Hi. rewrite W0. replace (0 + i <? m)%nat with true by lia. reflexivity. }
    { lia. }
    { rewrite LN. lia. }
    rewrite LN in T, L, SI. destruct T as (TN & TE & _ & TD & TC).
    assert (D1 : forall x, (x < m)%nat -> w_dev w1 x = mkDev (installed_cfg (new_cfg true) (leo_attrs h (seq 0 n) x) x (Z.of_nat x + 1)) (Some (leo_queue h (seq 0 n) x)) [] false None (Some 0%nat) x true).
    { intros x Hx. assert (E : nth_error (seq 0 n ++ seq n (m - n)) x = Some x).
      { rewrite <- (Nat.add_0_l n) at 2. rewrite <- seq_app. replace (n + (m - n))%nat with m by lia. rewrite nth_error_seq. replace (x <? m)%nat with true by lia. reflexivity. }
      rewrite <- (Nat.add_0_l x) at 1. rewrite (D x x E), !W0. replace (0 + x <? m)%nat with true by lia. replace (0 + 1 + Z.of_nat x) with (Z.of_nat x + 1) by lia. reflexivity. }
    assert (D1' : forall x, (m <= x)%nat -> w_dev w1 x = new_dev (N := N) false).
    { intros x Hx. rewrite TD by lia. rewrite W0. replace (x <? m)%nat with false by lia. reflexivity. }
    (* what the first network is, in any world that agrees with this one on it *)
    assert (FIRST : forall w, (forall x, (x < m)%nat -> w_dev w x = w_dev w1 x) -> w_chan w 0%nat = w_chan w1 0%nat ->
      (forall x, (x < m)%nat -> set_up w x x (Z.of_nat x + 1) (if Nat.ltb x n then Sat else Gnd) 0 x /\
       let g := d_cfg (w_dev w x) in
       g_bps g = ps_rate p /\ g_gap g = 0 /\ g_txp g = ndec N (ps_eirp p) 1 /\ g_gain g = ndec N (ps_gain p) 1 /\ g_loss g = nZ N 0 /\
       g_thr g = nZ N (-1000) /\ g_err g = None) /\
      star w 0 0 n (m - n) 1 /\
      c_loss (w_chan w 0%nat) = Some (leo_loss pos (preset_loss p)) /\ c_delay (w_chan w 0%nat) = Some (constant_speed pos seconds (nZ N 299702458))).
    { intros w WD WC. split; [|split; [|split]].
      - intros x Hx. unfold set_up. rewrite WD, D1 by exact Hx. unfold leo_attrs. rewrite seq_length. destruct (x <? n)%nat; repeat split.
      - unfold star. rewrite WC, K, L. replace (n + (m - n))%nat with m by lia. split; [reflexivity|]. split; [reflexivity|]. split; intros a x.
        + specialize (SI Sat a x ltac:(discriminate)). cbn [side] in SI. rewrite SI. split.
          * intros (i & Hi & -> & -> & X). unfold h in X. rewrite ut_kind, seq_length in X. destruct (Nat.ltb_spec i n) as [Hn|Hn]; [|discriminate]. exists i. split; [exact Hn|]. split; lia.
          * intros (i & Hi & -> & ->). exists i. unfold h. rewrite ut_kind, seq_length. replace (i <? n)%nat with true by lia. repeat split; lia.
        + specialize (SI Gnd a x ltac:(discriminate)). cbn [side] in SI. rewrite SI. split.
          * intros (i & Hi & -> & -> & X). unfold h in X. rewrite ut_kind, seq_length in X. destruct (Nat.ltb_spec i n) as [Hn|Hn]; [discriminate|]. exists i. split; [lia|]. split; lia.
          * intros (i & Hi & -> & ->). exists i. unfold h. rewrite ut_kind, seq_length. replace (i <? n)%nat with false by lia. repeat split; lia.
      - rewrite WC, LO. reflexivity.
      - rewrite WC, DE. reflexivity. }
    assert (EP : program pos seconds 0 0 0 acts = leo_install pos seconds h 0 0 (seq 0 n) (seq n (m - n)) 0 ++
      if op_islEnabled o then isl_install (the_isl_helper pos seconds o) 1 (0 + m) (seq 0 n) (0 + Z.of_nat m) else []).
    { rewrite EA. cbn [program]. rewrite LN. destruct (op_islEnabled o); cbn [program]; rewrite ?app_nil_r; reflexivity. }
    rewrite EP. destruct (op_islEnabled o) eqn:EI.
    - rewrite run_app, H1. cbn [bind].
      destruct (isl_install_spec crc fcs tx_time has_mob pos (the_isl_helper pos seconds o) 1 (0 + m) (seq 0 n) (0 + Z.of_nat m) w1) as (w2 & H2 & T2 & D2 & K2 & L2 & _ & _ & LO2 & DE2).
      { rewrite TC by lia. unfold w0, initial_for, initial. cbn [w_chan]. rewrite EA. reflexivity. }
      { rewrite seq_length. intros i Hi. rewrite D1' by lia. reflexivity. }
      { lia. }
      { rewrite seq_length. lia. }
      rewrite seq_length in T2, L2. destruct T2 as (TN2 & TE2 & _ & TD2 & TC2).
      exists w2. split; [exact H2|]. unfold built. fold n m. rewrite EI.
      assert (D2' : forall i, (i < n)%nat -> w_dev w2 (m + i) = mkDev (installed_cfg (new_cfg false) [ARate (op_rate o)] i (Z.of_nat (m + i) + 1)) (Some (drop_tail 100)) [] false None (Some 1%nat) i true).
      { intros i Hi. assert (E : nth_error (seq 0 n) i = Some i) by (rewrite nth_error_seq; replace (i <? n)%nat with true by lia; reflexivity).
        rewrite <- (Nat.add_0_l m) at 1. rewrite (D2 i i E), !D1' by lia. replace (0 + Z.of_nat m + 1 + Z.of_nat i) with (Z.of_nat (m + i) + 1) by lia. reflexivity. }
      split; [rewrite TN2, TN; reflexivity|]. split.
      { split; [rewrite TE2, TE; reflexivity|]. intros x. destruct (Nat.ltb_spec x m) as [Hx|Hx].
        - rewrite TD2, D1 by lia. split; reflexivity.
        - destruct (Nat.ltb_spec x (m + n)) as [Hy|Hy].
          + replace x with (m + (x - m))%nat by lia. rewrite D2' by lia. split; reflexivity.
          + rewrite TD2, D1' by lia. split; reflexivity. }
      destruct (FIRST w2) as (F1 & F2 & F3 & F4); [intros x Hx; apply TD2; lia|apply TC2; lia|].
      split; [exact F1|]. split; [exact F2|]. split; [exact F3|]. split; [exact F4|]. split; [|split].
      + intros i Hi _. unfold set_up. rewrite D2' by exact Hi. repeat split.
      + intros _. split; [exact K2|]. split; [exact L2|]. rewrite LO2, DE2. split; reflexivity.
      + intros x Hx. rewrite TD2, D1' by lia. reflexivity.
    - rewrite app_nil_r. exists w1. split; [exact H1|]. unfold built. fold n m. rewrite EI.
      split; [rewrite TN; reflexivity|]. split.
      { split; [rewrite TE; reflexivity|]. intros x. destruct (Nat.ltb_spec x m) as [Hx|Hx].
        - rewrite D1 by lia. split; reflexivity.
        - rewrite D1' by lia. split; reflexivity. }
      destruct (FIRST w1) as (F1 & F2 & F3 & F4); auto.
      split; [exact F1|]. split; [exact F2|]. split; [exact F3|]. split; [exact F4|]. split; [|split].
      + intros i _ X. discriminate.
      + discriminate.
      + intros x Hx. rewrite D1' by lia. reflexivity.
  Qed.

  (** Programs that go on after the set-up. *)
  Lemma program_app : forall l (ops : list (op N)) c d id, program pos seconds c d id (l ++ map AOp ops) = program pos seconds c d id l ++ ops.
  Proof.
    assert (A : forall (ops : list (op N)) c d id, program pos seconds c d id (map AOp ops) = ops) by (induction ops as [|o r IH]; intros; [reflexivity|]; cbn; rewrite IH; reflexivity).
    induction l as [|a r IH]; intros ops c d id; [apply A|]. cbn [app program]. destruct a; rewrite IH, ?app_assoc; reflexivity.
  Qed.
  Lemma classes_app : forall (l : list (act N)) (ops : list (op N)), device_classes (l ++ map AOp ops) = device_classes l /\ channel_classes (l ++ map AOp ops) = channel_classes l.
  Proof.
    assert (A : forall ops : list (op N), device_classes (map AOp ops) = [] /\ channel_classes (map AOp ops) = []) by (induction ops as [|o r IH]; cbn; auto).
    induction l as [|a r IH]; intros ops; [apply A|]. destruct (IH ops) as [E1 E2]. cbn [app]. destruct a; cbn [device_classes channel_classes]; rewrite E1, E2; auto.
  Qed.
End Built.

(** ** Who hears whom *)

Section Links.
  Context {N : Num}.
  Variable crc : list Z -> Z.
  Variable fcs : bool.
  Variable tx_time : Z -> Z -> Z.
  Variable has_mob : nat -> bool.
  Variable pos : nat -> Z -> vec N.
  Variable seconds : num N -> Z.
  Notation run := (@run N crc fcs tx_time has_mob).

  (** A source that was heard is attached. *)
  Lemma traffic_chan : forall w0 ops w new, NetSpec.reachable crc fcs tx_time has_mob w0 -> w_events w0 = [] -> Forall traffic ops -> run w0 ops = Ok w -> w_log w = w_log w0 ++ new ->
    forall T dst src payload q from to own, In (T, RxCallback dst src payload q from to own) new -> exists c, d_chan (w_dev w0 src) = Some c.
  Proof.
    intros w0 ops w new R E0 F H LG T dst src payload q from to own HI.
    destruct (received_origin crc fcs tx_time has_mob w0 ops w new R E0 H LG _ _ _ _ _ _ _ _ HI) as (ops1 & ops2 & w2 & p & power & -> & H2 & O & _).
    apply Forall_app in F as [F _].
    destruct O as (o1 & o & o2 & wa & w1 & nw & c' & dest & tx & gap & -> & B1 & B2 & B3 & B4 & B5 & _).
    apply Forall_app in F as [F1 F2]. inversion F2; subst.
    assert (RA : run w0 (o1 ++ [o]) = Ok w1) by (rewrite run_app, B1; cbn; rewrite B2; reflexivity).
    assert (FA : Forall traffic (o1 ++ [o])) by (apply Forall_app; split; [assumption|constructor; [assumption|constructor]]).
    destruct (traffic_run crc fcs tx_time has_mob _ w0 w1 R FA RA) as [[_ K] _]. destruct (K src) as [_ X]. exists c'. congruence.
  Qed.

  Lemma built_links : forall (o : options N) p w0 w1 c src dest dst, built pos seconds o p w0 -> kept w0 w1 ->
    d_chan (w_dev w0 src) = Some c -> recipient w1 c src dest dst -> src <> dst ->
    let n := List.length (fleet o) in let m := S (server o) in
    (c = 0%nat /\ exists i j, (i < n)%nat /\ (n + j < m)%nat /\ ((src = i /\ dst = (n + j)%nat) \/ (src = (n + j)%nat /\ dst = i))) \/
    (c = 1%nat /\ op_islEnabled o = true /\ exists i j, (i < n)%nat /\ (j < n)%nat /\ i <> j /\ src = (m + i)%nat /\ dst = (m + j)%nat).
  Proof.
    intros o p w0 w1 c src dest dst (_ & _ & B1 & (S1 & S2 & S3 & S4) & _ & _ & B2 & B3 & B4) [KC KD] HC RC ND n m.
    fold n in B1, B2, B3, B4, S2, S3, S4. fold m in B1, B2, B3, B4, S2, S3, S4.
    assert (NM : (n + 2 <= m)%nat) by (unfold m, server, client; fold n; lia). clearbody m n.
    assert (AD : addr_of w1 src = g_addr (d_cfg (w_dev w0 src))) by (unfold addr_of; destruct (KD src) as [-> _]; reflexivity).
    destruct (Nat.ltb_spec src m) as [Hs|Hs].
    - left. destruct (B1 src Hs) as ((_ & A2 & _ & _ & _ & A3 & _) & _). rewrite HC in A3. injection A3 as ->. split; [reflexivity|].
      unfold recipient in RC. rewrite KC, S1, AD, A2 in RC. destruct RC as [((x & X) & _ & Y)|((x & X) & _ & Y)].
      + apply S4 in X as (i & Hi & X & _). apply in_map_iff in Y as ((b & y) & Y1 & Y). cbn in Y1. subst y. apply S3 in Y as (j & Hj & _ & Y).
        exists j, (i - n)%nat. split; [exact Hj|]. split; [lia|]. right. lia.
      + apply S3 in X as (i & Hi & X & _). apply in_map_iff in Y as ((b & y) & Y1 & Y). cbn in Y1. subst y. apply S4 in Y as (j & Hj & _ & Y).
        exists i, (j - n)%nat. split; [exact Hi|]. split; [lia|]. left. lia.
    - right. destruct (op_islEnabled o) eqn:EI; [|rewrite B4 in HC by lia; discriminate].
      destruct (Nat.ltb_spec src (m + n)) as [Ht|Ht]; [|rewrite B4 in HC by lia; discriminate].
      destruct (B2 (src - m)%nat ltac:(lia) eq_refl) as ((_ & A2 & _ & _ & _ & A3 & _) & _).
      replace (m + (src - m))%nat with src in A2, A3 by lia. rewrite HC in A3. injection A3 as ->. split; [reflexivity|]. split; [reflexivity|].
      destruct (B3 eq_refl) as (K1 & K2 & _). unfold recipient in RC. rewrite KC, K1, K2 in RC.
      assert (L : exists k, nth_error (seq m n) k = Some dst) by (destruct RC as [(k & X & _)|(_ & _ & k & _ & X)]; eauto).
      destruct L as (k & L). rewrite nth_error_seq in L. destruct (Nat.ltb_spec k n) as [Hk|Hk]; [|discriminate]. injection L as <-.
      exists (src - m)%nat, k. repeat split; lia.
  Qed.
End Links.
