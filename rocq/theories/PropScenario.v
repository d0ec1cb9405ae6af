(** C87: what the programs leo-delay-tracing-example and leo-bulk-send-example simulate. *)
Require Import ZArith Reals Lra Lia List Bool String.
From Flocq Require Import Core.Core IEEE754.BinarySingleNaN.
Require Import Verif.Base Verif.Num Verif.NumR Verif.Num64 Verif.Vec Verif.OrbitModel Verif.MobilityModel Verif.AllocModel
  Verif.LossModel Verif.FrameModel Verif.NetModel Verif.HelperModel Verif.LeoHelperModel Verif.TracingModel Verif.ScenarioModel
  Verif.GeomSpec Verif.OrbitSpec Verif.MobilitySpec Verif.AllocSpec Verif.LossSpec Verif.NetSpec Verif.NetRunSpec Verif.HeardSpec Verif.HelperSpec Verif.LeoHelperSpec
  Verif.Float64Spec Verif.ConstellationSpec Verif.Link64Spec Verif.ScenarioSpec
  Verif.LossProofs Verif.LossApiProofs Verif.OrbitProofs Verif.AllocProofs Verif.Alloc64Proofs Verif.ConstellationProofs Verif.HelperProofs Verif.HelperSafeProofs Verif.HelperApiProofs Verif.NetSteps Verif.NetHeardProofs Verif.TracingProofs
  Verif.NetExamples Verif.ScenarioProofs Verif.PropHelper Verif.PropRun Verif.PropConstellation Verif.PropFloat Verif.PropGround64 Verif.PropHeard Verif.PropTracing.
Import ListNotations.
Local Open Scope Z_scope.

(** ** C87 *)

Lemma is_ok_true : forall A (r : res A) a, r = Ok a -> is_ok r = true.
Proof. intros A r a ->. reflexivity. Qed.
Lemma ok_inj : forall A (a b : A), Ok a = Ok b -> a = b.
Proof. intros A a b H. injection H as H. exact H. Qed.

Lemma NoDup_app_intro : forall A (l k : list A), NoDup l -> NoDup k -> (forall a, In a l -> In a k -> False) -> NoDup (l ++ k).
Proof.
  intros A l k Hl Hk H. induction Hl as [|a l Ha Hl IH]; [exact Hk|]. cbn [app]. constructor.
  - intros X. apply in_app_or in X as [X|X]; [auto|]. exact (H a (or_introl eq_refl) X).
  - apply IH. intros b B1 B2. exact (H b (or_intror B1) B2).
Qed.

Lemma in_addressed : forall b d0 n d a, In (d, a) (addressed b d0 n) -> exists i, (i < n)%nat /\ d = (d0 + i)%nat /\ a = b + 1 + Z.of_nat i.
Proof.
  intros b d0 n d a H. unfold addressed in H. apply in_map_iff in H as (i & H & Hi). apply in_seq in Hi. exists i.
  pose proof (f_equal fst H) as H1. pose proof (f_equal snd H) as H2. cbn [fst snd] in H1, H2. split; [lia|]. split; symmetry; assumption.
Qed.
Lemma addressed_snd : forall b d n a, In a (map snd (addressed b d n)) -> exists i, (i < n)%nat /\ a = b + 1 + Z.of_nat i.
Proof. intros b d n a H. apply in_map_iff in H as ([d' a'] & <- & H). apply in_addressed in H as (i & H1 & _ & H2). exists i. auto. Qed.

(** The set-up succeeds exactly if it can. *)
Theorem C87_outcome : forall (N : Num) pos seconds (junk : vec N) o, well_typed o ->
  (is_ok (set_up_scenario pos seconds junk o) = true <-> feasible o).
Proof.
  intros N pos seconds junk o WT. destruct (feasible_dec pos seconds o) as [F|F].
  - destruct (set_up_ok pos seconds junk o WT F) as (sats & grid & p & _ & _ & _ & _ & _ & _ & E). rewrite E. split; auto.
  - rewrite (set_up_fails pos seconds junk o WT F). split; [discriminate|contradiction].
Qed.
Print Assumptions C87_outcome.

(** Its nodes: the satellites first, then gateways, client and server. Every device has an address of
    its own; the traffic is sent to the server's address in the ground network. *)
Theorem C87_nodes : forall (N : Num) pos seconds (junk : vec N) o s, well_typed o -> set_up_scenario pos seconds junk o = Ok s ->
  let n := List.length (fleet o) in
  InstallOrbits (op_precision o) junk 0 (op_orbits o) = Ok (sc_sats s) /\ List.length (sc_sats s) = n /\
  List.length (sc_stations s) = (gateways o + 2)%nat /\
  sc_client s = (n + gateways o)%nat /\ sc_server s = S (sc_client s) /\
  sc_nodes s = seq 0 (S (sc_server s)) ++ (if op_islEnabled o then seq 0 n else []) /\
  map fst (sc_ips s) = seq 0 (List.length (sc_nodes s)) /\ NoDup (map snd (sc_ips s)) /\
  (forall d a, In (d, a) (sc_ips s) -> (d <= sc_server s)%nat /\ ipv4 10 1 0 0 < a < ipv4 10 1 255 255 \/
                                       (sc_server s < d)%nat /\ ipv4 10 2 0 0 < a < ipv4 10 2 255 255) /\
  In (sc_server s, sc_remote s) (sc_ips s) /\ sc_remote s = ipv4 10 1 0 0 + Z.of_nat (sc_server s) + 1.
Proof.
  intros N pos seconds junk o s WT E n. assert (F : feasible o) by (exact (proj1 (C87_outcome N pos seconds junk o WT) (is_ok_true _ _ _ E))).
  destruct (set_up_ok pos seconds junk o WT F) as (sats & grid & p & E1 & L1 & E2 & L2 & _ & _ & X). pose proof (ok_inj _ _ _ (eq_trans (eq_sym E) X)) as Y; clear X; subst s.
  cbn [sc_sats sc_stations sc_acts sc_nodes sc_ips sc_client sc_server sc_remote]. destruct F as (_ & _ & F3).
  split; [exact E1|]. split; [exact L1|]. split; [rewrite app_length, L2; reflexivity|]. split; [reflexivity|]. split; [reflexivity|]. split; [reflexivity|].
  fold n in F3 |- *. assert (NS : (n < S (server o))%nat) by (unfold server, client; fold n; lia).
  split; [|split; [|split; [|split]]].
  - rewrite map_app, addressed_fst, app_length, seq_length. destruct (op_islEnabled o).
    + rewrite addressed_fst, seq_length. rewrite <- seq_app. reflexivity.
    + rewrite !app_nil_r, Nat.add_0_r. reflexivity.
  - assert (ND : forall b d k, NoDup (map snd (addressed b d k))).
    { intros b d k. unfold addressed. rewrite map_map. cbn [snd]. apply FinFun.Injective_map_NoDup; [|apply seq_NoDup]. intros i j Hij. lia. }
    rewrite map_app. destruct (op_islEnabled o); [|rewrite app_nil_r; apply ND]. apply NoDup_app_intro; [apply ND|apply ND|].
    intros a A1 A2. apply addressed_snd in A1 as (i & Hi & A1). apply addressed_snd in A2 as (j & Hj & A2). unfold net1 in A1. unfold net2 in A2. lia.
  - intros d a H. assert (I1 : ipv4 10 1 0 0 = 167837696 /\ ipv4 10 1 255 255 = 167903231 /\ ipv4 10 2 0 0 = 167903232 /\ ipv4 10 2 255 255 = 167968767) by (repeat split).
    apply in_app_or in H as [H|H].
    + apply in_addressed in H as (i & H1 & H2 & H3). left. unfold net1 in H3. lia.
    + destruct (op_islEnabled o); [|destruct H]. apply in_addressed in H as (i & H1 & H2 & H3). right. unfold net2 in H3. lia.
  - apply in_or_app. left. unfold addressed. apply in_map_iff. exists (server o). split; [reflexivity|]. apply in_seq. lia.
  - change (ipv4 10 1 0 0) with net1. lia.
Qed.
Print Assumptions C87_nodes.

(** Its devices and channels: the set-up always leads to this world. *)
Theorem C87_world : forall (N : Num) crc fcs tx_time has_mob pos seconds (junk : vec N) o s, well_typed o -> set_up_scenario pos seconds junk o = Ok s ->
  exists p w, In p published /\ ps_name p = op_constellation o /\
    NetModel.run crc fcs tx_time has_mob (initial_for (sc_acts s)) (scenario_ops pos seconds s) = Ok w /\ built pos seconds o p w.
Proof.
  intros N crc fcs tx_time has_mob pos seconds junk o s WT E. assert (F : feasible o) by (exact (proj1 (C87_outcome N pos seconds junk o WT) (is_ok_true _ _ _ E))).
  destruct (set_up_ok pos seconds junk o WT F) as (sats & grid & p & _ & _ & _ & _ & P1 & P2 & X). pose proof (ok_inj _ _ _ (eq_trans (eq_sym E) X)) as Y; clear X; subst s.
  destruct F as (_ & _ & F3). destruct (world_built crc fcs tx_time has_mob pos seconds o p F3) as (w & H & B). exists p, w. auto.
Qed.
Print Assumptions C87_world.

(** The simulation never fails, whatever is sent: no assertion, no undefined behaviour. *)
Theorem C87_never_fails : forall (N : Num) crc fcs tx_time has_mob pos seconds (junk : vec N) o s ops, well_typed o -> set_up_scenario pos seconds junk o = Ok s ->
  0 < op_rate o -> (forall bps n, 0 < bps -> 0 <= n -> 0 <= tx_time bps n) ->
  (forall v, v = 299702458 \/ v = 299792458 -> forall a b t, 0 <= constant_speed pos seconds (nZ N v) a b t) ->
  Forall ordinary ops ->
  exists w, NetModel.run crc fcs tx_time has_mob (initial_for (sc_acts s)) (scenario_ops pos seconds s ++ ops) = Ok w.
Proof.
  intros N crc fcs tx_time has_mob pos seconds junk o s ops WT E HR HT HV HO. assert (F : feasible o) by (exact (proj1 (C87_outcome N pos seconds junk o WT) (is_ok_true _ _ _ E))).
  destruct (set_up_ok pos seconds junk o WT F) as (sats & grid & p & _ & _ & _ & _ & P1 & P2 & X). pose proof (ok_inj _ _ _ (eq_trans (eq_sym E) X)) as Y; clear X; subst s.
  cbn [sc_acts]. unfold scenario_ops. cbn [sc_acts]. set (acts := acts_of pos seconds o p). destruct F as (_ & _ & F3).
  rewrite <- program_app. assert (EI : initial_for acts = initial_for (acts ++ map AOp ops)).
  { unfold initial_for. destruct (classes_app acts ops) as [-> ->]. reflexivity. }
  rewrite EI. apply C53_never_fails; [exact HT|exact HV| |lia|].
  - apply Forall_app. split.
    + unfold acts, acts_of. constructor.
      * destruct (ut_calls_spec pos seconds o) as [(p' & P1' & P2' & EU)|[Y _]]; [|exfalso; apply Y; rewrite <- P2; apply in_map; exact P1].
        assert (p' = p) by (apply (published_names p' p P1' P1); congruence). subst p'.
        exists (ut_calls o). split; [exact EU|]. unfold ut_calls. repeat constructor; exact HR.
      * destruct (op_islEnabled o); constructor; [|constructor]. exists [HDeviceAttribute (ARate (op_rate o))]. split; [reflexivity|]. constructor; [exact HR|constructor].
    + apply Forall_map. exact HO.
  - assert (DV : forall (l : list (act N)), devices (l ++ map AOp ops) = devices l).
    { induction l as [|a l IH]; [clear; induction ops as [|x r IH]; [reflexivity|exact IH]|]. cbn [app devices]. destruct a; rewrite IH; reflexivity. }
    rewrite DV. unfold acts, acts_of. cbn [devices]. rewrite !seq_length. unfold server, client in *. destruct (op_islEnabled o); cbn [devices]; rewrite ?seq_length; lia.
Qed.
Print Assumptions C87_never_fails.

(** ** Links *)

Section Links.
  Context {N : Num}.
  Variables (pos : nat -> Z -> vec N) (seconds : num N -> Z) (junk : vec N).

  Lemma scenario_satellite : forall o s, well_typed o -> set_up_scenario pos seconds junk o = Ok s -> placed junk s pos ->
    forall i, (i < List.length (fleet o))%nat -> exists x ps, nth_error (fleet o) i = Some (x, ps) /\ satellite junk (op_precision o) (op_orbits o) (pos i) x ps.
  Proof.
    intros o s WT E [PL _] i Hi. destruct (C87_nodes N pos seconds junk o s WT E) as (ES & LS & _).
    destruct (nth_error (fleet o) i) as [[x ps]|] eqn:EF; [|apply nth_error_None in EF; lia]. exists x, ps. split; [reflexivity|].
    destruct (nth_error (sc_sats s) i) as [m|] eqn:EM; [|apply nth_error_None in EM; lia].
    exists (sc_sats s), i, m. split; [exact ES|]. split; [exact EM|]. split; [exact EF|]. apply PL. exact EM.
  Qed.

  Lemma scenario_station : forall o s, well_typed o -> set_up_scenario pos seconds junk o = Ok s -> placed junk s pos ->
    exists grid, InstallGrid (op_latGws o) (op_lonGws o) = Ok grid /\ List.length grid = gateways o /\ sc_stations s = grid ++ InstallPair (op_source o) (op_destination o) /\
    forall j, (List.length (fleet o) + j < S (server o))%nat -> exists g, nth_error (sc_stations s) j = Some g /\ forall t, pos (List.length (fleet o) + j)%nat t = g.
  Proof.
    intros o s WT E [_ PL]. destruct (C87_nodes N pos seconds junk o s WT E) as (_ & LS & LT & _).
    assert (F : feasible o) by (exact (proj1 (C87_outcome N pos seconds junk o WT) (is_ok_true _ _ _ E))).
    destruct (set_up_ok pos seconds junk o WT F) as (sats & grid & p & _ & _ & E2 & L2 & _ & _ & X).
    pose proof (ok_inj _ _ _ (eq_trans (eq_sym E) X)) as Y. clear X. exists grid. split; [exact E2|]. split; [exact L2|].
    assert (ST : sc_stations s = grid ++ InstallPair (op_source o) (op_destination o)) by (rewrite Y; reflexivity). split; [exact ST|].
    intros j Hj. unfold server, client in Hj.
    destruct (nth_error (sc_stations s) j) as [g|] eqn:EG; [|apply nth_error_None in EG; lia]. exists g. split; [reflexivity|]. intros t. rewrite <- LS. apply PL. exact EG.
  Qed.

  Lemma scenario_start : forall crc fcs tx_time has_mob o s w0, well_typed o -> set_up_scenario pos seconds junk o = Ok s ->
    NetModel.run crc fcs tx_time has_mob (initial_for (sc_acts s)) (scenario_ops pos seconds s) = Ok w0 ->
    exists p, In p published /\ ps_name p = op_constellation o /\ built pos seconds o p w0 /\ reachable crc fcs tx_time has_mob w0 /\ w_events w0 = [].
  Proof.
    intros crc fcs tx_time has_mob o s w0 WT E H. destruct (C87_world N crc fcs tx_time has_mob pos seconds junk o s WT E) as (p & w & P1 & P2 & H' & B).
    pose proof (ok_inj _ _ _ (eq_trans (eq_sym H) H')) as <-. exists p. split; [exact P1|]. split; [exact P2|]. split; [exact B|]. split.
    - eexists _, _, _. exact H.
    - destruct B as (_ & [X _] & _). exact X.
  Qed.
End Links.

(** ** Where the nodes are *)
Local Open Scope R_scope.

(** The gateways are on their grid, the users where GetEarthPosition puts them. *)
Theorem C87_stations : forall pos seconds (junk : point) (o : options NumR) s, well_typed o -> set_up_scenario pos seconds junk o = Ok s -> (op_latGws o < 2 ^ 32 - 1)%Z ->
  forall j, nth_error (sc_stations s) j = if Nat.ltb j (gateways o + 2) then Some (place (N := NumR) (fun x => x) o j) else None.
Proof.
  intros pos seconds junk o s WT E HL j. destruct (C87_nodes NumR pos seconds junk o s WT E) as (_ & _ & LT & _).
  destruct (Nat.ltb_spec j (gateways o + 2)) as [Hj|Hj]; [|apply nth_error_None; lia].
  assert (F : feasible o) by (exact (proj1 (C87_outcome NumR pos seconds junk o WT) (is_ok_true _ _ _ E))).
  destruct (set_up_ok pos seconds junk o WT F) as (sats & grid & p & _ & _ & E2 & L2 & _ & _ & X).
  pose proof (ok_inj _ _ _ (eq_trans (eq_sym E) X)) as Y. clear X.
  assert (ST : sc_stations s = grid ++ InstallPair (op_source o) (op_destination o)) by (rewrite Y; reflexivity). rewrite ST. clear Y.
  destruct WT as (_ & W1 & W2). destruct (InstallGrid_ok NumR (op_latGws o) (op_lonGws o) W1 W2) as (l & El & Ll & G & _).
  pose proof (ok_inj _ _ _ (eq_trans (eq_sym E2) El)) as <-. specialize (G HL). unfold place.
  destruct (Nat.ltb_spec j (gateways o)) as [Hg|Hg].
  - rewrite nth_error_app1 by lia. rewrite G. fold (gateways o). unfold first_n. rewrite nth_error_map.
    unfold max32. change (Z.to_nat ((op_latGws o * op_lonGws o) mod 4294967296)) with (gateways o).
    destruct (nth_error (seq 0 (gateways o)) j) as [k|] eqn:EK; [|apply nth_error_None in EK; rewrite seq_length in EK; lia].
    pose proof (nth_error_nth _ _ 0%nat EK) as K. rewrite seq_nth in K by exact Hg. cbn in K. subst k. cbn [option_map]. rewrite polar_vec_R. reflexivity.
  - rewrite nth_error_app2 by lia. rewrite L2. unfold InstallPair. rewrite InstallLocations_map.
    destruct (Nat.eqb_spec j (gateways o)) as [->|NE].
    + rewrite Nat.sub_diag. cbn [map nth_error]. destruct (op_source o) as [lat lon]. rewrite earth_position_R. reflexivity.
    + replace (j - gateways o)%nat with 1%nat by lia. cbn [map nth_error]. destruct (op_destination o) as [lat lon]. rewrite earth_position_R. reflexivity.
Qed.
Print Assumptions C87_stations.

Lemma fleet_in : forall N (o : options N) i x ps, nth_error (fleet o) i = Some (x, ps) -> In x (op_orbits o).
Proof.
  intros N o i x ps Hx. apply nth_error_In in Hx. unfold fleet in Hx. apply in_concat in Hx as (l & Hl & Hx). apply in_map_iff in Hl as (y & <- & Hy).
  unfold satellites, first_n in Hx. apply in_map_iff in Hx as (k & Hx & _). pose proof (f_equal fst Hx) as X. cbn in X. subst y. exact Hy.
Qed.

Lemma place_norm : forall N val (o : options N) j, norm (place val o j) = ground_radius.
Proof.
  intros N val o j. unfold place. destruct (Nat.ltb j (gateways o)); [|apply AllocProofs.sphere_norm].
  destruct (grid (op_latGws o) (op_lonGws o) (Z.of_nat j)) as [r c]. unfold grid_point. apply AllocProofs.sphere_norm.
Qed.

(** Everything a simulation of these programs receives came over a link of the constellation: from
    a satellite above the mask of its link class to a station or back, or between two satellites
    that the Earth does not hide from each other; and it came one light time after it was sent. *)
Theorem C87_receptions : forall crc fcs tx_time has_mob pos seconds (junk : point) (o : options NumR) s w0 ops w new T dst src payload q from to own,
  well_typed o -> set_up_scenario pos seconds junk o = Ok s -> placed junk s pos -> (op_latGws o < 2 ^ 32 - 1)%Z ->
  Forall (fun x : leoorbit NumR => / 1000 < lo_alt x) (op_orbits o) -> (forall x, (x <= server o)%nat -> has_mob x = true) ->
  NetModel.run crc fcs tx_time has_mob (initial_for (sc_acts s)) (scenario_ops pos seconds s) = Ok w0 ->
  Forall traffic ops -> NetModel.run crc fcs tx_time has_mob w0 ops = Ok w -> w_log w = w_log w0 ++ new ->
  In (T, RxCallback dst src payload q from to own) new ->
  let n := List.length (fleet o) in
  exists t p, (0 <= t <= w_now w)%Z /\ In p published /\ ps_name p = op_constellation o /\
    ((exists i x ps j tau, nth_error (fleet o) i = Some (x, ps) /\ (n + j <= server o)%nat /\
        (src = i /\ dst = (n + j)%nat \/ src = (n + j)%nat /\ dst = i) /\ refreshed (op_precision o) t tau /\
        let P := sat_path x ps tau in let G := place (N := NumR) (fun y => y) o j in
        T = (t + seconds (distance G P / 299702458)%R)%Z /\ radians (IZR (ps_elevation p)) <= elevation G P /\
        distance G P <= slant_range leo_earth_radius (1000 * (earth_radius_km + lo_alt x)) (radians (IZR (ps_elevation p)))) \/
     (op_islEnabled o = true /\ exists i x ps j y pt ta tb, nth_error (fleet o) i = Some (x, ps) /\ nth_error (fleet o) j = Some (y, pt) /\ i <> j /\
        src = (S (server o) + i)%nat /\ dst = (S (server o) + j)%nat /\ refreshed (op_precision o) t ta /\ refreshed (op_precision o) t tb /\
        let P := sat_path x ps ta in let Q := sat_path y pt tb in
        T = (t + seconds (distance P Q / 299792458)%R)%Z /\ (P <> Q -> unobstructed isl_earth_radius P Q))).
Proof.
  intros crc fcs tx_time has_mob pos seconds junk o s w0 ops w new T dst src payload q from to own WT E PL HL HA HM H0 HO HR LG HI n.
  destruct (scenario_start pos seconds junk crc fcs tx_time has_mob o s w0 WT E H0) as (p & P1 & P2 & B & RE & EV).
  destruct (traffic_chan crc fcs tx_time has_mob w0 ops w new RE EV HO HR LG _ _ _ _ _ _ _ _ HI) as (c & HC).
  destruct (traffic_origin crc fcs tx_time has_mob w0 ops w new RE EV HO HR LG _ _ _ _ _ _ _ _ c HI HC) as (w1 & dest & tx & K & _ & ND & RC & _).
  destruct (scenario_station pos seconds junk o s WT E PL) as (grid & _ & LGr & _ & SG).
  pose proof (scenario_satellite pos seconds junk o s WT E PL) as SS. pose proof WT as (HU & _).
  assert (AL : forall i x ps, nth_error (fleet o) i = Some (x, ps) -> / 1000 < lo_alt x).
  { intros i x ps Hx. rewrite Forall_forall in HA. exact (HA x (fleet_in _ o i x ps Hx)). }
  pose proof (built_links tx_time has_mob pos seconds o p w0 w1 c src dest dst B K HC RC ND) as BL. fold n in BL. cbv zeta in BL.
  destruct B as (N0 & _ & B1 & B2 & B3 & B4 & B5 & B6 & _). fold n in B1, B5.
  assert (N0' : (0 <= w_now w0)%Z) by lia.
  assert (NM : (n < S (server o))%nat) by (unfold server, client; fold n; lia).
  destruct BL as [(-> & i & j & Hi & Hj & HX)|(-> & HE & i & j & Hi & Hj & NE & -> & ->)].
  - destruct (SS i Hi) as (x & ps & EF & SAT). destruct (SG j Hj) as (g & EG & GP).
    rewrite (C87_stations pos seconds junk o s WT E HL j) in EG. destruct (Nat.ltb j (gateways o + 2)); [|discriminate]. injection EG as <-.
    pose proof (AL i x ps EF) as HAL.
    assert (D : exists a b, node_of w0 src = Some a /\ node_of w0 dst = Some b /\ (a <= server o)%nat /\ (b <= server o)%nat /\ (a < S (server o))%nat /\ src = a /\
       ((a = i /\ forall t, pos b t = place (N := NumR) (fun y => y) o j) \/ (b = i /\ forall t, pos a t = place (N := NumR) (fun y => y) o j))).
    { destruct HX as [[-> ->]|[-> ->]].
      - exists i, (n + j)%nat. destruct (B1 i ltac:(lia)) as [(X1 & _) _]. destruct (B1 (n + j)%nat ltac:(lia)) as [(X2 & _) _].
        split; [exact X1|]. split; [exact X2|]. split; [lia|]. split; [lia|]. split; [lia|]. split; [reflexivity|]. left. split; [reflexivity|exact GP].
      - exists (n + j)%nat, i. destruct (B1 i ltac:(lia)) as [(X1 & _) _]. destruct (B1 (n + j)%nat ltac:(lia)) as [(X2 & _) _].
        split; [exact X2|]. split; [exact X1|]. split; [lia|]. split; [lia|]. split; [lia|]. split; [reflexivity|]. right. split; [reflexivity|exact GP]. }
    destruct D as (a & b & D1 & D2 & D3 & D4 & D5 & D6 & D7).
    destruct (B1 a D5) as (_ & _ & _ & TXP & _).
    set (e := IZR (ps_elevation p)). set (atm := ndec NumR (fst (ps_atmospheric p)) (snd (ps_atmospheric p))). set (fspl := ndec NumR (ps_fspl p) 1). set (margin := ndec NumR (ps_margin p) 2).
    assert (BU : 0 <= e < 90 /\ -900 <= ndec NumR (ps_eirp p) 1 - atm - fspl - margin).
    { unfold e, atm, fspl, margin. destruct P1 as [<-|[<-|[<-|[<-|[]]]]]; cbn; lra. }
    destruct BU as [BE BB].
    destruct (C83_ground_receptions junk (op_precision o) (op_orbits o) pos crc fcs tx_time has_mob seconds 299702458 e atm fspl margin w0 ops w new T dst src payload q from to own 0%nat a b i x ps
      (place (N := NumR) (fun y => y) o j) HU SAT ltac:(unfold leo_earth_radius, earth_radius_km; lra) ltac:(rewrite place_norm; unfold ground_radius, leo_earth_radius; lra)
      D7 RE EV N0' D1 D2 (HM a D3) (HM b D4) HC B3 B4 BE) as (t & tau & T1 & T2 & T3 & T4 & T5 & _); [rewrite D6, TXP; exact BB|exact HO|exact HR|exact LG|exact HI|].
    exists t, p. split; [lia|]. split; [exact P1|]. split; [exact P2|]. left. exists i, x, ps, j, tau.
    split; [exact EF|]. split; [lia|]. split; [exact HX|]. split; [exact T2|]. cbv zeta. split; [exact T3|]. split; [exact T4|exact T5].
  - destruct (SS i Hi) as (x & ps & EF & SAT). destruct (SS j Hj) as (y & pt & EF' & SAT').
    destruct (B5 i Hi HE) as ((X1 & _) & _ & _ & TXP & _). destruct (B5 j Hj HE) as ((X2 & _) & _). destruct (B6 HE) as (_ & _ & L1 & L2).
    pose proof (AL i x ps EF) as A1. pose proof (AL j y pt EF') as A2.
    destruct (C83_isl_receptions junk (op_precision o) (op_orbits o) pos crc fcs tx_time has_mob seconds 299792458 w0 ops w new T (S (server o) + j)%nat (S (server o) + i)%nat payload q from to own 1%nat i j x ps y pt
      HU SAT SAT' ltac:(lra) ltac:(lra) RE EV N0' X1 X2 (HM i ltac:(lia)) (HM j ltac:(lia)) HC L1 L2) as (t & ta & tb & T1 & T2 & T3 & T4 & T5); [rewrite TXP; cbn; lra|exact HO|exact HR|exact LG|exact HI|].
    exists t, p. split; [lia|]. split; [exact P1|]. split; [exact P2|]. right. split; [exact HE|]. exists i, x, ps, j, y, pt, ta, tb.
    split; [exact EF|]. split; [exact EF'|]. split; [exact NE|]. split; [reflexivity|]. split; [reflexivity|]. split; [exact T2|]. split; [exact T3|]. cbv zeta. split; [exact T4|].
    intros PQ. apply T5. exact PQ.
Qed.
Print Assumptions C87_receptions.

(** What is handed to a channel by such a program arrives, one light time later, wherever the link
    is open by the positions of the constellation. *)
Section Ends.
  Context {N : Num}.
  Variables (pos : nat -> Z -> vec N) (seconds : num N -> Z).

  Lemma kept_cfg : forall (w0 w1 : world N) d, kept w0 w1 -> d_cfg (w_dev w1 d) = d_cfg (w_dev w0 d) /\ node_of w1 d = node_of w0 d /\ d_chan (w_dev w1 d) = d_chan (w_dev w0 d).
  Proof. intros w0 w1 d [_ K]. destruct (K d) as [A B]. unfold node_of. rewrite A. auto. Qed.

  Lemma ground_end : forall (o : options N) p w0 w1 x, built pos seconds o p w0 -> kept w0 w1 -> (x <= server o)%nat ->
    node_of w1 x = Some x /\ g_txp (d_cfg (w_dev w1 x)) = ndec N (ps_eirp p) 1 /\ g_addr (d_cfg (w_dev w1 x)) = (Z.of_nat x + 1)%Z /\ g_err (d_cfg (w_dev w1 x)) = None /\
    g_thr (d_cfg (w_dev w1 x)) = nZ N (-1000) /\ forall r, effective_power (d_cfg (w_dev w1 x)) r = nadd N (nsub N r (nZ N 0)) (ndec N (ps_gain p) 1).
  Proof.
    intros o p w0 w1 x B K Hx. destruct (kept_cfg w0 w1 x K) as (A1 & A2 & _). rewrite A1, A2. destruct B as (_ & _ & B1 & _).
    destruct (B1 x ltac:(lia)) as ((X1 & X2 & X3 & _) & _ & _ & Y1 & Y2 & Y3 & Y4 & Y5).
    split; [exact X1|]. split; [exact Y1|]. split; [exact X2|]. split; [exact Y5|]. split; [exact Y4|]. intros r. unfold effective_power. rewrite X3, Y2, Y3.
    destruct (Nat.ltb x _); reflexivity.
  Qed.

  Lemma isl_end : forall (o : options N) p w0 w1 i, built pos seconds o p w0 -> kept w0 w1 -> (i < List.length (fleet o))%nat -> op_islEnabled o = true ->
    let x := (S (server o) + i)%nat in
    node_of w1 x = Some i /\ g_txp (d_cfg (w_dev w1 x)) = nZ N 1 /\ g_addr (d_cfg (w_dev w1 x)) = (Z.of_nat x + 1)%Z /\ g_err (d_cfg (w_dev w1 x)) = None /\
    g_thr (d_cfg (w_dev w1 x)) = nZ N (-1000) /\ forall r, effective_power (d_cfg (w_dev w1 x)) r = r.
  Proof.
    intros o p w0 w1 i B K Hi HE x. destruct (kept_cfg w0 w1 x K) as (A1 & A2 & _). rewrite A1, A2. destruct B as (_ & _ & _ & _ & _ & _ & B1 & _).
    destruct (B1 i Hi HE) as ((X1 & X2 & X3 & _) & _ & _ & Y1 & Y4 & Y5). fold x in X1, X2, X3, Y1, Y4, Y5.
    split; [exact X1|]. split; [exact Y1|]. split; [exact X2|]. split; [exact Y5|]. split; [exact Y4|]. intros r. unfold effective_power. rewrite X3. reflexivity.
  Qed.
End Ends.

Theorem C87_delivery : forall crc fcs tx_time has_mob pos seconds (junk : point) (o : options NumR) s w0 ops0 w op w1 new t d c p from to q dest tx gap dst ops w',
  well_typed o -> set_up_scenario pos seconds junk o = Ok s -> placed junk s pos -> (op_latGws o < 2 ^ 32 - 1)%Z ->
  Forall (fun x : leoorbit NumR => / 1000 < lo_alt x) (op_orbits o) -> (forall x, (x <= server o)%nat -> has_mob x = true) ->
  NetModel.run crc fcs tx_time has_mob (initial_for (sc_acts s)) (scenario_ops pos seconds s) = Ok w0 ->
  Forall traffic (ops0 ++ op :: ops) -> NetModel.run crc fcs tx_time has_mob w0 ops0 = Ok w -> step crc fcs tx_time has_mob w op = Ok w1 ->
  w_log w1 = w_log w ++ new -> In (t, ToChannel d c (frame_of crc fcs p to q from) dest tx gap) new -> d_chan (w_dev w1 d) = Some c ->
  recipient w1 c d dest dst -> d <> dst -> to = (2 ^ 48 - 1)%Z \/ to = (Z.of_nat dst + 1)%Z ->
  (List.length (p_bytes p) <= 1492)%nat -> (0 <= from < 2 ^ 48)%Z -> (0 <= to < 2 ^ 48)%Z -> (0 <= q < 2 ^ 16)%Z ->
  NetModel.run crc fcs tx_time has_mob w1 ops = Ok w' -> w_events w' = [] ->
  let n := List.length (fleet o) in
  let arrives T := In (T, RxCallback dst d (p_bytes p) q from to (Z.of_nat dst + 1)%Z) (w_log w') in
  (exists a i x ps j tau, In a published /\ ps_name a = op_constellation o /\ nth_error (fleet o) i = Some (x, ps) /\ (n + j <= server o)%nat /\
     (d = i /\ dst = (n + j)%nat \/ d = (n + j)%nat /\ dst = i) /\ refreshed (op_precision o) (w_now w1) tau /\
     let P := sat_path x ps tau in let G := place (N := NumR) (fun y => y) o j in
     (distance G P <= slant_range leo_earth_radius (1000 * (earth_radius_km + lo_alt x)) (radians (IZR (ps_elevation a))) ->
      arrives (t + seconds (distance G P / 299702458)%R)%Z)) \/
  (op_islEnabled o = true /\ exists i x ps j y pt ta tb, nth_error (fleet o) i = Some (x, ps) /\ nth_error (fleet o) j = Some (y, pt) /\ i <> j /\
     d = (S (server o) + i)%nat /\ dst = (S (server o) + j)%nat /\ refreshed (op_precision o) (w_now w1) ta /\ refreshed (op_precision o) (w_now w1) tb /\
     let P := sat_path x ps ta in let Q := sat_path y pt tb in
     (P <> Q -> unobstructed isl_earth_radius P Q -> arrives (t + seconds (distance P Q / 299792458)%R)%Z)).
Proof.
  intros crc fcs tx_time has_mob pos seconds junk o s w0 ops0 w op w1 new t d c p from to q dest tx gap dst ops w' WT E PL HL HA HM H0 HO HR ST LG HI HC RC ND HTO HB Hf Hto Hq RUN EVE n arrives.
  destruct (scenario_start pos seconds junk crc fcs tx_time has_mob o s w0 WT E H0) as (a & P1 & P2 & B & RE & EV).
  destruct (scenario_station pos seconds junk o s WT E PL) as (grid & _ & LGr & _ & SG).
  pose proof (scenario_satellite pos seconds junk o s WT E PL) as SS. pose proof WT as (HU & _).
  assert (AL : forall i x ps, nth_error (fleet o) i = Some (x, ps) -> / 1000 < lo_alt x).
  { intros i x ps Hx. rewrite Forall_forall in HA. exact (HA x (fleet_in _ o i x ps Hx)). }
  apply Forall_app in HO as [HO1 HO2]. inversion HO2 as [|? ? HO3 HO4]; subst.
  assert (RW : reachable crc fcs tx_time has_mob w).
  { destruct RE as (dk & ck & l & RE). exists dk, ck, (l ++ ops0). rewrite run_app, RE. exact HR. }
  assert (R1 : NetModel.run crc fcs tx_time has_mob w0 (ops0 ++ [op]) = Ok w1) by (rewrite run_app, HR; cbn; rewrite ST; reflexivity).
  destruct (traffic_run crc fcs tx_time has_mob (ops0 ++ [op]) w0 w1 RE ltac:(apply Forall_app; auto) R1) as [K L].
  assert (LV : Forall (leaves dst) ops).
  { eapply Forall_impl; [|exact HO4]. intros x. destruct x; cbn; tauto. }
  pose proof HC as HC0. rewrite (proj2 (proj2 (kept_cfg w0 w1 d K))) in HC0.
  pose proof (built_links tx_time has_mob pos seconds o a w0 w1 c d dest dst B K HC0 RC ND) as BL. fold n in BL. cbv zeta in BL.
  pose proof B as (N0 & _ & _ & _ & B3 & B4 & _ & B6 & _).
  assert (N1 : (0 <= w_now w1)%Z) by lia.
  assert (NM : (n < S (server o))%nat) by (unfold server, client; fold n; lia).
  destruct K as [KC KD]. pose proof (conj KC KD : kept w0 w1) as K.
  destruct BL as [(-> & i & j & Hi & Hj & HX)|(-> & HE & i & j & Hi & Hj & NE & -> & ->)].
  - left. destruct (SS i Hi) as (x & ps & EF & SAT). destruct (SG j Hj) as (g & EG & GP).
    rewrite (C87_stations pos seconds junk o s WT E HL j) in EG. destruct (Nat.ltb j (gateways o + 2)); [|discriminate]. injection EG as <-.
    pose proof (AL i x ps EF) as HAL.
    assert (LD : (d <= server o)%nat /\ (dst <= server o)%nat) by lia. destruct LD as [LD1 LD2].
    destruct (ground_end pos seconds o a w0 w1 d B K LD1) as (D1 & TXP & _).
    destruct (ground_end pos seconds o a w0 w1 dst B K LD2) as (D2 & _ & AD & ER & TH & EP).
    set (e := IZR (ps_elevation a)). set (atm := ndec NumR (fst (ps_atmospheric a)) (snd (ps_atmospheric a))). set (fspl := ndec NumR (ps_fspl a) 1). set (margin := ndec NumR (ps_margin a) 2).
    assert (BU : 0 <= e < 90 /\ -900 <= ndec NumR (ps_eirp a) 1 - atm - fspl - margin /\ -1000 <= ndec NumR (ps_eirp a) 1 - atm - fspl - margin - 0 + ndec NumR (ps_gain a) 1).
    { unfold e, atm, fspl, margin. destruct P1 as [<-|[<-|[<-|[<-|[]]]]]; cbn; lra. }
    destruct BU as (BE & BB & BG).
    assert (D7 : (d = i /\ pos dst (w_now w1) = place (N := NumR) (fun y => y) o j) \/ (dst = i /\ pos d (w_now w1) = place (N := NumR) (fun y => y) o j)).
    { destruct HX as [[-> ->]|[-> ->]]; [left|right]; (split; [reflexivity|apply GP]). }
    rewrite <- KC in B3, B4.
    destruct (C80_ground_hears junk (op_precision o) (op_orbits o) pos has_mob seconds 299702458 e atm fspl margin w1 0%nat d dst d dst i x ps
      (place (N := NumR) (fun y => y) o j) HU SAT ltac:(unfold leo_earth_radius, earth_radius_km; lra) ltac:(rewrite place_norm; unfold ground_radius, leo_earth_radius; lra)
      D7 D1 D2 (HM d LD1) (HM dst LD2) B3 B4 BE ltac:(rewrite TXP; exact BB) N1) as (tau & RF & DL & HH & HP).
    exists a, i, x, ps, j, tau. split; [exact P1|]. split; [exact P2|]. split; [exact EF|]. split; [lia|]. split; [exact HX|]. split; [exact RF|]. cbv zeta.
    intros NEAR. apply HH in NEAR. destruct (HP NEAR) as [_ PW]. unfold arrives. rewrite <- AD, <- (DL tx).
    eapply C73_end_to_end; try eassumption.
    + rewrite EP, TH, PW, TXP. change (nlt NumR) with Rltb. apply Verif.LossProofs.Rltb_false. cbn [nadd nsub nZ NumR]. lra.
    + rewrite ER. discriminate.
    + rewrite AD. tauto.
    + right. exact EVE.
  - right. split; [exact HE|]. destruct (SS i Hi) as (x & ps & EF & SAT). destruct (SS j Hj) as (y & pt & EF' & SAT').
    destruct (isl_end pos seconds o a w0 w1 i B K Hi HE) as (D1 & TXP & _). destruct (isl_end pos seconds o a w0 w1 j B K Hj HE) as (D2 & _ & AD & ER & TH & EP).
    destruct (B6 HE) as (_ & _ & L1 & L2). rewrite <- KC in L1, L2.
    pose proof (AL i x ps EF) as A1. pose proof (AL j y pt EF') as A2.
    destruct (C80_isl_delivery junk (op_precision o) (op_orbits o) pos crc fcs tx_time has_mob seconds w op w1 new t (S (server o) + i)%nat 1%nat p from to q dest tx gap (S (server o) + j)%nat ops w' i j x ps y pt
      HU SAT SAT' ltac:(lra) ltac:(lra) RW ST LG HI RC ND D1 D2 (HM i ltac:(lia)) (HM j ltac:(lia)) L1 L2 ltac:(rewrite TXP; cbn; lra) N1 HB Hf Hto Hq ER
      ltac:(rewrite EP, TXP, TH; cbn; lra) ltac:(rewrite AD; exact HTO) LV RUN EVE) as (ta & tb & T2 & T3 & T4).
    exists i, x, ps, j, y, pt, ta, tb.
    split; [exact EF|]. split; [exact EF'|]. split; [exact NE|]. split; [reflexivity|]. split; [reflexivity|]. split; [exact T2|]. split; [exact T3|]. cbv zeta.
    intros PQ U. specialize (T4 PQ U). rewrite AD in T4. exact T4.
Qed.
Print Assumptions C87_delivery.

(** ** In doubles *)
Section Doubles.
  Variables fsin fcos ftan : b64 -> b64.
  Notation N64 := (Num64 fsin fcos ftan).

  Lemma station_64 : forall pos seconds (junk : vec N64) (o : options N64) s, well_typed o -> set_up_scenario pos seconds junk o = Ok s -> placed junk s pos ->
    (op_latGws o < 2 ^ 32 - 1)%Z -> coordinates (op_source o) -> coordinates (op_destination o) ->
    forall j, (List.length (fleet o) + j <= server o)%nat ->
    exists g, ground_station g (place (N := N64) (fun y => B2R (y : b64)) o j) /\ forall t, pos (List.length (fleet o) + j)%nat t = g.
  Proof.
    intros pos seconds junk o s WT E PL HL CS CD j Hj. destruct (scenario_station pos seconds junk o s WT E PL) as (grid & EG & LG & ST & SG).
    destruct (SG j ltac:(lia)) as (g & Eg & GP). exists g. split; [|exact GP]. destruct WT as (_ & W1 & W2). unfold place. rewrite ST in Eg.
    destruct (Nat.ltb_spec j (gateways o)) as [Hg|Hg].
    - left. exists (op_latGws o), (op_lonGws o), grid, j. split; [exact EG|]. rewrite nth_error_app1 in Eg by lia. split; [exact Eg|].
      assert (NZ : (op_latGws o <> 0 /\ op_lonGws o <> 0)%Z).
      { split; intros X; unfold gateways in Hg; rewrite X, ?Z.mul_0_l, ?Z.mul_0_r in Hg; cbn in Hg; lia. }
      split; [lia|]. split; [lia|]. reflexivity.
    - right. rewrite nth_error_app2 in Eg by lia. unfold InstallPair in Eg. unfold server, client in Hj.
      destruct (Nat.eqb_spec j (gateways o)) as [->|NE].
      + exists [op_source o; op_destination o], 0%nat, (ll_lat (op_source o)), (ll_lon (op_source o)). rewrite LG, Nat.sub_diag in Eg. split; [exact Eg|].
        split; [destruct (op_source o); reflexivity|]. destruct CS as (C1 & C2 & C3 & C4). repeat (split; [assumption|]). reflexivity.
      + exists [op_source o; op_destination o], 1%nat, (ll_lat (op_destination o)), (ll_lon (op_destination o)). rewrite LG in Eg.
        replace (j - gateways o)%nat with 1%nat in Eg by lia. split; [exact Eg|].
        split; [destruct (op_destination o); reflexivity|]. destruct CD as (C1 & C2 & C3 & C4). repeat (split; [assumption|]). reflexivity.
  Qed.

  Lemma budgets_64 : forall p, In p published ->
    let budget := b64_minus (b64_minus (b64_minus (b64_dec (ps_eirp p) 1) (b64_dec (fst (ps_atmospheric p)) (snd (ps_atmospheric p)))) (b64_dec (ps_fspl p) 1)) (b64_dec (ps_margin p) 2) in
    is_finite budget = true /\ -900 <= B2R budget /\ B2R (b64_Z (ps_elevation p)) = IZR (ps_elevation p) /\ is_finite (b64_Z (ps_elevation p)) = true /\ 0 <= IZR (ps_elevation p) <= 89.
  Proof.
    intros p HP budget.
    assert (F : is_finite budget = true /\ nlt N64 budget (b64_Z (-900)) = false).
    { unfold budget. destruct HP as [<-|[<-|[<-|[<-|[]]]]]; split; vm_compute; reflexivity. }
    destruct F as [F G]. clearbody budget. destruct (Z_exact_64 (-900) ltac:(lia)) as [E900 F900].
    rewrite (Los64Proofs.nlt_64 fsin fcos ftan budget (b64_Z (-900)) F F900), E900 in G.
    assert (PE : (0 <= ps_elevation p <= 89)%Z) by (destruct HP as [<-|[<-|[<-|[<-|[]]]]]; cbn; lia).
    destruct (Z_exact_64 (ps_elevation p) ltac:(lia)) as [EE FE].
    split; [exact F|]. split; [|split; [exact EE|split; [exact FE|split; apply IZR_le; lia]]].
    revert G. case Rlt_bool_spec; [discriminate|]. intros; assumption.
  Qed.
End Doubles.

(** The same in doubles, up to the errors of C82, for up to 100000 days. *)
Theorem C87_receptions_binary64 : forall fsin fcos ftan, accurate fsin fcos -> accurate_tan ftan ->
  forall crc fcs tx_time has_mob pos seconds (junk : vec (Num64 fsin fcos ftan)) (o : options (Num64 fsin fcos ftan)) s w0 ops w new T dst src payload q from to own (days : R),
  well_typed o -> set_up_scenario pos seconds junk o = Ok s -> placed junk s pos -> (op_latGws o < 2 ^ 32 - 1)%Z -> coordinates (op_source o) -> coordinates (op_destination o) ->
  Forall (fun x : leoorbit (Num64 fsin fcos ftan) => sane_orbit x /\ 101 <= B2R (lo_alt x : b64)) (op_orbits o) -> (forall x, (x <= server o)%nat -> has_mob x = true) ->
  NetModel.run crc fcs tx_time has_mob (initial_for (sc_acts s)) (scenario_ops pos seconds s) = Ok w0 ->
  Forall traffic ops -> NetModel.run crc fcs tx_time has_mob w0 ops = Ok w -> w_log w = w_log w0 ++ new ->
  1 <= days <= 100000 -> IZR (w_now w) <= days * 86400000000000 ->
  In (T, RxCallback dst src payload q from to own) new ->
  let n := List.length (fleet o) in
  exists t p, (0 <= t <= w_now w)%Z /\ In p published /\ ps_name p = op_constellation o /\
    ((exists i x ps j tau, nth_error (fleet o) i = Some (x, ps) /\ (n + j <= server o)%nat /\
        (src = i /\ dst = (n + j)%nat \/ src = (n + j)%nat /\ dst = i) /\ refreshed (op_precision o) t tau /\
        let P := sat_path64 x ps (sec tau) in let G := place (N := Num64 fsin fcos ftan) (fun y => B2R (y : b64)) o j in
        let H := 1000 * (earth_radius_km + B2R (lo_alt x : b64)) in let e := radians (IZR (ps_elevation p)) in
        distance G P < slant_range leo_earth_radius H e + H * (/ 50000000 + days / 100000000000) /\
        (days <= 100 -> B2R (lo_alt x : b64) <= 40000 -> e <= elevation G P) /\
        exists y : b64, T = (t + seconds y)%Z /\ is_finite y = true /\ Rabs (B2R y - distance G P / 299702458) <= H * days / 100000000000 / 299702458) \/
     (op_islEnabled o = true /\ exists i x ps j y pt ta tb, nth_error (fleet o) i = Some (x, ps) /\ nth_error (fleet o) j = Some (y, pt) /\ i <> j /\
        src = (S (server o) + i)%nat /\ dst = (S (server o) + j)%nat /\ refreshed (op_precision o) t ta /\ refreshed (op_precision o) t tb /\
        let P := sat_path64 x ps (sec ta) in let Q := sat_path64 y pt (sec tb) in
        let h := earth_radius_km + Rmax (B2R (lo_alt x : b64)) (B2R (lo_alt y : b64)) in
        (h / 500 <= distance P Q -> unobstructed (isl_earth_radius - h / 500) P Q /\
         exists z : b64, T = (t + seconds z)%Z /\ is_finite z = true /\ Rabs (B2R z - distance P Q / 299792458) <= h * days / 100000000 / 299792458))).
Proof.
  intros fsin fcos ftan ACC ACT crc fcs tx_time has_mob pos seconds junk o s w0 ops w new T dst src payload q from to own days WT E PL HL CS CD HA HM H0 HO HR LG DA DB HI n.
  destruct (scenario_start pos seconds junk crc fcs tx_time has_mob o s w0 WT E H0) as (p & P1 & P2 & B & RE & EV).
  destruct (traffic_chan crc fcs tx_time has_mob w0 ops w new RE EV HO HR LG _ _ _ _ _ _ _ _ HI) as (c & HC).
  destruct (traffic_origin crc fcs tx_time has_mob w0 ops w new RE EV HO HR LG _ _ _ _ _ _ _ _ c HI HC) as (w1 & dest & tx & K & _ & ND & RC & _).
  pose proof (station_64 fsin fcos ftan pos seconds junk o s WT E PL HL CS CD) as SG. fold n in SG.
  pose proof (scenario_satellite pos seconds junk o s WT E PL) as SS. pose proof WT as (HU & _).
  assert (AL : forall i x ps, nth_error (fleet o) i = Some (x, ps) -> sane_orbit x /\ 101 <= B2R (lo_alt x : b64)).
  { intros i x ps Hx. rewrite Forall_forall in HA. exact (HA x (fleet_in _ o i x ps Hx)). }
  pose proof (built_links tx_time has_mob pos seconds o p w0 w1 c src dest dst B K HC RC ND) as BL. fold n in BL. cbv zeta in BL.
  pose proof (kept_refl w0) as KR.
  pose proof B as (N0 & _ & _ & _ & B3 & B4 & _ & B6 & _).
  assert (N0' : (0 <= w_now w0)%Z) by lia.
  assert (NM : (n < S (server o))%nat) by (unfold server, client; fold n; lia).
  destruct BL as [(-> & i & j & Hi & Hj & HX)|(-> & HE & i & j & Hi & Hj & NE & -> & ->)].
  - destruct (SS i Hi) as (x & ps & EF & SAT). destruct (SG j ltac:(lia)) as (g & GS & GP). destruct (AL i x ps EF) as [SO HAL].
    assert (LD : (src <= server o)%nat /\ (dst <= server o)%nat) by lia. destruct LD as [LD1 LD2].
    destruct (ground_end pos seconds o p w0 w0 src B KR LD1) as (D1 & TXP & _).
    destruct (ground_end pos seconds o p w0 w0 dst B KR LD2) as (D2 & _).
    assert (D7 : (src = i /\ forall t, pos dst t = g) \/ (dst = i /\ forall t, pos src t = g)).
    { destruct HX as [[-> ->]|[-> ->]]; [left|right]; (split; [reflexivity|exact GP]). }
    destruct (budgets_64 fsin fcos ftan p P1) as (FB & HB & EE & FE & BE).
    destruct (C83_ground_receptions_binary64 fsin fcos ftan ACC ACT junk (op_precision o) (op_orbits o) pos crc fcs tx_time has_mob seconds 299702458%Z w0 ops w new T dst src payload q from to own 0%nat src dst i x ps
      g (place (N := Num64 fsin fcos ftan) (fun y => B2R (y : b64)) o j) (b64_Z (ps_elevation p)) (b64_dec (fst (ps_atmospheric p)) (snd (ps_atmospheric p))) (b64_dec (ps_fspl p) 1) (b64_dec (ps_margin p) 2) days
      HU SAT SO HAL GS D7 RE EV N0' D1 D2 (HM src LD1) (HM dst LD2) HC B3 B4 ltac:(lia) FE ltac:(rewrite EE; exact BE)) as (t & tau & T1 & T2 & T3 & T4 & T5);
      [rewrite TXP; exact FB|rewrite TXP; exact HB|exact HO|exact HR|exact LG|exact DA|exact DB|exact HI|].
    rewrite EE in T3, T4.
    exists t, p. split; [lia|]. split; [exact P1|]. split; [exact P2|]. left. exists i, x, ps, j, tau.
    split; [exact EF|]. split; [lia|]. split; [exact HX|]. split; [exact T2|]. cbv zeta. split; [exact T3|]. split; [exact T4|exact T5].
  - destruct (SS i Hi) as (x & ps & EF & SAT). destruct (SS j Hj) as (y & pt & EF' & SAT').
    destruct (isl_end pos seconds o p w0 w0 i B KR Hi HE) as (D1 & TXP & _). destruct (isl_end pos seconds o p w0 w0 j B KR Hj HE) as (D2 & _).
    destruct (B6 HE) as (_ & _ & L1 & L2). destruct (AL i x ps EF) as [S1 A1]. destruct (AL j y pt EF') as [S2 A2].
    destruct (Z_exact_64 1 ltac:(lia)) as [E1 F1].
    destruct (C83_isl_receptions_binary64 fsin fcos ftan ACC junk (op_precision o) (op_orbits o) pos crc fcs tx_time has_mob seconds 299792458%Z w0 ops w new T (S (server o) + j)%nat (S (server o) + i)%nat payload q from to own 1%nat i j x ps y pt days
      HU SAT SAT' S1 S2 ltac:(lra) ltac:(lra) RE EV N0' D1 D2 (HM i ltac:(lia)) (HM j ltac:(lia)) HC L1 L2 ltac:(lia)) as (t & ta & tb & T1 & T2 & T3 & T4);
      [rewrite TXP; exact F1|rewrite TXP; change (-900 <= B2R (b64_Z 1)); rewrite E1; lra|exact HO|exact HR|exact LG|exact DA|exact DB|exact HI|].
    exists t, p. split; [lia|]. split; [exact P1|]. split; [exact P2|]. right. split; [exact HE|]. exists i, x, ps, j, y, pt, ta, tb.
    split; [exact EF|]. split; [exact EF'|]. split; [exact NE|]. split; [reflexivity|]. split; [reflexivity|]. split; [exact T2|]. split; [exact T3|]. exact T4.
Qed.
Print Assumptions C87_receptions_binary64.

(** ** The hypotheses can be met *)

(** For whatever can be set up there are such positions. *)
Definition node_pos {N : Num} (junk : vec N) (o : options N) (k : nat) (t : Z) : vec N :=
  match nth_error (fleet o) k with
  | Some x => CalcPosition (sat_orbit x) (latest (op_precision o) t) (latest (op_precision o) t)
  | None => nth (k - List.length (fleet o)) (match InstallGrid (op_latGws o) (op_lonGws o) with Ok l => l | _ => [] end ++ InstallPair (op_source o) (op_destination o)) junk
  end.
Theorem C87_placed : forall (N : Num) seconds (junk : vec N) o, well_typed o -> feasible o ->
  exists s, set_up_scenario (node_pos junk o) seconds junk o = Ok s /\ placed junk s (node_pos junk o).
Proof.
  intros N seconds junk o WT F. destruct (set_up_ok (node_pos junk o) seconds junk o WT F) as (sats & grid & p & ES & LS & EG & LG & _ & _ & E).
  eexists. split; [exact E|]. split; cbn [sc_sats sc_stations].
  - intros i m Hm. assert (HF : exists x ps, nth_error (fleet o) i = Some (x, ps)).
    { destruct (nth_error (fleet o) i) as [[x ps]|] eqn:EF; [eauto|]. apply nth_error_None in EF.
      pose proof (proj1 (nth_error_Some sats i) ltac:(rewrite Hm; discriminate)). lia. }
    destruct HF as (x & ps & HF). destruct WT as (HU & _). destruct F as (HI & _).
    intros t Ht. unfold node_pos. rewrite HF.
    exact (moves_latest _ _ _ _ _ (installed_starts N (op_precision o) junk (op_orbits o) sats i m x ps HU ES Hm HF) t Ht).
  - intros j g Hg t. unfold node_pos. rewrite (proj2 (nth_error_None (fleet o) (List.length sats + j)) ltac:(lia)). rewrite EG.
    replace (List.length sats + j - List.length (fleet o))%nat with j by lia. exact (nth_error_nth _ _ junk Hg).
Qed.
Print Assumptions C87_placed.

(** The defaults can be set up: 632 satellites, 400 gateways; the server is node 1033 and has the
    address 10.1.4.10. *)
Lemma default_scenario : let o := default_options NumR in
  well_typed o /\ feasible o /\ List.length (fleet o) = 632%nat /\ gateways o = 400%nat /\ (op_latGws o < 2 ^ 32 - 1)%Z /\
  Forall (fun x : leoorbit NumR => / 1000 < lo_alt x) (op_orbits o).
Proof.
  intros o. destruct default_ok as (A & B & _ & L).
  assert (LF : List.length (fleet o) = 632%nat) by exact L. assert (LG : gateways o = 400%nat) by (vm_compute; reflexivity).
  split; [split; [exact A|split; cbn; lia]|]. split; [split; [exact B|split; [right; right; left; reflexivity|unfold server, client; rewrite LF, LG; lia]]|].
  split; [exact LF|]. split; [exact LG|]. split; [cbn; lia|]. repeat constructor; cbn; lra.
Qed.
Example ex_C87 : forall seconds (junk : point), let o := default_options NumR in exists pos s,
  set_up_scenario pos seconds junk o = Ok s /\ placed junk s pos /\ List.length (sc_sats s) = 632%nat /\ List.length (sc_stations s) = 402%nat /\
  sc_client s = 1032%nat /\ sc_server s = 1033%nat /\ sc_remote s = ipv4 10 1 4 10.
Proof.
  intros seconds junk o. destruct default_scenario as (WT & F & LF & LG & _). fold o in WT, F, LF, LG.
  destruct (C87_placed NumR seconds junk o WT F) as (s & E & P). exists (node_pos junk o), s. split; [exact E|]. split; [exact P|].
  destruct (C87_nodes NumR _ seconds junk o s WT E) as (_ & L1 & L2 & C1 & C2 & _ & _ & _ & _ & _ & R). rewrite L1, L2, R, C2, C1, LF, LG. repeat split.
Qed.

(** The programs' users are not where their coordinates say (C17): neither client nor server. *)
Theorem C87_users_refuted : forall pos seconds (junk : point), let o := default_options NumR in
  exists s client server, set_up_scenario pos seconds junk o = Ok s /\
    nth_error (sc_stations s) (gateways o) = Some client /\ nth_error (sc_stations s) (S (gateways o)) = Some server /\
    client <> geographic (51399 / 1000) (10536 / 1000) /\ server <> geographic (4076 / 100) (-7396 / 100).
Proof.
  intros pos seconds junk o. destruct default_scenario as (WT & F & LF & LG & HL & _). fold o in WT, F, LF, LG, HL.
  assert (X : is_ok (set_up_scenario pos seconds junk o) = true) by (apply C87_outcome; assumption).
  destruct (set_up_scenario pos seconds junk o) as [s| |] eqn:E; [|discriminate|discriminate].
  pose proof (C87_stations pos seconds junk o s WT E HL (gateways o)) as G1. pose proof (C87_stations pos seconds junk o s WT E HL (S (gateways o))) as G2.
  rewrite LG in G1, G2 |- *. cbn [Nat.ltb Nat.leb Nat.add] in G1, G2.
  eexists s, _, _. split; [reflexivity|]. split; [exact G1|]. split; [exact G2|]. unfold place. rewrite LG.
  replace (400 <? 400)%nat with false by reflexivity. replace (401 <? 400)%nat with false by reflexivity. rewrite Nat.eqb_refl. replace (401 =? 400)%nat with false by reflexivity.
  cbv zeta. split; rewrite <- earth_position_R; intros Y; apply earth_position_correct_iff in Y; cbn in Y |- *; lra.
Qed.
Print Assumptions C87_users_refuted.

(** The inter-satellite links do not run at the 2 Gbit/s that the programs' variable islRate names:
    the variable is never read, and without --islRate they run at 32768 bit/s. *)
Theorem C87_islRate_refuted : forall crc fcs tx_time has_mob pos seconds (junk : point) i, let o := default_options NumR in (i < 632)%nat ->
  exists s w, set_up_scenario pos seconds junk o = Ok s /\ NetModel.run crc fcs tx_time has_mob (initial_for (sc_acts s)) (scenario_ops pos seconds s) = Ok w /\
    g_bps (d_cfg (w_dev w (S (server o) + i)%nat)) = 32768%Z.
Proof.
  intros crc fcs tx_time has_mob pos seconds junk i o Hi. destruct default_scenario as (WT & F & LF & _). fold o in WT, F, LF.
  assert (X : is_ok (set_up_scenario pos seconds junk o) = true) by (apply C87_outcome; assumption).
  destruct (set_up_scenario pos seconds junk o) as [s| |] eqn:E; [|discriminate|discriminate].
  destruct (C87_world NumR crc fcs tx_time has_mob pos seconds junk o s WT E) as (p & w & _ & _ & R & B).
  exists s, w. split; [reflexivity|]. split; [exact R|]. destruct B as (_ & _ & _ & _ & _ & _ & B & _). rewrite LF in B. destruct (B i Hi eq_refl) as (_ & Y & _). exact Y.
Qed.
Print Assumptions C87_islRate_refuted.

(** ** Examples: the ring of C80 with two users, one of which is at latitude 0 and so at the pole. Packet 7
    goes from satellite 0 (device 6) to satellite 1 (device 7); ns3::Seconds is replaced by a constant. *)
Local Open Scope Z_scope.
Definition ex_options {N : Num} : options N :=
  mkOptions [mkLeoOrbit (nZ N 3000) (nZ N 90) 1 4] (mkLatLong (nZ N 0) (nZ N 0)) (mkLatLong (nZ N 15) (nZ N 0)) 0 0 "TelesatGateway" true 1000000000 8000.
Definition ex_sec {N : Num} (_ : num N) : Z := 44.
Definition ex_class : preset := mkPreset "TelesatGateway" 1059 20 1893 (48, 1%positive) 36 9857100000 318.

Lemma ex_run : forall (N : Num) pos, let acts := @acts_of N pos ex_sec ex_options ex_class in
  nlt N (isl_loss pos (nZ N 1) 0%nat 1%nat 0) (nZ N (-900)) = false -> nlt N (isl_loss pos (nZ N 1) 0%nat 1%nat 0) (nZ N (-1000)) = false ->
  forall w, NetModel.run ex_crc true ex_tx (fun _ => true) (initial_for acts) (program pos ex_sec 0 0 0 acts) = Ok w ->
  exists w1 w', step ex_crc true ex_tx (fun _ => true) w (OSend 6%nat (packet 7) (Mac 8) 2048) = Ok w1 /\
    NetModel.run ex_crc true ex_tx (fun _ => true) w1 [ORun; ORun] = Ok w' /\ w_events w' = [] /\
    let new := skipn (List.length (w_log w)) (w_log w1) in w_log w1 = w_log w ++ new /\
    In (0, ToChannel 6 1 (frame_of ex_crc true (packet 7) 8 2048 7) 8 64000000 0) new /\ w_now w1 = 0 /\ d_chan (w_dev w1 6%nat) = Some 1%nat /\
    recipient w1 1 6 8 7 /\ callback_free (w_log w) /\ In (44, RxCallback 7 6 (p_bytes (packet 7)) 2048 7 8 8) (w_log w').
Proof.
  intros N pos acts H1 H2 w E. lazy -[nlt nZ nopp nadd nsub isl_loss leo_loss constant_speed ndec SetElevationAngle] in E. injection E as E'.
  assert (A : exists w1, step ex_crc true ex_tx (fun _ => true) w (OSend 6%nat (packet 7) (Mac 8) 2048) = Ok w1).
  { rewrite <- E'. eexists. lazy -[nlt nZ nopp nadd nsub isl_loss leo_loss constant_speed ndec SetElevationAngle]. rewrite H1. unfold constant_speed, ex_sec. reflexivity. }
  destruct A as [w1 E1]. exists w1. pose proof E1 as E1'. rewrite <- E' in E1'. lazy -[nlt nZ nopp nadd nsub isl_loss leo_loss constant_speed ndec SetElevationAngle] in E1'. rewrite H1 in E1'. unfold constant_speed, ex_sec in E1'. lazy -[nlt nZ nopp nadd nsub isl_loss leo_loss constant_speed ndec SetElevationAngle] in E1'. injection E1' as E1'.
  assert (A : exists w2, step ex_crc true ex_tx (fun _ => true) w1 ORun = Ok w2).
  { rewrite <- E1'. eexists. lazy -[nlt nZ nopp nadd nsub isl_loss leo_loss constant_speed ndec SetElevationAngle]. rewrite H2. reflexivity. }
  destruct A as [w2 E2]. pose proof E2 as E2'. rewrite <- E1' in E2'. lazy -[nlt nZ nopp nadd nsub isl_loss leo_loss constant_speed ndec SetElevationAngle] in E2'. rewrite H2 in E2'. injection E2' as E2'.
  assert (A : exists w3, step ex_crc true ex_tx (fun _ => true) w2 ORun = Ok w3 /\ w_events w3 = [] /\ In (44, RxCallback 7 6 (p_bytes (packet 7)) 2048 7 8 8) (w_log w3)).
  { rewrite <- E2'. eexists. split; [lazy -[nlt nZ nopp nadd nsub isl_loss leo_loss constant_speed ndec SetElevationAngle]; reflexivity|split; [reflexivity|lazy -[nlt nZ nopp nadd nsub isl_loss leo_loss constant_speed ndec SetElevationAngle]; repeat (first [left; reflexivity|right])]]. }
  destruct A as (w3 & E3 & EV & IN). exists w3. split; [exact E1|].
  split; [cbn [NetModel.run]; rewrite E2; cbn [bind]; rewrite E3; reflexivity|]. split; [exact EV|].
  rewrite <- E', <- E1'. split; [|split; [|split; [|split; [|split; [|split; [|exact IN]]]]]].
  - reflexivity.
  - lazy -[nlt nZ nopp nadd nsub isl_loss leo_loss constant_speed ndec SetElevationAngle]. auto 10.
  - reflexivity.
  - reflexivity.
  - unfold recipient. cbn [w_chan c_kind c_link Nat.eqb]. left. exists 1%nat. split; [reflexivity|]. split; [reflexivity|].
    intros [|j] x J X; [|lia]. injection X as <-. discriminate.
  - intros t d src payload q from to own HI. cbn in HI. intuition discriminate.
Qed.

Local Open Scope R_scope.
Lemma ex_options_ok : let o := @ex_options NumR in
  well_typed o /\ feasible o /\ (op_latGws o < 2 ^ 32 - 1)%Z /\ Forall (fun x : leoorbit NumR => / 1000 < lo_alt x) (op_orbits o).
Proof.
  intros o. destruct ex_ring_ok as (A & B & _). split; [split; [exact A|split; cbn; lia]|].
  split; [split; [exact B|split; [right; right; left; reflexivity|vm_compute; discriminate]]|]. split; [cbn; lia|]. repeat constructor; cbn; lra.
Qed.

(** What [ex_run] needs to know about the link. *)
Lemma ex_link_R : forall junk : point, isl_loss (node_pos junk (@ex_options NumR)) 1 0%nat 1%nat 0%Z = 1.
Proof.
  intros junk. destruct ex_ring_ok as (Hu & Hi & _). unfold isl_loss.
  assert (P0 : sat_path (@mkLeoOrbit NumR 3000 90 1 4) (ex_place 0) 0 = pt 0 0 9371009).
  { rewrite ex_ring_at. cbn [INR]. rewrite Rmult_0_l, sin_0, cos_0. f_equal; change (num NumR) with R; ring. }
  assert (P1 : sat_path (@mkLeoOrbit NumR 3000 90 1 4) (ex_place 1) 0 = pt 0 9371009 0).
  { rewrite ex_ring_at. cbn [INR]. rewrite Rmult_1_l, sin_PI2, cos_PI2. f_equal; change (num NumR) with R; ring. }
  assert (U : unobstructed isl_earth_radius (pt 0 0 9371009) (pt 0 9371009 0)).
  { intros t Ht. apply norm_lt_sq; [unfold isl_earth_radius; lra|].
    unfold on_segment, plus, GeomSpec.scale, minus, inner, isl_earth_radius, pt, px, py, pz; cbn.
    pose proof (Rle_0_sqr (t - 1 / 2)) as SQ. unfold Rsqr in SQ. nra. }
  destruct (satellite_position junk 1000000000 ex_ring _ _ _ 0 Hu (installed_satellite NumR 1000000000 junk ex_ring 0 _ (ex_place 0) Hu Hi eq_refl) (Z.le_refl 0)) as (ta & Ra & Ea).
  destruct (satellite_position junk 1000000000 ex_ring _ _ _ 0 Hu (installed_satellite NumR 1000000000 junk ex_ring 1 _ (ex_place 1) Hu Hi eq_refl) (Z.le_refl 0)) as (tb & Rb & Eb).
  apply ex_tick0 in Ra, Rb. subst ta tb. rewrite P0 in Ea. rewrite P1 in Eb.
  change (node_pos junk ex_options 0%nat 0%Z) with (CalcPosition (sat_orbit (@mkLeoOrbit NumR 3000 90 1 4, ex_place 0)) (latest 1000000000 0) (latest 1000000000 0)).
  change (node_pos junk ex_options 1%nat 0%Z) with (CalcPosition (sat_orbit (@mkLeoOrbit NumR 3000 90 1 4, ex_place 1)) (latest 1000000000 0) (latest 1000000000 0)).
  rewrite Ea, Eb.
  apply isl_rx_geometry; [intros E; injection E; intros; lra| |exact U]. left. rewrite <- P0. rewrite sat_path_norm; unfold earth_radius_km, isl_earth_radius; cbn; lra.
Qed.

(** The hypotheses of C87_receptions and C87_delivery hold. *)
Example ex_C87_traffic : forall junk : point, let o := @ex_options NumR in let pos := node_pos junk o in let has_mob := fun _ : nat => true in
  exists s w0 w1 w' new sent, set_up_scenario pos ex_sec junk o = Ok s /\ placed junk s pos /\
  NetModel.run ex_crc true ex_tx has_mob (initial_for (sc_acts s)) (scenario_ops pos ex_sec s) = Ok w0 /\
  step ex_crc true ex_tx has_mob w0 (OSend 6%nat (packet 7) (Mac 8) 2048) = Ok w1 /\ w_log w1 = w_log w0 ++ sent /\
  In (0%Z, ToChannel 6 1 (frame_of ex_crc true (packet 7) 8 2048 7) 8 64000000 0) sent /\ recipient w1 1 6 8 7 /\
  NetModel.run ex_crc true ex_tx has_mob w1 [ORun; ORun] = Ok w' /\ w_events w' = [] /\ w_log w' = w_log w0 ++ new /\
  In (44%Z, RxCallback 7 6 (p_bytes (packet 7)) 2048 7 8 8) new.
Proof.
  intros junk o pos has_mob. destruct ex_options_ok as (WT & F & _). fold o in WT, F. assert (L : isl_loss pos (1 : num NumR) 0%nat 1%nat 0%Z = 1) by exact (ex_link_R junk).
  destruct (C87_placed NumR ex_sec junk o WT F) as (s & E & P). fold pos in E, P.
  destruct (set_up_ok pos ex_sec junk o WT F) as (sats & grid & p & _ & _ & _ & _ & Q1 & Q2 & X).
  pose proof (ok_inj _ _ _ (eq_trans (eq_sym E) X)) as Y. clear X.
  assert (p = ex_class) by (apply published_names; [exact Q1|right; right; left; reflexivity|exact Q2]). subst p.
  destruct (C87_world NumR ex_crc true ex_tx has_mob pos ex_sec junk o s WT E) as (p' & w0 & _ & _ & R & _).
  assert (R' : NetModel.run ex_crc true ex_tx has_mob (initial_for (acts_of pos ex_sec o ex_class)) (program pos ex_sec 0 0 0 (acts_of pos ex_sec o ex_class)) = Ok w0) by (rewrite Y in R; exact R).
  destruct (ex_run NumR pos) with (w := w0) as (w1 & w' & E1 & E2 & EV & LG & IN & _ & _ & RC & CF & RX).
  - change (nZ NumR 1) with (1 : num NumR). rewrite L. apply LossProofs.Rltb_false. cbn. lra.
  - change (nZ NumR 1) with (1 : num NumR). rewrite L. apply LossProofs.Rltb_false. cbn. lra.
  - exact R'.
  - assert (RE : reachable ex_crc true ex_tx has_mob w0) by (eexists _, _, _; exact R').
    destruct (delivered_new _ _ _ _ _ w0 _ w1 [ORun; ORun] w' _ _ _ _ _ _ _ _ RE CF E1 E2 RX) as (new & _ & EL & IN').
    exists s, w0, w1, w', new. eexists. split; [exact E|]. split; [exact P|]. split; [exact R|]. split; [exact E1|]. split; [exact LG|]. split; [exact IN|].
    split; [exact RC|]. split; [exact E2|]. split; [exact EV|]. split; [exact EL|exact IN'].
Qed.


(** And those of C87_receptions_binary64; for functions that are accurate see ex_accurate in PropGround64.v. *)
Lemma ex_at : forall (N : Num) (junk : vec N) k, (k < 2)%nat ->
  node_pos junk (@ex_options N) k 0 = CalcPosition (sat_orbit (@mkLeoOrbit N (nZ N 3000) (nZ N 90) 1 4, ex_place k)) (latest 1000000000 0) (latest 1000000000 0).
Proof. intros N junk [|[|k]] H; try reflexivity. lia. Qed.
Lemma ex_options_ok_64 : forall fsin fcos ftan, let o := @ex_options (Num64 fsin fcos ftan) in
  well_typed o /\ feasible o /\ (op_latGws o < 2 ^ 32 - 1)%Z /\ coordinates (op_source o) /\ coordinates (op_destination o) /\
  Forall (fun x : leoorbit (Num64 fsin fcos ftan) => sane_orbit x /\ 101 <= B2R (lo_alt x : b64)) (op_orbits o).
Proof.
  intros fsin fcos ftan o. destruct (o64_sane fsin fcos ftan) as (SO & V & Hu).
  assert (C : forall z, (0 <= z <= 15)%Z -> is_finite (b64_Z z) = true /\ Rabs (B2R (b64_Z z)) <= 360).
  { intros z Hz. destruct (Z_exact_64 z ltac:(lia)) as [V2 F2]. split; [exact F2|]. rewrite V2, <- abs_IZR. apply IZR_le. lia. }
  destruct (C 0%Z ltac:(lia)) as [C1 C2]. destruct (C 15%Z ltac:(lia)) as [C3 C4].
  split; [split; [exact Hu|split; cbn; lia]|].
  split; [split; [constructor; [|constructor]; split; [cbn; lia|right; vm_compute; reflexivity]|split; [right; right; left; reflexivity|]]|].
  - assert (X : server o = 5%nat) by (unfold server, client; change (List.length (fleet o)) with 4%nat; change (gateways o) with 0%nat; reflexivity). rewrite X. clear. vm_compute. discriminate.
  - split; [cbn; lia|].
    split; [unfold coordinates, o, ex_options; cbn [op_source ll_lat ll_lon nZ Num64]; exact (conj C1 (conj C2 (conj C1 C2)))|].
    split; [unfold coordinates, o, ex_options; cbn [op_destination ll_lat ll_lon nZ Num64]; exact (conj C3 (conj C4 (conj C1 C2)))|].
    unfold o, ex_options; cbn [op_orbits]. constructor; [|constructor]. split; [exact SO|]. apply Rle_trans with 3000; [lra|]. unfold ex_o64 in V. cbn [lo_alt nZ Num64] in V |- *. rewrite V. apply Rle_refl.
Qed.
Lemma isl_same : forall (N : Num) (pos pos' : nat -> Z -> vec N) x a b a' b' t, pos a t = pos' a' t -> pos b t = pos' b' t -> isl_loss pos x a b t = isl_loss pos' x a' b' t.
Proof. intros N pos pos' x a b a' b' t A B. unfold isl_loss. rewrite A, B. reflexivity. Qed.
Lemma ex_link_64 : forall fsin fcos ftan, accurate fsin fcos -> forall junk : vec (Num64 fsin fcos ftan),
  isl_loss (node_pos junk (@ex_options (Num64 fsin fcos ftan))) (nZ (Num64 fsin fcos ftan) 1) 0%nat 1%nat 0%Z = nZ (Num64 fsin fcos ftan) 1.
Proof.
  intros fsin fcos ftan ACC junk.
  assert (P0 : node_pos junk (@ex_options (Num64 fsin fcos ftan)) 0%nat 0 = isl_pos64 fsin fcos ftan 10%nat 0) by (etransitivity; [apply ex_at; lia|reflexivity]).
  assert (P1 : node_pos junk (@ex_options (Num64 fsin fcos ftan)) 1%nat 0 = isl_pos64 fsin fcos ftan 11%nat 0) by (etransitivity; [apply ex_at; lia|reflexivity]).
  exact (eq_trans (isl_same _ _ _ _ _ _ _ _ _ P0 P1) (isl_power64 fsin fcos ftan ACC junk)).
Qed.
Example ex_C87_traffic_binary64 : forall fsin fcos ftan, accurate fsin fcos -> forall junk : vec (Num64 fsin fcos ftan), let o := @ex_options (Num64 fsin fcos ftan) in let pos := node_pos junk o in let has_mob := fun _ : nat => true in
  exists s w0 w' new, set_up_scenario pos ex_sec junk o = Ok s /\ placed junk s pos /\
  NetModel.run ex_crc true ex_tx has_mob (initial_for (sc_acts s)) (scenario_ops pos ex_sec s) = Ok w0 /\
  NetModel.run ex_crc true ex_tx has_mob w0 [OSend 6%nat (packet 7) (Mac 8) 2048; ORun; ORun] = Ok w' /\ w_log w' = w_log w0 ++ new /\
  In (44%Z, RxCallback 7 6 (p_bytes (packet 7)) 2048 7 8 8) new.
Proof.
  intros fsin fcos ftan ACC junk o pos has_mob. destruct (ex_options_ok_64 fsin fcos ftan) as (WT & F & _). change (well_typed o) in WT. change (feasible o) in F.
  assert (L : isl_loss pos (nZ (Num64 fsin fcos ftan) 1) 0%nat 1%nat 0%Z = nZ (Num64 fsin fcos ftan) 1) by exact (ex_link_64 fsin fcos ftan ACC junk).
  destruct (C87_placed (Num64 fsin fcos ftan) ex_sec junk o WT F) as (s & E & P). fold pos in E, P.
  destruct (set_up_ok pos ex_sec junk o WT F) as (sats & grid & p & _ & _ & _ & _ & Q1 & Q2 & X).
  pose proof (ok_inj _ _ _ (eq_trans (eq_sym E) X)) as Y. clear X.
  assert (p = ex_class) by (apply published_names; [exact Q1|right; right; left; reflexivity|exact Q2]). subst p.
  destruct (C87_world (Num64 fsin fcos ftan) ex_crc true ex_tx has_mob pos ex_sec junk o s WT E) as (p' & w0 & _ & _ & R & _).
  assert (R' : NetModel.run ex_crc true ex_tx has_mob (initial_for (acts_of pos ex_sec o ex_class)) (program pos ex_sec 0 0 0 (acts_of pos ex_sec o ex_class)) = Ok w0) by (rewrite Y in R; exact R).
  clearbody pos.
  destruct (ex_run (Num64 fsin fcos ftan) pos) with (w := w0) as (w1 & w' & E1 & E2 & EV & LG & IN & _ & _ & RC & CF & RX).
  - rewrite L. vm_compute. reflexivity.
  - rewrite L. vm_compute. reflexivity.
  - exact R'.
  - assert (RE : reachable ex_crc true ex_tx has_mob w0) by (eexists _, _, _; exact R').
    destruct (delivered_new _ _ _ _ _ w0 _ w1 [ORun; ORun] w' _ _ _ _ _ _ _ _ RE CF E1 E2 RX) as (new & RR & EL & IN').
    exists s, w0, w', new. split; [exact E|]. split; [exact P|]. split; [exact R|]. split; [exact RR|]. split; [exact EL|exact IN'].
Qed.
