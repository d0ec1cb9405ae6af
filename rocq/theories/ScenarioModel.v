(** What examples/leo-delay-tracing-example.cc (lines 137-206) and
    examples/leo-bulk-send-example.cc (lines 85-145) build before they run: a
    constellation, a grid of gateways and two users, one ground network and, unless it
    is switched off, an inter-satellite network, with IPv4 addresses. The two programs
    do the same here.

    Simplifications: the command line is given as the values that it sets; orbits are
    given as a list (for --orbitFile see ParseModel.v); routing, applications and trace
    sinks are left out. Of ns-3 (not in /repo): nodes are numbered in order of their
    creation; InternetStackHelper gives a node the interface 0, the loopback; each
    device that Ipv4AddressHelper::Assign is given becomes the next interface of its
    node and gets the next address of the network, host numbers being checked against
    the mask. *)
Require Import ZArith List Bool String.
Require Import Verif.Base Verif.Num Verif.Vec Verif.MobilityModel Verif.AllocModel Verif.LossModel Verif.FrameModel Verif.NetModel
  Verif.HelperModel Verif.CacheModel Verif.LeoHelperModel Verif.TracingModel.
Import ListNotations.
Local Open Scope Z_scope.
Local Open Scope res_scope.

Section Scenario.
  Variable N : Num.
  Variable pos : nat -> Z -> vec N.
  Variable seconds : num N -> Z.
  Variable junk : vec N.

  (** leo-delay-tracing-example.cc:90-126, leo-bulk-send-example.cc:42-74. [op_rate] is
      the initial value of the attribute ns3::MockNetDevice::DataRate, which --islRate
      sets; the variable islRate is not read. *)
  Record options : Type := mkOptions {
    op_orbits : list (leoorbit N);
    op_source : latlong N;
    op_destination : latlong N;
    op_latGws : Z;
    op_lonGws : Z;
    op_constellation : string;
    op_islEnabled : bool;
    op_precision : Z;
    op_rate : Z
  }.
  Definition default_options : options :=
    mkOptions (default_orbits N) (mkLatLong (ndec N 51399 3) (ndec N 10536 3)) (mkLatLong (ndec N 4076 2) (ndec N (-7396) 2))
              20 20 "TelesatGateway" true 1000000000 32768.

  (** Ipv4AddressHelper with mask 255.255.0.0: the devices get base + k, base + k + 1, ... *)
  Fixpoint assign (base k : Z) (devices : list nat) : res (list (nat * Z)) :=
    match devices with
    | [] => Ok []
    | d :: r => if 65534 <? k then Abort AssertFailed
                else let* l := assign base (k + 1) r in Ok ((d, base + k) :: l)
    end.
  (** Ipv4::GetAddress (i, 0) of node n, for i > 0; [nodes] are the nodes of the devices. *)
  Definition interfaces (nodes : list nat) (ips : list (nat * Z)) (n : nat) : list Z :=
    map snd (filter (fun x => match nth_error nodes (fst x) with Some m => Nat.eqb m n | None => false end) ips).
  Definition GetAddress (nodes : list nat) (ips : list (nat * Z)) (n i : nat) : res Z :=
    match nth_error (interfaces nodes ips n) (i - 1) with Some a => Ok a | None => Abort AssertFailed end.

  Record scenario : Type := mkScenario {
    sc_sats : list (mob N);          (* the mobility models of the nodes 0, 1, ... *)
    sc_stations : list (vec N);      (* positions of the nodes after them *)
    sc_acts : list (act N);          (* the installations of devices *)
    sc_nodes : list nat;             (* the nodes of the devices 0, 1, ... *)
    sc_ips : list (nat * Z);         (* devices and addresses, in order of assignment *)
    sc_client : nat;
    sc_server : nat;
    sc_remote : Z
  }.

  (** leo-delay-tracing-example.cc:137-206 (leo-bulk-send-example.cc:85-145): orbit nodes
      :137-147, stations and users :149-153, ground network :155-157, stack :159-181,
      addresses 10.1.0.0 :183-186, inter-satellite network with 10.2.0.0 :188-195,
      users.Get (0) and (1) :197-198, the server's address :206. The attribute
      default set by --islRate acts on every device like a value that the factories set
      first. *)
  Definition set_up_scenario (o : options) : res scenario :=
    let* sats := InstallOrbits (op_precision o) junk 0 (op_orbits o) in
    let* grid := InstallGrid (op_latGws o) (op_lonGws o) in
    let stations := grid ++ InstallPair (op_source o) (op_destination o) in
    let S := List.length sats in
    let G := List.length stations in
    let* ut := leo_helper_calls (new_leo_helper pos seconds)
                 [HGndAttribute (ARate (op_rate o)); HSatAttribute (ARate (op_rate o)); HConstellation (op_constellation o)] in
    let* _ := install_stack (fun _ => false) (seq 0 S ++ seq S G) in
    let* ips := assign 167837696 1 (seq 0 (S + G)) in
    let acts := [ALeoInstall ut (seq 0 S) (seq S G)] in
    let nodes := seq 0 (S + G) in
    let* (acts, nodes, ips) :=
      (if op_islEnabled o then
         let* isl := isl_helper_calls (new_isl_helper pos seconds) [HDeviceAttribute (ARate (op_rate o))] in
         let* more := assign 167903232 1 (seq (S + G) S) in
         Ok (acts ++ [AIslInstall isl (seq 0 S)], nodes ++ seq 0 S, ips ++ more)
       else Ok (acts, nodes, ips)) in
    let users := skipn (List.length grid) (seq S G) in
    let client := nth 0 users 0%nat in
    let server := nth 1 users 0%nat in
    let* remote := GetAddress nodes ips server 1 in
    Ok (mkScenario sats stations acts nodes ips client server remote).

  (** The operations on devices and channels that the set-up consists of. *)
  Definition scenario_ops (s : scenario) : list (op N) := program pos seconds 0 0 0 (sc_acts s).
End Scenario.

Arguments mkOptions {N}. Arguments op_orbits {N}. Arguments op_source {N}. Arguments op_destination {N}. Arguments op_latGws {N}.
Arguments op_lonGws {N}. Arguments op_constellation {N}. Arguments op_islEnabled {N}. Arguments op_precision {N}. Arguments op_rate {N}.
Arguments mkScenario {N}. Arguments sc_sats {N}. Arguments sc_stations {N}. Arguments sc_acts {N}. Arguments sc_nodes {N}.
Arguments sc_ips {N}. Arguments sc_client {N}. Arguments sc_server {N}. Arguments sc_remote {N}.
Arguments set_up_scenario {N}. Arguments scenario_ops {N}.
