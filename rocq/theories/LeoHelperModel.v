(** helper/leo-helper.{h,cc}: LeoHelper, which installs an inter-satellite network,
    a gateway network and a user network, the internet stack, addresses and ARP
    caches.

    Simplifications: of InternetStackHelper (ns-3, not in /repo) only the check that
    a node does not have a stack yet is kept; Ipv4AddressHelper hands out one address
    per device, the values of an arbitrary function of how many it has handed out;
    an interface made by it has an ARP cache of its own, named like the device. The
    commented-out Ipv6 part (leo-helper.cc:50-61) is left out, as are the two
    SetRoutingHelper overloads; for tracing see TraceModel.v. *)
Require Import ZArith List Bool.
Require Import Verif.Base Verif.Num Verif.Vec Verif.LossModel Verif.FrameModel Verif.NetModel Verif.HelperModel Verif.CacheModel.
Import ListNotations.
Local Open Scope Z_scope.
Local Open Scope res_scope.

Section LeoHelper.
  Variable N : Num.
  Variable pos : nat -> Z -> vec N.
  Variable seconds : num N -> Z.

  (** leo-helper.h:199-202; m_gwChannelHelper and m_utChannelHelper. *)
  Record stack_helper : Type := mkStackHelper {
    sk_isl : isl_helper N;
    sk_gw : leo_helper N;
    sk_ut : leo_helper N
  }.
  (** leo-helper.cc:27-29: the members' default constructors *)
  Definition new_stack_helper : stack_helper :=
    mkStackHelper (new_isl_helper pos seconds) (new_leo_helper pos seconds) (new_leo_helper pos seconds).

  (** leo-helper.cc:78-197 *)
  Inductive stack_call : Type :=
  | KQueue (q : queue_rule)              (* :78-90 *)
  | KGndGwQueue (q : queue_rule)         (* :92-100 *)
  | KGndUtQueue (q : queue_rule)         (* :102-110 *)
  | KSatGwQueue (q : queue_rule)         (* :112-120 *)
  | KSatUtQueue (q : queue_rule)         (* :122-130 *)
  | KDevice (a : attr N)                 (* :132-142 *)
  | KGndGwDevice (a : attr N)            (* :144-148 *)
  | KGndUtDevice (a : attr N)            (* :150-154 *)
  | KSatUtDevice (a : attr N)            (* :156-160 *)
  | KSatGwDevice (a : attr N)            (* :162-166 *)
  | KIslDevice (a : attr N)              (* :168-172 *)
  | KChannel (a : cattr N)               (* :174-179 *)
  | KIslChannel (a : cattr N)            (* :181-185 *)
  | KUtChannel (a : cattr N)             (* :187-191 *)
  | KGwChannel (a : cattr N).            (* :193-197 *)

  Definition isl_do (h : stack_helper) (c : isl_call N) : res stack_helper :=
    let* x := isl_helper_call (sk_isl h) c in Ok (mkStackHelper x (sk_gw h) (sk_ut h)).
  Definition gw_do (h : stack_helper) (c : leo_call N) : res stack_helper :=
    let* x := leo_helper_call (sk_gw h) c in Ok (mkStackHelper (sk_isl h) x (sk_ut h)).
  Definition ut_do (h : stack_helper) (c : leo_call N) : res stack_helper :=
    let* x := leo_helper_call (sk_ut h) c in Ok (mkStackHelper (sk_isl h) (sk_gw h) x).

  Definition stack_helper_call (h : stack_helper) (c : stack_call) : res stack_helper :=
    match c with
    | KQueue q => let* h1 := gw_do h (HGndQueue q) in
                  let* h2 := ut_do h1 (HGndQueue q) in
                  let* h3 := gw_do h2 (HSatQueue q) in
                  ut_do h3 (HSatQueue q)
    | KGndGwQueue q => gw_do h (HGndQueue q)
    | KGndUtQueue q => ut_do h (HGndQueue q)
    | KSatGwQueue q => gw_do h (HSatQueue q)
    | KSatUtQueue q => ut_do h (HSatQueue q)
    | KDevice a => let* h1 := isl_do h (HDeviceAttribute a) in
                   let* h2 := gw_do h1 (HGndAttribute a) in
                   let* h3 := gw_do h2 (HSatAttribute a) in
                   let* h4 := ut_do h3 (HGndAttribute a) in
                   ut_do h4 (HSatAttribute a)
    | KGndGwDevice a => gw_do h (HGndAttribute a)
    | KGndUtDevice a => ut_do h (HGndAttribute a)
    | KSatUtDevice a => ut_do h (HSatAttribute a)
    | KSatGwDevice a => gw_do h (HSatAttribute a)
    | KIslDevice a => isl_do h (HDeviceAttribute a)
    | KChannel a => let* h1 := isl_do h (HIslChannelAttribute a) in
                    let* h2 := ut_do h1 (HChannelAttribute a) in
                    gw_do h2 (HChannelAttribute a)
    | KIslChannel a => isl_do h (HIslChannelAttribute a)
    | KUtChannel a => ut_do h (HChannelAttribute a)
    | KGwChannel a => gw_do h (HChannelAttribute a)
    end.
  Fixpoint stack_helper_calls (h : stack_helper) (l : list stack_call) : res stack_helper :=
    match l with
    | [] => Ok h
    | c :: r => let* h1 := stack_helper_call h c in stack_helper_calls h1 r
    end.

  (** ** Install, leo-helper.cc:32-76 *)

  (** The part that makes devices and channels, :38-41: new channels from [c], new
      devices from [d]. The returned container, :70-72, is [d], [d + 1], ... *)
  Definition stack_devices (h : stack_helper) (c d : nat) (id : Z) (sats gws uts : list nat) : list (op N) :=
    let n := List.length sats in
    let g := List.length gws in
    isl_install (sk_isl h) c d sats id ++
    leo_install pos seconds (sk_gw h) (S c) (d + n) sats gws (id + Z.of_nat n) ++
    leo_install pos seconds (sk_ut h) (S (S c)) (d + n + n + g) sats uts (id + Z.of_nat (n + n + g)).

  (** Node::AddDevice of ns-3: a device's index is the number of devices that its
      node has already; [count] is that number before the installation. *)
  Fixpoint device_indices (count : nat -> nat) (nodes : list nat) : list nat :=
    match nodes with
    | [] => []
    | n :: r => count n :: device_indices (upd count n (S (count n))) r
    end.

  (** InternetStackHelper::Install of ns-3 for each node, :44-46. *)
  Fixpoint install_stack (has : nat -> bool) (nodes : list nat) : res (nat -> bool) :=
    match nodes with
    | [] => Ok has
    | n :: r => if has n then Abort AssertFailed else install_stack (upd has n true) r
    end.

  (** A network of [n] devices from [d], with their indices; the addresses from the
      [k]-th on, :64-67. *)
  Definition endpoints (w : world N) (d : nat) (indices : list nat) : list endpoint :=
    map (fun p => mkEndpoint (addr_of w (fst p)) (snd p) (g_kind (d_cfg (w_dev w (fst p)))) true (Some (fst p)))
        (combine (seq d (List.length indices)) indices).
  Definition assigned (ip : nat -> Z) (k n : nat) : list (list Z) := map (fun i => [ip i]) (seq k n).

  Variable crc : list Z -> Z.
  Variable fcs : bool.
  Variable tx_time : Z -> Z -> Z.
  Variable has_mob : nat -> bool.

  Definition stack_install (h : stack_helper) (c d : nat) (id : Z) (count : nat -> nat) (has : nat -> bool) (ip : nat -> Z)
      (sats gws uts : list nat) (w : world N) (s : caches) : res (world N * caches) :=
    let n := List.length sats in
    let g := List.length gws in
    let u := List.length uts in
    let* w1 := run crc fcs tx_time has_mob w (stack_devices h c d id sats gws uts) in
    let* has1 := install_stack has (sats ++ gws ++ uts) in
    let indices := device_indices count (sats ++ (sats ++ gws) ++ (sats ++ uts)) in
    let isl := endpoints w1 d (firstn n indices) in
    let gw := endpoints w1 (d + n) (firstn (n + g) (skipn n indices)) in
    let ut := endpoints w1 (d + n + n + g) (skipn (n + (n + g)) indices) in
    let* s1 := arp_install isl (assigned ip 0 n) s in
    let* s2 := arp_install gw (assigned ip n (n + g)) s1 in
    let* s3 := arp_install ut (assigned ip (n + n + g) (n + u)) s2 in
    Ok (w1, s3).
End LeoHelper.

Arguments mkStackHelper {N}. Arguments sk_isl {N}. Arguments sk_gw {N}. Arguments sk_ut {N}.
Arguments new_stack_helper {N}. Arguments KQueue {N}. Arguments KGndGwQueue {N}. Arguments KGndUtQueue {N}.
Arguments KSatGwQueue {N}. Arguments KSatUtQueue {N}. Arguments KDevice {N}. Arguments KGndGwDevice {N}.
Arguments KGndUtDevice {N}. Arguments KSatUtDevice {N}. Arguments KSatGwDevice {N}. Arguments KIslDevice {N}.
Arguments KChannel {N}. Arguments KIslChannel {N}. Arguments KUtChannel {N}. Arguments KGwChannel {N}.
Arguments isl_do {N}. Arguments gw_do {N}. Arguments ut_do {N}.
Arguments stack_helper_call {N}. Arguments stack_helper_calls {N}. Arguments stack_devices {N}.
Arguments endpoints {N}. Arguments stack_install {N}.
