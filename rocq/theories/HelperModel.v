(** helper/leo-channel-helper.cc and helper/isl-helper.cc: the factories, their
    setters, the presets and Install; model/leo-starlink-constants.h and
    model/leo-telesat-constants.h.

    Simplifications: an ObjectFactory is the list of the attribute values set on it
    (creation applies them in order, so that the last value of an attribute wins);
    the attributes Mtu and TxQueue are left out (no code path reads the first, and
    Install overwrites the second); a queue type with its attributes is given by the
    admission rule of its queues; a loss or delay model by its function; tracing
    (EnablePcapInternal, EnableAsciiInternal) and NetDeviceQueueInterface are left
    out. The overloads of Install for names are in NamesModel.v. *)
Require Import ZArith List Bool String.
Require Import Verif.Base Verif.Num Verif.Vec Verif.LossModel Verif.FrameModel Verif.NetModel.
Import ListNotations.
Local Open Scope Z_scope.
Local Open Scope res_scope.

Section Helper.
  Variable N : Num.
  (** Positions of the nodes' mobility models by time, and ns3::Seconds (double)
      in ns. *)
  Variable pos : nat -> Z -> vec N.
  Variable seconds : num N -> Z.

  (** Loss models as functions on nodes. *)
  Definition leo_loss (m : leoloss N) : num N -> nat -> nat -> Z -> num N :=
    fun txPower a b t => LeoCalcRxPower m txPower (pos a t) (pos b t).
  Definition isl_loss : num N -> nat -> nat -> Z -> num N :=
    fun txPower a b t => IslCalcRxPower txPower (pos a t) (pos b t).
  (** ns-3 ConstantSpeedPropagationDelayModel::GetDelay. Not in /repo. *)
  Definition constant_speed (speed : num N) : nat -> nat -> Z -> Z :=
    fun a b t => seconds (ndiv N (vdist (pos a t) (pos b t)) speed).

  (** Device attributes, mock-net-device.cc:48-92 and leo-mock-net-device.cc:39-54. *)
  Inductive attr : Type :=
  | AType (sat : bool)
  | AAddress (a : Z)
  | ARate (bps : Z)
  | AGap (t : Z)
  | AThreshold (x : num N)
  | ATxPower (x : num N)
  | ARxGain (x : num N)
  | ARxLoss (x : num N)
  | AErrorModel (f : option (Z -> pkt -> bool)).
  Definition setting_of (a : attr) : setting N :=
    match a with
    | AType b => CType b
    | AAddress x => CAddress x
    | ARate x => CRate x
    | AGap x => CGap x
    | AThreshold x => CThreshold x
    | ATxPower x => CTxPower x
    | ARxGain x => CRxGain x
    | ARxLoss x => CRxLoss x
    | AErrorModel f => CErrorModel f
    end.
  (** The attributes that only LeoMockNetDevice has. *)
  Definition leo_only (a : attr) : bool :=
    match a with AType _ | ARxGain _ | ARxLoss _ => true | _ => false end.

  (** Channel attributes, mock-channel.cc:36-46. *)
  Inductive cattr : Type :=
  | ALoss (f : option (num N -> nat -> nat -> Z -> num N))
  | ADelay (f : option (nat -> nat -> Z -> Z)).

  Definition queue_rule : Type := list pkt -> pkt -> bool.
  (** ns-3 DropTailQueue with its default MaxSize of 100 packets. Not in /repo. *)
  Definition drop_tail (limit : nat) : queue_rule := fun q _ => Nat.ltb (List.length q) limit.

  (** ** LeoChannelHelper *)

  (** leo-channel-helper.h:174-192; the last four are the values in
      m_propagationLossFactory. *)
  Record leo_helper : Type := mkLeoHelper {
    lh_gnd : list attr;
    lh_sat : list attr;
    lh_gndq : queue_rule;
    lh_satq : queue_rule;
    lh_chan : list cattr;
    lh_speed : num N;
    lh_angle : num N;
    lh_fspl : num N;
    lh_atm : num N;
    lh_margin : num N
  }.

  (** leo-channel-helper.cc:40-60, leo-propagation-loss-model.cc:40-60 (defaults);
      the speed set on the channel's own delay model is ns-3's default. *)
  Definition new_leo_helper : leo_helper :=
    mkLeoHelper [AType false] [AType true] (drop_tail 100) (drop_tail 100)
                [ADelay (Some (constant_speed (nZ N 299792458)))]
                (nZ N 299702458) (nZ N 40) (nZ N 0) (nZ N 0) (nZ N 0).

  (** leo-channel-helper.cc:126-151; the data rate is the parsed string. *)
  Definition SetConstellationAttributes (h : leo_helper)
      (eirp angle fspl atm margin : num N) (bps : Z) (rxGain rxLoss : num N) : leo_helper :=
    mkLeoHelper (lh_gnd h ++ [ATxPower eirp; ARxLoss rxLoss; ARxGain rxGain; ARate bps])
                (lh_sat h ++ [ATxPower eirp; ARxLoss rxLoss; ARxGain rxGain; ARate bps])
                (lh_gndq h) (lh_satq h) (lh_chan h) (lh_speed h) angle fspl atm margin.

  (** leo-channel-helper.cc:68-123, leo-starlink-constants.h:42-85,
      leo-telesat-constants.h:42-85. *)
  Definition SetConstellation (h : leo_helper) (name : string) : res leo_helper :=
    let d := ndec N in
    if String.eqb name "StarlinkGateway" then
      Ok (SetConstellationAttributes h (d 984 1%positive) (nZ N 40) (d 1861 1%positive) (d 29 1%positive)
            (d 102 2%positive) 2682100000 (d 409 1%positive) (nZ N 0))
    else if String.eqb name "StarlinkUser" then
      Ok (SetConstellationAttributes h (d 667 1%positive) (nZ N 40) (d 1796 1%positive) (d 53 2%positive)
            (d 82 2%positive) 674300000 (d 377 1%positive) (nZ N 0))
    else if String.eqb name "TelesatGateway" then
      Ok (SetConstellationAttributes h (d 1059 1%positive) (nZ N 20) (d 1893 1%positive) (d 48 1%positive)
            (d 36 2%positive) 9857100000 (d 318 1%positive) (nZ N 0))
    else if String.eqb name "TelesatUser" then
      Ok (SetConstellationAttributes h (d 646 1%positive) (nZ N 55) (d 1786 1%positive) (d 41 2%positive)
            (d 76 2%positive) 599400000 (d 383 1%positive) (nZ N 0))
    else Abort AssertFailed.

  (** leo-channel-helper.cc:170-208 *)
  Inductive leo_call : Type :=
  | HConstellation (name : string)
  | HGndQueue (q : queue_rule)
  | HSatQueue (q : queue_rule)
  | HGndAttribute (a : attr)
  | HSatAttribute (a : attr)
  | HChannelAttribute (a : cattr).
  Definition leo_helper_call (h : leo_helper) (c : leo_call) : res leo_helper :=
    match c with
    | HConstellation name => SetConstellation h name
    | HGndQueue q => Ok (mkLeoHelper (lh_gnd h) (lh_sat h) q (lh_satq h) (lh_chan h) (lh_speed h)
                           (lh_angle h) (lh_fspl h) (lh_atm h) (lh_margin h))
    | HSatQueue q => Ok (mkLeoHelper (lh_gnd h) (lh_sat h) (lh_gndq h) q (lh_chan h) (lh_speed h)
                           (lh_angle h) (lh_fspl h) (lh_atm h) (lh_margin h))
    | HGndAttribute a => Ok (mkLeoHelper (lh_gnd h ++ [a]) (lh_sat h) (lh_gndq h) (lh_satq h) (lh_chan h) (lh_speed h)
                           (lh_angle h) (lh_fspl h) (lh_atm h) (lh_margin h))
    | HSatAttribute a => Ok (mkLeoHelper (lh_gnd h) (lh_sat h ++ [a]) (lh_gndq h) (lh_satq h) (lh_chan h) (lh_speed h)
                           (lh_angle h) (lh_fspl h) (lh_atm h) (lh_margin h))
    | HChannelAttribute a => Ok (mkLeoHelper (lh_gnd h) (lh_sat h) (lh_gndq h) (lh_satq h) (lh_chan h ++ [a]) (lh_speed h)
                           (lh_angle h) (lh_fspl h) (lh_atm h) (lh_margin h))
    end.
  Fixpoint leo_helper_calls (h : leo_helper) (l : list leo_call) : res leo_helper :=
    match l with
    | [] => Ok h
    | c :: r => let* h1 := leo_helper_call h c in leo_helper_calls h1 r
    end.

  (** ** IslHelper *)

  (** isl-helper.h, members *)
  Record isl_helper : Type := mkIslHelper {
    ih_dev : list attr;
    ih_queue : queue_rule;
    ih_chan : list cattr
  }.
  (** isl-helper.cc:40-47 *)
  Definition new_isl_helper : isl_helper :=
    mkIslHelper [] (drop_tail 100) [ADelay (Some (constant_speed (nZ N 299792458))); ALoss (Some isl_loss)].
  (** isl-helper.cc:49-77; setting an attribute that the class does not have is a
      fatal error in ns-3. *)
  Inductive isl_call : Type :=
  | HQueue (q : queue_rule)
  | HDeviceAttribute (a : attr)
  | HIslChannelAttribute (a : cattr).
  Definition isl_helper_call (h : isl_helper) (c : isl_call) : res isl_helper :=
    match c with
    | HQueue q => Ok (mkIslHelper (ih_dev h) q (ih_chan h))
    | HDeviceAttribute a => if leo_only a then Abort AssertFailed
                            else Ok (mkIslHelper (ih_dev h ++ [a]) (ih_queue h) (ih_chan h))
    | HIslChannelAttribute a => Ok (mkIslHelper (ih_dev h) (ih_queue h) (ih_chan h ++ [a]))
    end.
  Fixpoint isl_helper_calls (h : isl_helper) (l : list isl_call) : res isl_helper :=
    match l with
    | [] => Ok h
    | c :: r => let* h1 := isl_helper_call h c in isl_helper_calls h1 r
    end.

  (** ** Install *)

  (** ns-3 Mac48Address::Allocate: the counter is incremented and its lower 48 bits
      are the address. Not in /repo. *)
  Definition allocate (id : Z) : Z := (id + 1) mod 281474976710656.

  Definition channel_op (c : nat) (a : cattr) : op N :=
    match a with ALoss f => OSetLoss c f | ADelay f => OSetDelay c f end.
  (** One pass of the loops leo-channel-helper.cc:363-380, 382-398 and
      isl-helper.cc:233-243. Node::AddDevice sets the node and the receive
      callback (ns-3, not in /repo). *)
  Definition device_ops (attrs : list attr) (q : queue_rule) (c d node : nat) (id : Z) : list (op N) :=
    map (fun a => OSet d (setting_of a)) attrs ++
    [OSet d (CAddress (allocate id)); OSet d (CNode node); OSet d CRxCallback; OSetQueue d (Some q); OAttach d c].
  (** The loop: devices are numbered from [d]. *)
  Fixpoint devices_ops (attrs : list attr) (q : queue_rule) (c d : nat) (nodes : list nat) (id : Z) : list (op N) :=
    match nodes with
    | [] => []
    | n :: r => device_ops attrs q c d n id ++ devices_ops attrs q c (S d) r (id + 1)
    end.

  (** leo-channel-helper.cc:352-401: new channel [c], new devices from [d], address
      counter [id]. The returned container is [d], [d + 1], ... *)
  Definition leo_install (h : leo_helper) (c d : nat) (sats gnds : list nat) (id : Z) : list (op N) :=
    map (channel_op c) (lh_chan h) ++
    [OSetLoss c (Some (leo_loss (mkLeoLoss (SetElevationAngle (lh_angle h)) (lh_atm h) (lh_fspl h) (lh_margin h))));
     OSetDelay c (Some (constant_speed (lh_speed h)))] ++
    devices_ops (lh_sat h) (lh_satq h) c d sats id ++
    devices_ops (lh_gnd h) (lh_gndq h) c (d + List.length sats)%nat gnds (id + Z.of_nat (List.length sats)).
  (** isl-helper.cc:224-247 *)
  Definition isl_install (h : isl_helper) (c d : nat) (nodes : list nat) (id : Z) : list (op N) :=
    map (channel_op c) (ih_chan h) ++ devices_ops (ih_dev h) (ih_queue h) c d nodes id.

  (** ** A program: installations interleaved with other operations. Channels and
      devices are numbered in order of creation; [id] is the address counter. *)
  Inductive act : Type :=
  | ALeoInstall (h : leo_helper) (sats gnds : list nat)
  | AIslInstall (h : isl_helper) (nodes : list nat)
  | AOp (o : op N).
  Fixpoint program (c d : nat) (id : Z) (l : list act) : list (op N) :=
    match l with
    | [] => []
    | ALeoInstall h sats gnds :: r =>
        let n := List.length (sats ++ gnds) in
        leo_install h c d sats gnds id ++ program (S c) (d + n) (id + Z.of_nat n) r
    | AIslInstall h nodes :: r =>
        let n := List.length nodes in
        isl_install h c d nodes id ++ program (S c) (d + n) (id + Z.of_nat n) r
    | AOp o :: r => o :: program c d id r
    end.
  (** The classes of the devices and channels made by the program, in order. *)
  Fixpoint device_classes (l : list act) : list bool :=
    match l with
    | [] => []
    | ALeoInstall _ sats gnds :: r => repeat true (List.length (sats ++ gnds)) ++ device_classes r
    | AIslInstall _ nodes :: r => repeat false (List.length nodes) ++ device_classes r
    | AOp _ :: r => device_classes r
    end.
  Fixpoint channel_classes (l : list act) : list ckind :=
    match l with
    | [] => []
    | ALeoInstall _ _ _ :: r => LeoChannel :: channel_classes r
    | AIslInstall _ _ :: r => IslChannel :: channel_classes r
    | AOp _ :: r => channel_classes r
    end.
  Definition initial_for (l : list act) : world N :=
    initial (fun d => nth d (device_classes l) false) (fun c => nth c (channel_classes l) IslChannel).
End Helper.

Arguments leo_loss {N}. Arguments isl_loss {N}. Arguments constant_speed {N}.
Arguments AType {N}. Arguments AAddress {N}. Arguments ARate {N}. Arguments AGap {N}. Arguments AThreshold {N}.
Arguments ATxPower {N}. Arguments ARxGain {N}. Arguments ARxLoss {N}. Arguments AErrorModel {N}.
Arguments setting_of {N}. Arguments leo_only {N}. Arguments ALoss {N}. Arguments ADelay {N}.
Arguments mkLeoHelper {N}. Arguments lh_gnd {N}. Arguments lh_sat {N}. Arguments lh_gndq {N}. Arguments lh_satq {N}.
Arguments lh_chan {N}. Arguments lh_speed {N}. Arguments lh_angle {N}. Arguments lh_fspl {N}. Arguments lh_atm {N}.
Arguments lh_margin {N}. Arguments new_leo_helper {N}. Arguments SetConstellationAttributes {N}.
Arguments SetConstellation {N}. Arguments HConstellation {N}. Arguments HGndQueue {N}. Arguments HSatQueue {N}.
Arguments HGndAttribute {N}. Arguments HSatAttribute {N}. Arguments HChannelAttribute {N}.
Arguments leo_helper_call {N}. Arguments leo_helper_calls {N}.
Arguments mkIslHelper {N}. Arguments ih_dev {N}. Arguments ih_queue {N}. Arguments ih_chan {N}.
Arguments new_isl_helper {N}. Arguments HQueue {N}. Arguments HDeviceAttribute {N}. Arguments HIslChannelAttribute {N}.
Arguments isl_helper_call {N}. Arguments isl_helper_calls {N}.
Arguments channel_op {N}. Arguments device_ops {N}. Arguments devices_ops {N}. Arguments leo_install {N}.
Arguments isl_install {N}. Arguments ALeoInstall {N}. Arguments AIslInstall {N}. Arguments AOp {N}.
Arguments program {N}. Arguments device_classes {N}. Arguments channel_classes {N}. Arguments initial_for {N}.
