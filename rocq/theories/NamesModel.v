(** Installation on nodes given by name: helper/isl-helper.cc:250-262 and
    helper/leo-channel-helper.cc:412-434. *)
Require Import ZArith List Bool String.
Require Import Verif.Base Verif.Num Verif.Vec Verif.LossModel Verif.FrameModel Verif.NetModel Verif.HelperModel.
Import ListNotations.
Local Open Scope Z_scope.
Local Open Scope res_scope.

Section Names.
  Context {N : Num}.
  Variable crc : list Z -> Z.
  Variable fcs : bool.
  Variable tx_time : Z -> Z -> Z.
  Variable has_mob : nat -> bool.
  Variable pos : nat -> Z -> vec N.
  Variable seconds : num N -> Z.
  (** ns-3 Names::Find<Node> (not in /repo): a null pointer for a name that no node has. *)
  Variable Find : string -> option nat.
  Notation run := (run crc fcs tx_time has_mob).

  (** The loops of Install when some pointers may be null: the new device of such a node has
      an address, then node->AddDevice dereferences the pointer (isl-helper.cc:238,
      leo-channel-helper.cc:367 and 386; with logging on, isl-helper.cc:235 already does). *)
  Fixpoint install_pointers (attrs : list (attr N)) (q : queue_rule) (c d : nat) (nodes : list (option nat)) (id : Z) (w : world N) : res (world N) :=
    match nodes with
    | [] => Ok w
    | Some n :: r => let* w1 := run w (device_ops attrs q c d n id) in install_pointers attrs q c (S d) r (id + 1) w1
    | None :: _ => UB NullDeref
    end.

  (** isl-helper.cc:250-262, then :224-247 *)
  Definition isl_install_names (h : isl_helper N) (c d : nat) (names : list string) (id : Z) (w : world N) : res (world N) :=
    let* w1 := run w (map (channel_op c) (ih_chan h)) in
    install_pointers (ih_dev h) (ih_queue h) c d (map Find names) id w1.

  (** leo-channel-helper.cc:412-434, then :352-401 *)
  Definition leo_install_names (h : leo_helper N) (c d : nat) (satellites stations : list string) (id : Z) (w : world N) : res (world N) :=
    let* w1 := run w (map (channel_op c) (lh_chan h) ++
      [OSetLoss c (Some (leo_loss pos (mkLeoLoss (SetElevationAngle (lh_angle h)) (lh_atm h) (lh_fspl h) (lh_margin h))));
       OSetDelay c (Some (constant_speed pos seconds (lh_speed h)))]) in
    let* w2 := install_pointers (lh_sat h) (lh_satq h) c d (map Find satellites) id w1 in
    install_pointers (lh_gnd h) (lh_gndq h) c (d + List.length satellites)%nat (map Find stations) (id + Z.of_nat (List.length satellites)) w2.
End Names.
