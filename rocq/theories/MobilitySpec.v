(** What a history of calls on a satellite's mobility model should mean,
    without reference to its state. *)
Require Import ZArith List.
Require Import Verif.Base Verif.Num Verif.Vec Verif.MobilityModel.
Import ListNotations.
Local Open Scope Z_scope.

Section Spec.
  Variable N : Num.

  (** The values written last (or the initial ones). *)
  Definition last_altitude (d : num N) (ops : list (mop N)) : num N :=
    fold_left (fun a op => match op with OSetAltitude h => h | _ => a end) ops d.
  Definition last_inclination (d : num N) (ops : list (mop N)) : num N :=
    fold_left (fun a op => match op with OSetInclination i => i | _ => a end) ops d.
  Definition last_start (d : num N * num N) (ops : list (mop N)) : num N * num N :=
    fold_left (fun a op => match op with OSetPosition p => (vx p, vy p) | _ => a end) ops d.

  (** The calls that recompute the position. *)
  Definition is_setter (op : mop N) : bool :=
    match op with
    | OSetPosition _ | OSetAltitude _ | OSetInclination _ => true
    | _ => false
    end.

  (** The history leaves the Precision attribute alone. *)
  Definition keeps_precision (ops : list (mop N)) : Prop :=
    forall p, ~ In (OSetPrecision p) ops.

  (** Inclination 0 is never written. *)
  Definition legal (ops : list (mop N)) : Prop :=
    forall i, In (OSetInclination i) ops -> neq N i (nZ N 0) = false.
End Spec.
Arguments last_altitude {N} d ops.
Arguments last_inclination {N} d ops.
Arguments last_start {N} d ops.
Arguments is_setter {N} op.
Arguments keeps_precision {N} ops.
Arguments legal {N} ops.

(** The instants at which the setter calls of a history are made. *)
Fixpoint call_times {N : Num} (junk : vec N) (s : mob N) (ops : list (mop N)) : list Z :=
  match ops with
  | [] => []
  | op :: r =>
      match mstep junk s op with
      | Ok s' => (if is_setter op then [s_now s] else []) ++ call_times junk s' r
      | _ => []
      end
  end.

(** Number of firings, up to and including [now], of an update started at [c]
    and repeated every [p]. *)
Definition firings (p now c : Z) : Z := 1 + (now - c) / p.

Definition sumZ (l : list Z) : Z := fold_right Z.add 0 l.

(** [s] is the state of a satellite constructed at [now0] with the given
    attributes after the history [ops]. *)
Definition reached {N : Num} (junk : vec N) (now0 : Z) (alt incl : num N) (prec : Z)
    (ops : list (mop N)) (s : mob N) : Prop :=
  exists s0 u, construct junk now0 alt incl prec = Ok (s0, u) /\ mrun junk s0 ops = Ok s.
