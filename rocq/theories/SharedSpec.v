(** Programs that send packet objects. *)
Require Import ZArith List.
Require Import Verif.Base Verif.Num Verif.FrameModel Verif.NetModel Verif.NetSpec Verif.SharedModel.
Import ListNotations.
Local Open Scope Z_scope.

Section Spec.
  Context {N : Num}.
  (** The objects a program sends. *)
  Definition sent_objects (ops : list (@hop N)) : list nat :=
    flat_map (fun o => match o with HSend _ k _ _ => [k] | HOther _ => [] end) ops.

  (** The same program, every Send with a packet of its own. *)
  Definition own_packet (obj : nat -> pkt) (o : @hop N) : op N :=
    match o with HSend d k dest q => OSend d (obj k) dest q | HOther o => o end.

  Definition no_plain_send (o : @hop N) : Prop := match o with HOther (OSend _ _ _ _) => False | _ => True end.

  (** Bytes in the queue of [d]. *)
  Definition waiting_bytes (s : hworld N) (d : nat) : Z :=
    fold_right Z.add 0 (map (fun k => Z.of_nat (length (p_bytes (h_obj s k)))) (h_wait s d)).

  (** Same outcome: the same world, or stopped for the same reason. *)
  Definition same_outcome (a : res (hworld N)) (b : res (world N)) : Prop :=
    match a, b with
    | Ok s, Ok w => h_world s = w
    | Abort x, Abort y => x = y
    | UB x, UB y => x = y
    | _, _ => False
    end.
  Definition keeps_queue (d : nat) (o : @hop N) : Prop := match o with HOther (OSetQueue d' _) => d' <> d | _ => True end.

  (** States a program can get into. *)
  Definition hreachable crc fcs tx_time has_mob (s : hworld N) : Prop :=
    exists dk ck obj ops, hrun crc fcs tx_time has_mob (hstart dk ck obj) ops = Ok s.
End Spec.
