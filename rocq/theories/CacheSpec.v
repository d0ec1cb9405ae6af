(** Which entries the caches should have. *)
Require Import ZArith List Bool.
Require Import Verif.NetModel Verif.CacheModel.
Import ListNotations.
Local Open Scope Z_scope.

(** Devices that have to reach each other: different ones, unless both are on the
    ground or both in space. *)
Definition peers (devs : list endpoint) (i j : nat) (d o : endpoint) : Prop :=
  i <> j /\ nth_error devs i = Some d /\ nth_error devs j = Some o /\
  ~ (e_kind d = Gnd /\ e_kind o = Gnd) /\ ~ (e_kind d = Sat /\ e_kind o = Sat).

(** [address_of interfaces k n x]: the [k]-th address of the [n]-th interface. *)
Definition address_of (interfaces : list (list Z)) (k n : nat) (x : Z) : Prop :=
  exists l, nth_error interfaces n = Some l /\ nth_error l k = Some x.

(** For device [i], entry [x] of cache [c] is set to [m] because of device [j]. *)
Definition entered (devs : list endpoint) (interfaces : list (list Z)) (k i j c : nat) (x m : Z) : Prop :=
  exists d o, peers devs i j d o /\ e_cache d = Some c /\ address_of interfaces k (e_index o) x /\ m = e_mac o.

Definition not_after (i j i' j' : nat) : Prop := (i < i' \/ (i = i' /\ j <= j'))%nat.

(** All interfaces, caches and addresses that are needed exist. *)
Definition complete (devs : list endpoint) (interfaces : list (list Z)) (k : nat) : Prop :=
  (forall d, In d devs -> e_interface d = true) /\
  (forall i j d o, peers devs i j d o -> e_cache d <> None /\ exists x, address_of interfaces k (e_index o) x).
