(** Filling ARP and NDISC caches: helper/arp-cache-helper.cc and
    helper/nd-cache-helper.cc.

    Simplifications: caches are named by numbers and map addresses (numbers) to
    link-layer addresses; of ns-3's caches only this mapping is kept (no entry
    states, timers or pending packets). *)
Require Import ZArith List Bool.
Require Import Verif.Base Verif.NetModel.
Import ListNotations.
Local Open Scope Z_scope.
Local Open Scope res_scope.

(** A net device: its address, its index among the devices of its node
    (GetIfIndex), whether it is a LeoMockNetDevice and of which type, whether its
    node has the protocol with an interface for the device, and the cache of this
    interface, if it has one. *)
Record endpoint : Type := mkEndpoint {
  e_mac : Z;
  e_index : nat;
  e_kind : dkind;
  e_interface : bool;
  e_cache : option nat
}.

Definition caches : Type := nat -> Z -> option Z.

(** Lookup or Add, then SetMacAddress: arp-cache-helper.cc:63-69 and
    nd-cache-helper.cc:62-68. *)
Definition set_entry (s : caches) (c : nat) (ip mac : Z) : caches :=
  upd s c (fun x => if x =? ip then Some mac else s c x).

(** Ipv4InterfaceContainer::GetAddress and Ipv6InterfaceContainer::GetAddress of
    ns-3: interface [i] of the container, its address [k]. *)
Definition GetAddress (interfaces : list (list Z)) (i k : nat) : res Z :=
  match nth_error interfaces i with
  | None => UB OutOfRange
  | Some l => match nth_error l k with None => Abort AssertFailed | Some a => Ok a end
  end.

(** arp-cache-helper.cc:48-55, nd-cache-helper.cc:46-53 *)
Definition same_type (a b : dkind) : bool :=
  match a, b with
  | Gnd, Gnd => true
  | Sat, Sat => true
  | _, _ => false
  end.

(** The inner loop, arp-cache-helper.cc:46-72 ([k] = 0) and nd-cache-helper.cc:44-71
    ([k] = 1); [j] is the number of [others] in the container. *)
Fixpoint fill_row (interfaces : list (list Z)) (k : nat) (i : nat) (dev : endpoint) (j : nat) (others : list endpoint)
                  (s : caches) : res caches :=
  match others with
  | [] => Ok s
  | o :: r =>
      if Nat.eqb i j || same_type (e_kind dev) (e_kind o) then fill_row interfaces k i dev (S j) r s
      else
        let* ip := GetAddress interfaces (e_index o) k in
        match e_cache dev with
        | None => UB NullDeref
        | Some c => fill_row interfaces k i dev (S j) r (set_entry s c ip (e_mac o))
        end
  end.

(** The outer loop, arp-cache-helper.cc:36-73, nd-cache-helper.cc:37-72. *)
Fixpoint fill (interfaces : list (list Z)) (k : nat) (all : list endpoint) (i : nat) (devs : list endpoint)
              (s : caches) : res caches :=
  match devs with
  | [] => Ok s
  | d :: r =>
      if e_interface d then
        let* s' := fill_row interfaces k i d 0 all s in fill interfaces k all (S i) r s'
      else UB NullDeref
  end.

(** ArpCacheHelper::Install, arp-cache-helper.cc:32-74 *)
Definition arp_install (devs : list endpoint) (interfaces : list (list Z)) (s : caches) : res caches :=
  fill interfaces 0 devs 0 devs s.
(** NdCacheHelper::Install, nd-cache-helper.cc:32-73: the second address, which is
    the first one that is not link-local. *)
Definition nd_install (devs : list endpoint) (interfaces : list (list Z)) (s : caches) : res caches :=
  fill interfaces 1 devs 0 devs s.
