(** What the records of forwarding should say about a packet on its path. *)
Require Import ZArith List Bool String.
Require Import Verif.Base Verif.Num Verif.NetModel Verif.NetSpec Verif.RelaySpec Verif.MeasureSpec Verif.IpTraceModel.
Import ListNotations.
Local Open Scope Z_scope.

Definition no_hop : hop := mkHop 0 0 0.
Section Records.
  Context {N : Num}.
  Variable w : world N.
  Variables (t : Z) (path : list hop) (src dst : Z).
  (** The packet is forwarded after hop i (counted from 0): when and where it has arrived,
      where it goes out. *)
  Definition forwarded_at (i : nat) : ip_line :=
    Forwarded (arrival_at w t (firstn (S i) path)) (h_to (nth i path no_hop)) (h_from (nth (S i) path no_hop)) src dst.
  Definition expired_at (i : nat) : ip_line :=
    Dropped (arrival_at w t (firstn (S i) path)) (h_to (nth i path no_hop)) (h_from (nth (S i) path no_hop)) src dst "TTL expired".
  (** All of them for a packet with a TTL: as many as there are stops in between, at most
      TTL - 1, and one drop if it does not get to the end. *)
  Definition expected_lines (remote ttl : Z) : list ip_line :=
    (if dst =? remote then map forwarded_at (seq 0 (Nat.min (List.length path - 1) (Z.to_nat (ttl - 1)))) else []) ++
    (if ttl <? Z.of_nat (List.length path) then [expired_at (Z.to_nat (ttl - 1))] else []).
End Records.
