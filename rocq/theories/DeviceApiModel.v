(** Link-layer addresses a MockNetDevice gives for multicast groups. *)
Require Import ZArith.
Local Open Scope Z_scope.

(** model/mock-net-device.cc:634-639. The group (an IPv4 address as a number) is not
    used; the result is 01:00:5e:00:00:00. *)
Definition GetMulticast4 (multicastGroup : Z) : Z := 0x01005e000000.
(** :641-646. 33:33:00:00:00:00. *)
Definition GetMulticast6 (addr : Z) : Z := 0x333300000000.
