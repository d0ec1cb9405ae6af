(** Who a transmission is for, and what leaves a receiver alone. *)
Require Import ZArith List Bool.
Require Import Verif.Base Verif.Num Verif.FrameModel Verif.NetModel Verif.NetSpec.
Import ListNotations.
Local Open Scope Z_scope.

(** A transmission of d over c to [dest] is for dst: between satellites, the first
    attached device with that address or, for a broadcast, what is attached
    elsewhere than d; between satellites and ground, everybody on the other side. *)
Definition recipient {N : Num} (w : world N) (c d : nat) (dest : Z) (dst : nat) : Prop :=
  let ch := w_chan w c in
  let on (m : list (Z * nat)) := exists x, In (addr_of w d, x) m in
  match c_kind ch with
  | IslChannel =>
      (exists k, nth_error (c_link ch) k = Some dst /\ addr_of w dst = dest /\
         forall j x, (j < k)%nat -> nth_error (c_link ch) j = Some x -> addr_of w x <> dest) \/
      ((forall x, In x (c_link ch) -> addr_of w x <> dest) /\ dest = 2 ^ 48 - 1 /\
       exists k, k <> d_id (w_dev w d) /\ nth_error (c_link ch) k = Some dst)
  | LeoChannel => (on (c_gnd ch) /\ ~ on (c_sat ch) /\ In dst (map snd (c_sat ch))) \/
                  (on (c_sat ch) /\ ~ on (c_gnd ch) /\ In dst (map snd (c_gnd ch)))
  end.

(** Operations that do not change the configuration of d. *)
Definition leaves {N : Num} (d : nat) (o : op N) : Prop := match o with OSet d' _ => d' <> d | _ => True end.

(** Nothing left to do: no event, no device transmitting, no packet waiting. *)
Definition at_rest {N : Num} (w : world N) : Prop :=
  w_events w = [] /\ (forall d, d_busy (w_dev w d) = false /\ d_q (w_dev w d) = []).

(** Link-layer addresses of multicast groups: RFC 1112 section 6.4 puts the low 23
    bits of the IPv4 group into 01:00:5e:00:00:00, RFC 2464 section 7 the low 32 bits
    of the IPv6 group into 33:33:00:00:00:00. *)
Definition rfc1112 (group : Z) : Z := 0x01005e000000 + group mod 2 ^ 23.
Definition rfc2464 (group : Z) : Z := 0x333300000000 + group mod 2 ^ 32.
Definition ipv4 (a b c d : Z) : Z := ((a * 256 + b) * 256 + c) * 256 + d.
