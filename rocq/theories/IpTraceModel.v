(** The records of forwarding and drops by IPv4 that examples/leo-delay-tracing-example.cc
    writes with the option traceFwd.

    Simplifications: lines are tuples instead of text, without the uid of the packet; the
    context is the device that the packet came in at, the interface the device that it is
    to go out at. Of ns-3 (not in /repo), Ipv4L3Protocol::IpForward fires UnicastForward
    for a packet whose TTL is left and Drop for the others; the drops for other reasons and
    the ICMP messages about drops are not modelled. *)
Require Import ZArith List Bool String.
Require Import Verif.Base Verif.FrameModel Verif.NetModel Verif.MeasureModel.
Import ListNotations.
Local Open Scope Z_scope.

(** ns-3 Ipv4L3Protocol::DropReason *)
Inductive drop_reason : Type :=
| DROP_TTL_EXPIRED | DROP_NO_ROUTE | DROP_BAD_CHECKSUM | DROP_INTERFACE_DOWN | DROP_ROUTE_ERROR | DROP_FRAGMENT_TIMEOUT.

Inductive ip_line : Type :=
| Forwarded (time : Z) (dev out : nat) (src dst : Z)
| Dropped (time : Z) (dev out : nat) (src dst : Z) (res : string).

(** ns-3 Ipv4Header: the addresses in bytes 12 to 15 and 16 to 19. *)
Definition GetSource (p : list Z) : Z := unbe (firstn 4 (skipn 12 p)).
Definition GetDestination (p : list Z) : Z := unbe (firstn 4 (skipn 16 p)).

(** leo-delay-tracing-example.cc:50-57 *)
Definition TraceIpForward (remote now : Z) (d : nat) (p : list Z) (out : nat) : list ip_line :=
  if GetDestination p =? remote then [Forwarded now d out (GetSource p) (GetDestination p)] else [].

(** leo-delay-tracing-example.cc:62-82 *)
Definition drop_text (reason : drop_reason) : string :=
  match reason with
  | DROP_INTERFACE_DOWN => "Interface down"
  | DROP_BAD_CHECKSUM => "Checksum"
  | DROP_FRAGMENT_TIMEOUT => "Timeout"
  | DROP_NO_ROUTE => "No route"
  | DROP_TTL_EXPIRED => "TTL expired"
  | DROP_ROUTE_ERROR => "Route error"
  end%string.
(** leo-delay-tracing-example.cc:59-84 *)
Definition TraceIpDrop (now : Z) (d : nat) (p : list Z) (reason : drop_reason) (out : nat) : list ip_line :=
  [Dropped now d out (GetSource p) (GetDestination p) (drop_text reason)].

(** leo-delay-tracing-example.cc:236-244: what is written about the packets that come in at
    devices for which there is a route. IpForward passes the header with the new TTL to the
    first sink and the old one to the second. *)
Definition ip_lines (next : nat -> option (nat * Z)) (remote : Z) (l : list (Z * obs)) : list ip_line :=
  flat_map (fun x => match snd x with
                     | RxCallback d _ payload _ _ _ _ =>
                         match next d with
                         | Some (out, _) => match IpForward payload with
                                            | Some p => TraceIpForward remote (fst x) d p out
                                            | None => TraceIpDrop (fst x) d payload DROP_TTL_EXPIRED out
                                            end
                         | None => []
                         end
                     | _ => []
                     end) l.
