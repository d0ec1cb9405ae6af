(** Packets relayed by a network layer that may change them on the way. *)
Require Import ZArith List Bool.
Require Import Verif.Base Verif.Num Verif.FrameModel Verif.NetModel Verif.NetSpec Verif.NetRunSpec Verif.ReactModel Verif.RelaySpec.
Import ListNotations.
Local Open Scope Z_scope.

(** Static routes: what comes in at device d goes out at the device and to the address that
    the table gives, as [touch d] makes it, or is dropped if that is None; where there is no
    entry, the packet has arrived. *)
Definition forward (next : nat -> option (nat * Z)) (touch : nat -> list Z -> option (list Z)) (uid : Z) (l : trace) : list sending :=
  match rev l with
  | (_, RxCallback d src payload q from to own) :: _ =>
      match next d with
      | Some (e, a) => match touch d payload with Some p => [(e, mkPkt uid p, Mac a, q)] | None => [] end
      | None => []
      end
  | _ => []
  end.

Section Forward.
  Context {N : Num}.
  Variable crc : list Z -> Z.
  Variable fcs : bool.
  Variable tx_time : Z -> Z -> Z.
  Variable has_mob : nat -> bool.
  Variable w : world N.
  Variable touch : nat -> list Z -> option (list Z).
  Variables (q uid : Z).

  (** Where the packet is handed to the protocols, when, and what it then is. *)
  Fixpoint stops (payload : list Z) (t : Z) (path : list hop) : trace :=
    match path with
    | [] => []
    | h :: r =>
        let t' := t + hop_delay crc fcs tx_time has_mob w payload q uid t h in
        (t', RxCallback (h_to h) (h_from h) payload q (addr_of w (h_from h)) (addr_of w (h_to h)) (addr_of w (h_to h)))
          :: match touch (h_to h) payload with Some p => stops p t' r | None => [] end
    end.

  (** Every hop that the packet takes works when it gets there. *)
  Fixpoint passes (payload : list Z) (t : Z) (path : list hop) : Prop :=
    match path with
    | [] => True
    | h :: r =>
        (length payload <= 1492)%nat /\
        usable crc fcs tx_time has_mob w payload q uid t h /\
        match r with
        | [] => True
        | _ => match touch (h_to h) payload with
               | Some p => passes p (t + hop_delay crc fcs tx_time has_mob w payload q uid t h) r
               | None => True
               end
        end
    end.
End Forward.
