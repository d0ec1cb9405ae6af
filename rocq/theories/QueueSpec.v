(** Waiting at a device, and what a device can carry. *)
Require Import ZArith List.
Require Import Verif.Base Verif.Num Verif.FrameModel Verif.NetModel Verif.NetSpec.
Import ListNotations.
Local Open Scope Z_scope.

(** A rule of admission that lets at most [limit] packets wait. *)
Definition holds_at_most (limit : nat) (admit : list pkt -> pkt -> bool) : Prop :=
  forall q f, admit q f = true -> (length q < limit)%nat.

(** A transmission: when it began, and how long it and the gap after it keep the
    device from beginning another one. *)
Definition begins (x : Z * pkt * Z) : Z := fst (fst x).
Definition sent_frame (x : Z * pkt * Z) : pkt := snd (fst x).
Definition slot (x : Z * pkt * Z) : Z := snd x.

(** Time needed by a list of transmissions, and their bytes. *)
Definition total_slots (l : list (Z * pkt * Z)) : Z := fold_right (fun x s => slot x + s) 0 l.
Definition total_bytes (l : list (Z * pkt * Z)) : Z :=
  fold_right (fun x s => Z.of_nat (length (p_bytes (sent_frame x))) + s) 0 l.

(** Every packet arrives no earlier than the slot of the one before it would end if
    that one was transmitted on its arrival. *)
Fixpoint spaced (acc : list (Z * pkt)) (slots : list Z) : Prop :=
  match acc, slots with
  | (a, _) :: r, h :: hs => match r with (b, _) :: _ => a + h <= b | [] => True end /\ spaced r hs
  | _, _ => True
  end.

(** A transmission time that the data rate (bit/s) allows, in ns rounded down or up. *)
Definition by_rate (tx_time : Z -> Z -> Z) : Prop :=
  forall bps n, 0 < bps -> 0 <= n -> 8 * n * 1000000000 <= bps * (tx_time bps n + 1).
