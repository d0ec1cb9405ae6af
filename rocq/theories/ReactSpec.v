(** Executions in which answers are sent from within callbacks, compared to those in
    which they are sent afterwards. *)
Require Import ZArith List Bool Permutation.
Require Import Verif.Base Verif.Num Verif.FrameModel Verif.NetModel Verif.NetSpec Verif.ReactModel.
Import ListNotations.
Local Open Scope Z_scope.

(** Observations that only a reception makes, and those it never makes.
    (PromiscSniffer sees both directions.) *)
Definition receiving (o : obs) : bool :=
  match o with
  | PhyRxEnd _ _ _ | PhyRxDrop _ _ | MacRxDrop _ _ | MacPromiscRx _ _ | PromiscCallback _ _ _ _ _ _ _
  | MacRx _ _ | RxCallback _ _ _ _ _ _ _ => true
  | _ => false
  end.
Definition sniffing (o : obs) : bool := match o with PromiscSniffer _ _ => true | _ => false end.
Definition rx_part (l : trace) : trace := filter (fun x => receiving (snd x)) l.
Definition tx_part (l : trace) : trace := filter (fun x => negb (receiving (snd x)) && negb (sniffing (snd x))) l.

(** The same state; the same observations, in the same order among receptions and
    among all others. *)
Definition alike {N : Num} (w v : world N) : Prop :=
  w_now w = w_now v /\ w_dev w = w_dev v /\ w_chan w = w_chan v /\ w_events w = w_events v /\
  rx_part (w_log w) = rx_part (w_log v) /\ tx_part (w_log w) = tx_part (w_log v) /\ Permutation (w_log w) (w_log v).

(** [ops'] is [ops] with the sends of answers after the operations that caused them. *)
Definition as_op {N : Num} (s : sending) : op N := match s with (d, p, dest, q) => OSend d p dest q end.
Inductive answered {N : Num} (react : trace -> list sending) : list (op N) -> list (op N) -> Prop :=
| an_nil : answered react [] []
| an_cons : forall o pasts ops ops', answered react ops ops' ->
    answered react (o :: ops) (o :: map as_op (concat (map react pasts)) ++ ops').

(** Nothing is sent from a trace sink at the end of a transmission. *)
Definition no_answer_to_end (react : trace -> list sending) : Prop :=
  forall l t d p, react (l ++ [(t, PhyTxEnd d p)]) = [].

(** A transmitter whose packet was lost track of: it is busy, without a packet, and the
    end of the transmission is still to come. *)
Definition jammed {N : Num} (d : nat) (t : Z) (dest : Z) (w : world N) : Prop :=
  d_busy (w_dev w d) = true /\ d_cur (w_dev w d) = None /\ In (t, TxComplete d dest) (w_events w).
