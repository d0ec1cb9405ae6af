(** Delays and numbers of packets that the delay program should report. *)
Require Import ZArith Reals List.
Require Import Verif.Base Verif.Num Verif.NetModel Verif.NetSpec Verif.RelaySpec.
Import ListNotations.

(** Time at which a signal that leaves at time t arrives at the end of the path, if only
    the delays of the channels count. *)
Fixpoint arrival_at {N : Num} (w : world N) (t : Z) (path : list hop) : Z :=
  match path with
  | [] => t
  | h :: r =>
      arrival_at w (t + match c_delay (w_chan w (h_over h)), node_of w (h_from h), node_of w (h_to h) with
                        | Some f, Some m, Some n => f m n t
                        | _, _, _ => 0 end)%Z r
  end.

(** Division in a number format: monotonic, exact on whole numbers of 33 bits, with an
    error of at most one in 2^40 from 1/2 on. *)
Definition divides_well (rnd : R -> R) : Prop :=
  (forall x y, x <= y -> rnd x <= rnd y)%R /\
  (forall z : Z, (0 <= z <= 2 ^ 32)%Z -> rnd (IZR z) = IZR z) /\
  (forall x, / 2 <= x -> rnd x <= x * (1 + / 2 ^ 40))%R.

(** Conversion of seconds to nanoseconds by truncation. *)
Definition truncates (seconds : R -> Z) : Prop :=
  forall x, (0 <= x -> IZR (seconds x) <= x * 10 ^ 9 < IZR (seconds x) + 1)%R.
