(** What the tracing program should print. *)
Require Import Ascii ZArith Reals List.
Require Import Verif.GeomSpec Verif.ParseSpec Verif.AllocSpec.
Import ListNotations.
Local Open Scope Z_scope.

(** The instants at which satellites are observed: the multiples of the precision
    before the end; also the end itself if it is the first multiple. *)
Definition ticks (precision duration : Z) : list Z :=
  if precision <=? 0 then []
  else if precision =? duration then [precision]
  else first_n (Z.to_nat ((duration - 1) / precision)) (fun k => (k + 1) * precision).

(** Every thing of the list, with its number, at every instant. *)
Definition observations {A : Type} (times : list Z) (things : list A) : list (Z * (nat * A)) :=
  list_prod times (combine (seq 0 (length things)) things).

(** Number of fields of a line, for a separator. *)
Definition fields (sep : ascii) (line : list ascii) : nat := S (count_occ ascii_dec line sep).

(** A text is a decimal number with this value. *)
Definition says (text : list ascii) (x : R) : Prop :=
  exists neg m e, denotes text neg m e /\ x = ((if neg then -1 else 1) * (IZR m * powerRZ 10 e))%R.

(** A line of the trace: time, number of the satellite, position, speed. *)
Definition row (line time : list ascii) (i : nat) (p : point) (speed : R) : Prop :=
  exists I X Y Z V,
    line = (time ++ ":" :: I ++ ":" :: X ++ ":" :: Y ++ ":" :: Z ++ ":" :: V)%char%list /\
    digits I /\ value I = Z.of_nat i /\ says X (px p) /\ says Y (py p) /\ says Z (pz p) /\ says V speed.
