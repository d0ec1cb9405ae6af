(** Which waypoints a reader should return. *)
Require Import ZArith List Bool.
Import ListNotations.
Local Open Scope Z_scope.

Section Spec.
  Context {P : Type}.

  (** The samples of [l] that are later than [last] and than all before them. *)
  Fixpoint later (last : Z) (l : list (Z * P)) : list (Z * P) :=
    match l with
    | [] => []
    | s :: r => if last <? fst s then s :: later (fst s) r else later last r
    end.
  (** The greatest time among [last] and [l]. *)
  Definition newest (last : Z) (l : list (Z * P)) : Z := fold_left (fun m s => Z.max m (fst s)) l last.

  (** The last sample of [l] is later than [last] and than all others. *)
  Definition ends_newest (last : Z) (l : list (Z * P)) : Prop :=
    l = [] \/ exists l1 s, l = l1 ++ [s] /\ newest last l1 < fst s.

  (** Strictly increasing times, all above [last]. *)
  Fixpoint increasing_from (last : Z) (l : list (Z * P)) : Prop :=
    match l with
    | [] => True
    | s :: r => last < fst s /\ increasing_from (fst s) r
    end.

  (** What the satellites get when files with contents [cs] are read one after the
      other and the last time is carried over. *)
  Inductive serves : Z -> list (list (Z * P)) -> list (list (Z * P)) -> Prop :=
  | serves_nil : forall last, serves last [] []
  | serves_negative : forall last c cs ls, last < 0 -> serves last cs ls -> serves last (c :: cs) ([] :: ls)
  | serves_file : forall last c cs ls, 0 <= last -> ends_newest last c -> serves (newest last c) cs ls ->
      serves last (c :: cs) (later last c :: ls)
  | serves_trailing : forall last c s cs ls any, 0 <= last -> fst s <= newest last c -> serves any cs ls ->
      serves last ((c ++ [s]) :: cs) ((later last (c ++ [s]) ++ [(any, snd s)]) :: ls).
End Spec.
