(** The texts of numbers and records. *)
Require Import ZArith QArith Qreduction List Ascii.
Import ListNotations.
Local Open Scope Z_scope.
Local Open Scope char_scope.
Local Open Scope list_scope.

Definition digit (c : ascii) : Prop := In c ["0"; "1"; "2"; "3"; "4"; "5"; "6"; "7"; "8"; "9"].
Definition digits : list ascii -> Prop := Forall digit.
(** blank, tab, line feed, vertical tab, form feed, carriage return *)
Definition space (c : ascii) : Prop := In c [" "; "009"; "010"; "011"; "012"; "013"].
Definition spaces : list ascii -> Prop := Forall space.

Inductive sign : list ascii -> bool -> Prop :=
| sign_none : sign [] false
| sign_plus : sign ["+"] false
| sign_minus : sign ["-"] true.

(** The value of a sequence of digits *)
Fixpoint value (ds : list ascii) : Z :=
  match ds with
  | [] => 0
  | c :: r => (Z.of_nat (nat_of_ascii c) - Z.of_nat (nat_of_ascii "0")) * 10 ^ Z.of_nat (length r) + value r
  end.

(** Digits with an optional decimal point: the digits before and after it. *)
Inductive mantissa : list ascii -> list ascii -> list ascii -> Prop :=
| mantissa_integer : forall a, digits a -> mantissa a a []
| mantissa_point : forall a b, digits a -> digits b -> mantissa (a ++ "." :: b) a b.

(** An optional exponent and its value *)
Inductive exponent : list ascii -> Z -> Prop :=
| exponent_none : exponent [] 0
| exponent_some : forall l s neg ds, l = "e" \/ l = "E" -> sign s neg -> digits ds -> ds <> [] ->
    exponent (l :: s ++ ds) (if neg then - value ds else value ds).

(** The texts of decimal numbers: sign, mantissa with at least one digit, exponent. *)
Inductive denotes : list ascii -> bool -> Z -> Z -> Prop :=
| denotes_intro : forall s neg t a b u x, sign s neg -> mantissa t a b -> a ++ b <> [] -> exponent u x ->
    denotes (s ++ t ++ u) neg (value (a ++ b)) (x - Z.of_nat (length b)).

(** Texts that can be the beginning of a number *)
Inductive begins_number : list ascii -> Prop :=
| begins_mantissa : forall s neg t a b, sign s neg -> mantissa t a b -> begins_number (s ++ t)
| begins_exponent : forall s neg t a b l s' neg' ds, sign s neg -> mantissa t a b -> a ++ b <> [] ->
    l = "e" \/ l = "E" -> sign s' neg' -> digits ds -> begins_number (s ++ t ++ l :: s' ++ ds).

(** The text [n] followed by [rest] is not the beginning of something longer. *)
Definition ends_number (n rest : list ascii) : Prop :=
  forall c r, rest = c :: r -> ~ begins_number (n ++ [c]).

Section Texts.
  Variable D : Type.
  Variable to_double : bool -> Q -> option D.

  Definition real_text (n : list ascii) (x : D) : Prop :=
    exists neg m e, denotes n neg m e /\ to_double neg (Qred (inject_Z m * Qpower (10 # 1) e)) = Some x.

  (** An integer of 16 bits; negative ones wrap around. *)
  Definition u16_text (n : list ascii) (v : Z) : Prop :=
    exists s neg ds, n = s ++ ds /\ sign s neg /\ digits ds /\ ds <> [] /\ value ds <= 65535 /\
      v = if neg then (65536 - value ds) mod 65536 else value ds.
  Definition ends_digits (rest : list ascii) : Prop := forall c r, rest = c :: r -> ~ digit c.

  (** latitude : longitude *)
  Definition location_text (t : list ascii) (lat lon : D) (rest : list ascii) : Prop :=
    exists w1 n1 w2 w3 n2,
      t = w1 ++ n1 ++ w2 ++ ":" :: w3 ++ n2 ++ rest /\ spaces w1 /\ spaces w2 /\ spaces w3 /\
      real_text n1 lat /\ real_text n2 lon /\ ends_number n2 rest.

  (** altitude : inclination : planes : satellites *)
  Definition orbit_text (t : list ascii) (alt inc : D) (planes sats : Z) (rest : list ascii) : Prop :=
    exists w1 n1 w2 w3 n2 w4 w5 n3 w6 w7 n4,
      t = w1 ++ n1 ++ w2 ++ ":" :: w3 ++ n2 ++ w4 ++ ":" :: w5 ++ n3 ++ w6 ++ ":" :: w7 ++ n4 ++ rest /\
      spaces w1 /\ spaces w2 /\ spaces w3 /\ spaces w4 /\ spaces w5 /\ spaces w6 /\ spaces w7 /\
      real_text n1 alt /\ real_text n2 inc /\ u16_text n3 planes /\ u16_text n4 sats /\ ends_digits rest.

  (** The records of a text up to the first malformed one *)
  Inductive locations : list ascii -> list (D * D) -> list ascii -> Prop :=
  | locations_end : forall t, (forall lat lon r, ~ location_text t lat lon r) -> locations t [] t
  | locations_next : forall t lat lon r l rest, location_text t lat lon r -> locations r l rest ->
      locations t ((lat, lon) :: l) rest.
  Inductive orbits : list ascii -> list (D * D * Z * Z) -> list ascii -> Prop :=
  | orbits_end : forall t, (forall alt inc p s r, ~ orbit_text t alt inc p s r) -> orbits t [] t
  | orbits_next : forall t alt inc p s r l rest, orbit_text t alt inc p s r -> orbits r l rest ->
      orbits t ((alt, inc, p, s) :: l) rest.
End Texts.
