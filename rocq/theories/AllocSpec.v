(** What the allocators should hand out, written as a function of the number of
    the call. *)
Require Import ZArith Reals List.
Require Import Verif.Num Verif.NumR Verif.Vec Verif.AllocModel Verif.GeomSpec.
Import ListNotations.

(** [f 0; f 1; ...; f (n-1)] *)
Definition first_n {A : Type} (n : nat) (f : Z -> A) : list A :=
  map (fun k => f (Z.of_nat k)) (seq 0 n).

(** Slot of the k-th satellite of a constellation with [P] planes of [S]
    satellites: (plane, place in the plane). *)
Definition slot (P S k : Z) : Z * Z := ((k / S) mod P, k mod S)%Z.

(** Row and meridian of the k-th grid point, with [L]+1 rows on each of the [M]
    meridians. *)
Definition grid (L M k : Z) : Z * Z := (k mod (L + 1), (k / (L + 1)) mod M)%Z.

Local Open Scope R_scope.

(** [i] n-ths of a full turn. *)
Definition turn (i n : Z) : R := 2 * PI * (IZR i / IZR n).

(** The vector the circular allocator encodes a slot as. *)
Definition slot_vector (P S : Z) (ps : Z * Z) : point := pt (turn (fst ps) P) (turn (snd ps) S) 0.

(** Radius of the Earth of the ground station code, metres. *)
Definition ground_radius : R := 6371000.

(** Point at polar angle [th] (from the north pole) and longitude [lam]. *)
Definition sphere_point (th lam : R) : point :=
  pt (ground_radius * (sin th * cos lam)) (ground_radius * (sin th * sin lam)) (ground_radius * cos th).

(** Grid point of row [r] of [L] (0 north pole, L south pole) on meridian [c] of [M]. *)
Definition grid_point (L M : Z) (rc : Z * Z) : point :=
  sphere_point (PI * (IZR (fst rc) / IZR L)) (turn (snd rc) M).

(** The point with geographic latitude and longitude in degrees. *)
Definition geographic (lat lon : R) : point :=
  sphere_point (PI / 2 - lat * PI / 180) (lon * PI / 180).

Definition north_pole : point := pt 0 0 ground_radius.
Definition south_pole : point := pt 0 0 (- ground_radius).

Local Open Scope Z_scope.

Definition u16 (x : Z) : Prop := 0 <= x <= 65535.

Section Orbits.
  Variable N : Num.

  (** Orbits that can be installed: the number of satellites fits an int, and the
      inclination is not 0 unless there is no satellite. *)
  Definition installable (o : leoorbit N) : Prop :=
    lo_planes o * lo_sats o <= 2147483647 /\
    (lo_planes o * lo_sats o = 0 \/ neq N (lo_inc o) (nZ N 0) = false).

  (** All satellites of an orbit, plane by plane: (orbit, (plane, place)). *)
  Definition satellites (o : leoorbit N) : list (leoorbit N * (Z * Z)) :=
    first_n (Z.to_nat (lo_planes o * lo_sats o)) (fun k => (o, (k / lo_sats o, k mod lo_sats o))).
End Orbits.
Arguments installable {N} o.
Arguments satellites {N} o.
