(** ns-3's Vector3D and the free vector functions of the module. *)
Require Import ZArith.
Require Import Verif.Num.

Record vec (N : Num) : Type := V { vx : num N; vy : num N; vz : num N }.
Arguments V {N} vx vy vz.
Arguments vx {N} v.
Arguments vy {N} v.
Arguments vz {N} v.

Section Vec.
  Variable N : Num.
  Local Notation "a + b" := (nadd N a b).
  Local Notation "a - b" := (nsub N a b).
  Local Notation "a * b" := (nmul N a b).

  (** ns-3 core, src/core/model/vector.cc: Vector3D::GetLength,
      std::sqrt (x * x + y * y + z * z). Not in /repo. *)
  Definition vlen (v : vec N) : num N :=
    nsqrt N (vx v * vx v + vy v * vy v + vz v * vz v).

  (** ns-3 core: operator + and operator - of Vector3D. Not in /repo. *)
  Definition vadd (a b : vec N) : vec N := V (vx a + vx b) (vy a + vy b) (vz a + vz b).
  Definition vsub (a b : vec N) : vec N := V (vx a - vx b) (vy a - vy b) (vz a - vz b).

  (** ns-3 core: Vector2D::GetLength. Not in /repo. *)
  Definition len2 (x y : num N) : num N := nsqrt N (x * x + y * y).

  (** ns-3 mobility: MobilityModel::GetDistanceFrom / CalculateDistance (a, b)
      = (b - a).GetLength (). Not in /repo. *)
  Definition vdist (a b : vec N) : num N := vlen (vsub b a).

  (** model/leo-circular-orbit-mobility-model.cc:70-76 *)
  Definition CrossProduct (l r : vec N) : vec N :=
    V (vy l * vz r - vz l * vy r)
      (vz l * vx r - vx l * vz r)
      (vx l * vy r - vy l * vx r).

  (** model/leo-circular-orbit-mobility-model.cc:78-84 *)
  Definition Product (l : num N) (r : vec N) : vec N :=
    V (l * vx r) (l * vy r) (l * vz r).

  (** model/leo-circular-orbit-mobility-model.cc:86-90 *)
  Definition DotProduct (l r : vec N) : num N :=
    (vx l * vx r) + (vy l * vy r) + (vz l * vz r).
End Vec.
Arguments vlen {N} v.
Arguments vadd {N} a b.
Arguments vsub {N} a b.
Arguments len2 {N} x y.
Arguments vdist {N} a b.
Arguments CrossProduct {N} l r.
Arguments Product {N} l r.
Arguments DotProduct {N} l r.
