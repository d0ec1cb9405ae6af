(** The two propagation loss models, as functions of the two positions:
    model/isl-propagation-loss-model.cc and model/leo-propagation-loss-model.cc.
    MobilityModel::GetPosition is evaluated by the caller of these functions. *)
Require Import ZArith Bool.
Require Import Verif.Num Verif.Vec.
Local Open Scope Z_scope.

Section Loss.
  Variable N : Num.
  Local Notation "a + b" := (nadd N a b).
  Local Notation "a - b" := (nsub N a b).
  Local Notation "a * b" := (nmul N a b).
  Local Notation "a / b" := (ndiv N a b).
  Local Notation "# z" := (nZ N z) (at level 1, z at level 0).

  (** model/isl-propagation-loss-model.h:32 (6.371009e6) *)
  Definition LEO_EARTH_RAD : num N := #6371009.

  (** model/isl-propagation-loss-model.cc:51-97 *)
  Definition GetLos (apos bpos : vec N) : bool :=
    let oc := if nlt N (vlen bpos) (vlen apos) then apos else bpos in
    let bp := if nlt N (vlen bpos) (vlen apos) then bpos else apos in
    let u := vsub bp oc in
    let s2 := vlen u in
    let u := V (vx u / s2) (vy u / s2) (vz u / s2) in
    let a := vx u * vx u + vy u * vy u + vz u * vz u in
    let b := #2 * (vx oc * vx u + vy oc * vy u + vz oc * vz u) in
    let c := (vx oc * vx oc + vy oc * vy oc + vz oc * vz oc)
             - (LEO_EARTH_RAD * LEO_EARTH_RAD) in
    let discriminant := b * b - #4 * a * c in
    if nlt N discriminant #0 then true
    else
      let t1 := (nopp N b - nsqrt N discriminant) / (#2 * a) in
      let t2 := (nopp N b + nsqrt N discriminant) / (#2 * a) in
      nlt N s2 (nabs N t1) && nlt N s2 (nabs N t2).

  (** model/isl-propagation-loss-model.cc:99-111 *)
  Definition IslCalcRxPower (txPowerDbm : num N) (a b : vec N) : num N :=
    if negb (GetLos a b) then nopp N #1000 else txPowerDbm.

  (** The members of LeoPropagationLossModel, leo-propagation-loss-model.cc:40-60.
      The angle is stored in radians. *)
  Record leoloss : Type := mkLeoLoss {
    ll_angle : num N;
    ll_atmospheric : num N;
    ll_freespace : num N;
    ll_margin : num N
  }.

  (** model/leo-propagation-loss-model.h:25 (6.37101e6) *)
  Definition LEO_PROP_EARTH_RAD : num N := #6371010.

  (** model/leo-propagation-loss-model.cc:73-77 *)
  Definition SetElevationAngle (angle : num N) : num N := angle * (npi N / #180).

  (** model/leo-propagation-loss-model.cc:108-112 *)
  Definition GetElevationAngle (m : leoloss) : num N := ll_angle m * (#180 / npi N).

  (** model/leo-propagation-loss-model.cc:79-106 *)
  Definition GetCutoffDistance (m : leoloss) (sat : vec N) : num N :=
    let angle := ll_angle m in
    let hs := vlen sat in
    let a := #1 + ntan N angle * ntan N angle in
    let b := #2 * ntan N angle * hs in
    let c := hs * hs - LEO_PROP_EARTH_RAD * LEO_PROP_EARTH_RAD in
    let disc := b * b + #4 * a * c in
    if nlt N disc #0 then nopp N #1
    else
      let t1 := (nopp N b - nsqrt N disc) / (#2 * a) in
      let t2 := (nopp N b + nsqrt N disc) / (#2 * a) in
      let num1 := len2 t1 (nopp N (ntan N angle) * t1) in
      let num2 := len2 t2 (nopp N (ntan N angle) * t2) in
      nfmin N num1 num2.

  (** model/leo-propagation-loss-model.cc:114-136 *)
  Definition LeoCalcRxPower (m : leoloss) (txPowerDbm : num N) (a b : vec N) : num N :=
    let sat := if nlt N (vlen b) (vlen a) then a else b in
    let distance := vdist a b in
    let cutOff := GetCutoffDistance m sat in
    if nlt N cutOff distance then nopp N #1000
    else txPowerDbm - ll_atmospheric m - ll_freespace m - ll_margin m.
End Loss.
Arguments GetLos {N} apos bpos.
Arguments IslCalcRxPower {N} txPowerDbm a b.
Arguments mkLeoLoss {N} ll_angle ll_atmospheric ll_freespace ll_margin.
Arguments ll_angle {N} l.
Arguments ll_atmospheric {N} l.
Arguments ll_freespace {N} l.
Arguments ll_margin {N} l.
Arguments SetElevationAngle {N} angle.
Arguments GetElevationAngle {N} m.
Arguments GetCutoffDistance {N} m sat.
Arguments LeoCalcRxPower {N} m txPowerDbm a b.
