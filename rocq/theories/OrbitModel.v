(** LeoCircularOrbitMobilityModel: the functions that compute positions and
    velocities, model/leo-circular-orbit-mobility-model.{h,cc}. The scheduling
    part (Update) is in MobilityModel.v. *)
Require Import ZArith.
Require Import Verif.Num Verif.Vec.
Local Open Scope Z_scope.

Section Orbit.
  Variable N : Num.
  Local Notation "a + b" := (nadd N a b).
  Local Notation "a - b" := (nsub N a b).
  Local Notation "a * b" := (nmul N a b).
  Local Notation "a / b" := (ndiv N a b).
  Local Notation "# z" := (nZ N z) (at level 1, z at level 0).

  (** The members m_orbitHeight (km), m_inclination (rad), m_longitude (rad) and
      m_offset (rad), leo-circular-orbit-mobility-model.h:88-112. *)
  Record orbit : Type := mkOrbit {
    o_height : num N;
    o_incl : num N;
    o_lon : num N;
    o_off : num N
  }.

  (** leo-circular-orbit-mobility-model.h:35-36 *)
  Definition LEO_EARTH_RAD_KM : num N := ndec N 63710090 4.
  Definition LEO_EARTH_GM_KM_E10 : num N := ndec N 398600436 7.

  (** model/leo-circular-orbit-mobility-model.cc:92-96 *)
  Definition GetSpeed (o : orbit) : num N :=
    nsqrt N (LEO_EARTH_GM_KM_E10 / o_height o) * #100000.

  (** Simulated time is a Z number of nanoseconds (ns-3's default resolution).
      Time::GetDouble is the number of ticks as a double. *)
  Definition hours24 : Z := 86400000000000.

  (** model/leo-circular-orbit-mobility-model.cc:140-144; [now] is
      Simulator::Now (). *)
  Definition CalcLatitude (o : orbit) (now : Z) : num N :=
    o_lon o + (#now / #hours24) * #2 * npi N.

  (** model/leo-circular-orbit-mobility-model.cc:107-114 *)
  Definition PlaneNorm (o : orbit) (now : Z) : vec N :=
    let lat := CalcLatitude o now in
    V (nsin N (nopp N (o_incl o)) * ncos N lat)
      (nsin N (nopp N (o_incl o)) * nsin N lat)
      (ncos N (o_incl o)).

  (** Time::GetSeconds: ticks / 1e9 (one rounding; ns-3 goes through int64x64). *)
  Definition seconds (t : Z) : num N := #t / #1000000000.

  (** model/leo-circular-orbit-mobility-model.cc:116-128. [sign] is an int there,
      converted to double by the multiplication. *)
  Definition progress_sign (o : orbit) : Z :=
    if nlt N (npi N / #2) (o_incl o) then (-1) else 1.

  Definition GetProgress (o : orbit) (t : Z) : num N :=
    #(progress_sign o) * ((GetSpeed o * seconds t) / (LEO_EARTH_RAD_KM * #1000)) + o_off o.

  (** model/leo-circular-orbit-mobility-model.cc:130-138 *)
  Definition RotatePlane (o : orbit) (now : Z) (a : num N) (x : vec N) : vec N :=
    let n := PlaneNorm o now in
    vadd (vadd (Product (DotProduct n x) n)
               (Product (ncos N a) (CrossProduct (CrossProduct n x) n)))
         (Product (nsin N a) (CrossProduct n x)).

  (** model/leo-circular-orbit-mobility-model.cc:146-156; called with t = now
      everywhere, but the latitude always uses Simulator::Now (). *)
  Definition CalcPosition (o : orbit) (now t : Z) : vec N :=
    let lat := CalcLatitude o now in
    let x := Product (o_height o * #1000)
                     (V (ncos N (o_incl o) * ncos N lat)
                        (ncos N (o_incl o) * nsin N lat)
                        (nsin N (o_incl o))) in
    RotatePlane o now (GetProgress o t) x.

  (** model/leo-circular-orbit-mobility-model.cc:98-105, for the position [pos]
      returned by DoGetPosition. *)
  Definition VelocityAt (o : orbit) (now : Z) (pos : vec N) : vec N :=
    let u := V (vx pos / vlen pos) (vy pos / vlen pos) (vz pos / vlen pos) in
    let heading := CrossProduct (PlaneNorm o now) u in
    Product (GetSpeed o) heading.

  (** model/leo-circular-orbit-mobility-model.cc:194-197, 201, 205-208, 213 *)
  Definition AltitudeOf (height : num N) : num N := height - LEO_EARTH_RAD_KM.
  Definition HeightOf (h : num N) : num N := LEO_EARTH_RAD_KM + h.
  Definition DegreesOf (incl : num N) : num N := (incl / npi N) * #180.
  Definition RadiansOf (incl : num N) : num N := (incl / #180) * npi N.
End Orbit.
Arguments mkOrbit {N} o_height o_incl o_lon o_off.
Arguments o_height {N} o.
Arguments o_incl {N} o.
Arguments o_lon {N} o.
Arguments o_off {N} o.
Arguments GetSpeed {N} o.
Arguments CalcLatitude {N} o now.
Arguments PlaneNorm {N} o now.
Arguments progress_sign {N} o.
Arguments GetProgress {N} o t.
Arguments RotatePlane {N} o now a x.
Arguments CalcPosition {N} o now t.
Arguments VelocityAt {N} o now pos.
Arguments AltitudeOf {N} height.
Arguments HeightOf {N} h.
Arguments DegreesOf {N} incl.
Arguments RadiansOf {N} incl.
