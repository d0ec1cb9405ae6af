(** LeoCircularOrbitMobilityModel as an object living in the simulator:
    attribute setters, the cached position and the self-rescheduling Update,
    model/leo-circular-orbit-mobility-model.cc:52-64, 158-215. *)
Require Import ZArith List Bool.
Require Import Verif.Base Verif.Num Verif.Vec Verif.OrbitModel.
Import ListNotations.
Local Open Scope Z_scope.
Local Open Scope res_scope.

Section Mobility.
  Variable N : Num.

  (** The members of the object (leo-circular-orbit-mobility-model.h:88-126), the
      simulator clock, the times of the pending Update events of this object, and
      the times at which CourseChange was fired (newest first). [None] is an
      uninitialised double: the constructor (:61) initialises neither
      m_orbitHeight nor m_inclination. *)
  Record mob : Type := mkMob {
    m_height : option (num N);
    m_incl : option (num N);
    m_lon : num N;
    m_off : num N;
    m_position : vec N;
    m_precision : Z;
    s_now : Z;
    s_pending : list Z;
    s_notified : list Z
  }.

  Definition orbit_of (s : mob) : option (orbit N) :=
    match m_height s, m_incl s with
    | Some h, Some i => Some (mkOrbit h i (m_lon s) (m_off s))
    | _, _ => None
    end.

  (** What reading uninitialised members yields: an arbitrary position. *)
  Variable junk : vec N.

  (** model/leo-circular-orbit-mobility-model.cc:158-169. The result also tells
      whether an uninitialised member was read (undefined behaviour in C++; the
      model goes on with an arbitrary position, as the compiled code does). *)
  Definition position_now (s : mob) : vec N * bool :=
    match orbit_of s with
    | Some o => (CalcPosition o (s_now s) (s_now s), false)
    | None => (junk, true)
    end.

  Definition Update (s : mob) : mob * bool :=
    let (p, uninit) := position_now s in
    (mkMob (m_height s) (m_incl s) (m_lon s) (m_off s)
           p (m_precision s) (s_now s)
           (if 0 <? m_precision s then s_pending s ++ [s_now s + m_precision s] else s_pending s)
           (s_now s :: s_notified s),
     uninit).

  (** model/leo-circular-orbit-mobility-model.cc:171-180 *)
  Definition DoGetPosition (s : mob) : vec N :=
    if m_precision s =? 0 then fst (position_now s) else m_position s.

  (** model/leo-circular-orbit-mobility-model.cc:182-192 *)
  Definition DoSetPosition (s : mob) (p : vec N) : mob * bool :=
    Update (mkMob (m_height s) (m_incl s) (vx p) (vy p) (m_position s) (m_precision s)
                  (s_now s) (s_pending s) (s_notified s)).

  (** model/leo-circular-orbit-mobility-model.cc:199-203 *)
  Definition SetAltitude (s : mob) (h : num N) : mob * bool :=
    Update (mkMob (Some (HeightOf h)) (m_incl s) (m_lon s) (m_off s) (m_position s) (m_precision s)
                  (s_now s) (s_pending s) (s_notified s)).

  (** model/leo-circular-orbit-mobility-model.cc:210-215 *)
  Definition SetInclination (s : mob) (incl : num N) : res (mob * bool) :=
    if neq N incl (nZ N 0) then Abort AssertFailed
    else Ok (Update (mkMob (m_height s) (Some (RadiansOf incl)) (m_lon s) (m_off s) (m_position s)
                           (m_precision s) (s_now s) (s_pending s) (s_notified s))).

  (** Attribute Precision, :52-56: a plain member accessor, no Update. *)
  Definition SetPrecision (s : mob) (p : Z) : mob :=
    mkMob (m_height s) (m_incl s) (m_lon s) (m_off s) (m_position s) p
          (s_now s) (s_pending s) (s_notified s).

  (** model/leo-circular-orbit-mobility-model.cc:194-197, 205-208 *)
  Definition GetAltitude (s : mob) : option (num N) := option_map AltitudeOf (m_height s).
  Definition GetInclination (s : mob) : option (num N) := option_map DegreesOf (m_incl s).

  (** Constructor (:61); m_precision is a default-constructed Time, i.e. 0. *)
  Definition fresh (now : Z) : mob :=
    mkMob None None (nZ N 0) (nZ N 0) (V (nZ N 0) (nZ N 0) (nZ N 0)) 0 now [] [].

  (** ObjectBase::ConstructSelf of ns-3 core sets the attributes in the order of
      their registration: Altitude, Inclination, Precision (:39-56). *)
  Definition construct (now : Z) (alt incl : num N) (precision : Z) : res (mob * bool) :=
    let (s1, u1) := SetAltitude (fresh now) alt in
    let* (s2, u2) := SetInclination s1 incl in
    Ok (SetPrecision s2 precision, u1 || u2).

  (** One step of the life of the object after its construction. *)
  Inductive mop : Type :=
  | OSetPosition (p : vec N)
  | OSetAltitude (h : num N)
  | OSetInclination (i : num N)
  | OSetPrecision (p : Z)
  | OAdvance (t : Z)    (* the clock moves to t without passing a pending Update *)
  | OFire.              (* the simulator runs the earliest pending Update *)

  Definition set_now (s : mob) (t : Z) : mob :=
    mkMob (m_height s) (m_incl s) (m_lon s) (m_off s) (m_position s) (m_precision s)
          t (s_pending s) (s_notified s).

  Definition set_pending (s : mob) (l : list Z) : mob :=
    mkMob (m_height s) (m_incl s) (m_lon s) (m_off s) (m_position s) (m_precision s)
          (s_now s) l (s_notified s).

  (** Earliest element of a list, and the list without (its first occurrence of) it. *)
  Fixpoint earliest (t : Z) (l : list Z) : Z :=
    match l with
    | [] => t
    | x :: r => earliest (Z.min t x) r
    end.
  Fixpoint remove_one (t : Z) (l : list Z) : list Z :=
    match l with
    | [] => []
    | x :: r => if t =? x then r else x :: remove_one t r
    end.

  (** An impossible clock move and firing without pending update do nothing. *)
  Definition mstep (s : mob) (op : mop) : res mob :=
    match op with
    | OSetPosition p => Ok (fst (DoSetPosition s p))
    | OSetAltitude h => Ok (fst (SetAltitude s h))
    | OSetInclination i => let* r := SetInclination s i in Ok (fst r)
    | OSetPrecision p => Ok (SetPrecision s p)
    | OAdvance t =>
        if (s_now s <=? t) && forallb (fun x => t <=? x) (s_pending s)
        then Ok (set_now s t) else Ok s
    | OFire =>
        match s_pending s with
        | [] => Ok s
        | x :: r =>
            let t := earliest x r in
            Ok (fst (Update (set_now (set_pending s (remove_one t (s_pending s))) t)))
        end
    end.

  Fixpoint mrun (s : mob) (ops : list mop) : res mob :=
    match ops with
    | [] => Ok s
    | op :: r => let* s' := mstep s op in mrun s' r
    end.

  (** DoGetVelocity (:98-105) on the current state; only meaningful on an
      initialised object. *)
  Definition DoGetVelocity (s : mob) : option (vec N) :=
    option_map (fun o => VelocityAt o (s_now s) (DoGetPosition s)) (orbit_of s).
End Mobility.
Arguments mkMob {N}.
Arguments m_height {N} m.
Arguments m_incl {N} m.
Arguments m_lon {N} m.
Arguments m_off {N} m.
Arguments m_position {N} m.
Arguments m_precision {N} m.
Arguments s_now {N} m.
Arguments s_pending {N} m.
Arguments s_notified {N} m.
Arguments orbit_of {N} s.
Arguments position_now {N} junk s.
Arguments Update {N} junk s.
Arguments DoGetPosition {N} junk s.
Arguments DoSetPosition {N} junk s p.
Arguments SetAltitude {N} junk s h.
Arguments SetInclination {N} junk s incl.
Arguments SetPrecision {N} s p.
Arguments GetAltitude {N} s.
Arguments GetInclination {N} s.
Arguments fresh {N} now.
Arguments construct {N} junk now alt incl precision.
Arguments OSetPosition {N} p.
Arguments OSetAltitude {N} h.
Arguments OSetInclination {N} i.
Arguments OSetPrecision {N} p.
Arguments OAdvance {N} t.
Arguments OFire {N}.
Arguments set_now {N} s t.
Arguments set_pending {N} s l.
Arguments mstep {N} junk s op.
Arguments mrun {N} junk s ops.
Arguments DoGetVelocity {N} junk s.
