(** The two position allocators and the node helpers that use them:
    model/leo-circular-orbit-position-allocator.{h,cc},
    model/leo-polar-position-allocator.{h,cc}, helper/leo-orbit-node-helper.cc,
    helper/ground-node-helper.cc. Unsigned integers are Z values; wrap-around is
    explicit where it can happen. *)
Require Import ZArith List Bool.
Require Import Verif.Base Verif.Num Verif.Vec Verif.OrbitModel Verif.MobilityModel.
Import ListNotations.
Local Open Scope Z_scope.
Local Open Scope res_scope.

Section Alloc.
  Variable N : Num.
  Local Notation "a * b" := (nmul N a b).
  Local Notation "a / b" := (ndiv N a b).
  Local Notation "# z" := (nZ N z) (at level 1, z at level 0).

  (** model/leo-circular-orbit-position-allocator.h:65-72 (uint64_t members) *)
  Record circ : Type := mkCirc {
    c_numOrbits : Z;
    c_numSats : Z;
    c_lastOrbit : Z;
    c_lastSat : Z
  }.

  (** model/leo-circular-orbit-position-allocator.cc:28-30 and the two
      attributes, :42-51 *)
  Definition circ_new (orbits sats : Z) : circ := mkCirc orbits sats 0 0.

  Definition wrap64 (x : Z) : Z := Z.modulo x 18446744073709551616.
  Definition wrap32 (x : Z) : Z := Z.modulo x 4294967296.

  (** model/leo-circular-orbit-position-allocator.cc:62-76. The members are
      mutable, so the new state is returned. *)
  Definition CircGetNext (c : circ) : res (vec N * circ) :=
    let next := V (#2 * npi N * (#(c_lastOrbit c) / #(c_numOrbits c)))
                  (#2 * npi N * (#(c_lastSat c) / #(c_numSats c)))
                  #0 in
    let* o := (if wrap64 (c_lastSat c + 1) =? c_numSats c
               then if c_numOrbits c =? 0 then UB DivByZero
                    else Ok (Z.modulo (wrap64 (c_lastOrbit c + 1)) (c_numOrbits c))
               else Ok (c_lastOrbit c)) in
    if c_numSats c =? 0 then UB DivByZero
    else Ok (next, mkCirc (c_numOrbits c) (c_numSats c) o
                          (Z.modulo (wrap64 (c_lastSat c + 1)) (c_numSats c))).

  (** model/leo-polar-position-allocator.h:58-65 (uint32_t members) *)
  Record polar : Type := mkPolar {
    p_latNum : Z;
    p_lonNum : Z;
    p_lat : Z;
    p_lon : Z
  }.

  (** model/leo-polar-position-allocator.cc:33-35 and the attributes, :47-56 *)
  Definition polar_new (lat lon : Z) : polar := mkPolar lat lon 0 0.

  (** model/leo-polar-position-allocator.h:24 (6.371e6) *)
  Definition LEO_GND_RAD_EARTH : num N := #6371000.

  (** model/leo-polar-position-allocator.cc:69-90 *)
  Definition PolarGetNext (p : polar) : res (vec N * polar) :=
    let lat := #(p_lat p) * (npi N / #(p_latNum p)) in
    let lon := #(p_lon p) * (#2 * npi N / #(p_lonNum p)) in
    let next := V (LEO_GND_RAD_EARTH * nsin N lat * ncos N lon)
                  (LEO_GND_RAD_EARTH * nsin N lat * nsin N lon)
                  (LEO_GND_RAD_EARTH * ncos N lat) in
    let lat1 := wrap32 (p_lat p + 1) in
    if p_latNum p <? lat1
    then if p_lonNum p =? 0 then UB DivByZero
         else Ok (next, mkPolar (p_latNum p) (p_lonNum p) 0
                                (Z.modulo (wrap32 (p_lon p + 1)) (p_lonNum p)))
    else Ok (next, mkPolar (p_latNum p) (p_lonNum p) lat1 (p_lon p)).

  (** [n] calls of GetNext in a row. *)
  Fixpoint circ_calls (n : nat) (c : circ) : res (list (vec N) * circ) :=
    match n with
    | O => Ok ([], c)
    | S n' => let* (v, c1) := CircGetNext c in
              let* (l, c2) := circ_calls n' c1 in
              Ok (v :: l, c2)
    end.
  Fixpoint polar_calls (n : nat) (p : polar) : res (list (vec N) * polar) :=
    match n with
    | O => Ok ([], p)
    | S n' => let* (v, p1) := PolarGetNext p in
              let* (l, p2) := polar_calls n' p1 in
              Ok (v :: l, p2)
    end.

  (** model/leo-orbit.h:57-76; planes and sats are uint16_t. *)
  Record leoorbit : Type := mkLeoOrbit {
    lo_alt : num N;
    lo_inc : num N;
    lo_planes : Z;
    lo_sats : Z
  }.

  (** The initial value of the attribute Precision: 1 s unless a program sets
      another default, model/leo-circular-orbit-mobility-model.cc:52-54. *)
  Variable precision : Z.
  Variable junk : vec N.

  (** ns-3 mobility, MobilityHelper::Install (Ptr<Node>) for a node without
      mobility model: create the model with its attributes, ask the allocator for
      a position, SetPosition. Not in /repo. *)
  Definition install_sat (now : Z) (alt inc : num N) (c : circ) : res (mob N * circ) :=
    let* (s, u) := construct junk now alt inc precision in
    let* (v, c') := CircGetNext c in
    Ok (fst (DoSetPosition junk s v), c').

  Fixpoint install_sats (now : Z) (alt inc : num N) (n : nat) (c : circ) : res (list (mob N)) :=
    match n with
    | O => Ok []
    | S n' => let* (s, c1) := install_sat now alt inc c in
              let* l := install_sats now alt inc n' c1 in
              Ok (s :: l)
    end.

  (** helper/leo-orbit-node-helper.cc:52-70. orbit.sats*orbit.planes is computed
      in int. A node is represented by its mobility model. m_nodeFactory is not
      used by this function. *)
  Definition InstallOrbit (now : Z) (o : leoorbit) : res (list (mob N)) :=
    let n := Z.mul (lo_sats o) (lo_planes o) in
    if 2147483647 <? n then UB IntOverflow
    else install_sats now (lo_alt o) (lo_inc o) (Z.to_nat n) (circ_new (lo_planes o) (lo_sats o)).

  (** helper/leo-orbit-node-helper.cc:93-108, and :72-91 for the orbits read from
      the file. *)
  Fixpoint InstallOrbits (now : Z) (l : list leoorbit) : res (list (mob N)) :=
    match l with
    | [] => Ok []
    | o :: r => let* a := InstallOrbit now o in
                let* b := InstallOrbits now r in
                Ok (a ++ b)
    end.

  (** helper/ground-node-helper.cc:79-96. lonNodes * latNodes is computed in
      uint32_t; i is a uint64_t, so that the loop ends. A ground node is
      represented by its constant position. *)
  Definition InstallGrid (latNodes lonNodes : Z) : res (list (vec N)) :=
    let n := wrap32 (Z.mul lonNodes latNodes) in
    let* (l, _) := polar_calls (Z.to_nat n) (polar_new latNodes lonNodes) in
    Ok l.

  (** model/leo-lat-long.h:36-52 *)
  Record latlong : Type := mkLatLong { ll_lat : num N; ll_lon : num N }.

  (** helper/ground-node-helper.cc:98-107 *)
  Definition GetEarthPosition (loc : latlong) : vec N :=
    let lat := ll_lat loc * (npi N / #90) in
    let lon := ll_lon loc * (npi N / #180) in
    V (LEO_GND_RAD_EARTH * nsin N lat * ncos N lon)
      (LEO_GND_RAD_EARTH * nsin N lat * nsin N lon)
      (LEO_GND_RAD_EARTH * ncos N lat).

  (** helper/ground-node-helper.cc:53-77, for the locations read from the file *)
  Fixpoint InstallLocations (l : list latlong) : list (vec N) :=
    match l with
    | [] => []
    | loc :: r => GetEarthPosition loc :: InstallLocations r
    end.

  (** helper/ground-node-helper.cc:109-131 *)
  Definition InstallPair (l1 l2 : latlong) : list (vec N) := InstallLocations [l1; l2].
End Alloc.
Arguments CircGetNext {N} c.
Arguments PolarGetNext {N} p.
Arguments circ_calls {N} n c.
Arguments polar_calls {N} n p.
Arguments mkLeoOrbit {N}.
Arguments lo_alt {N} l.
Arguments lo_inc {N} l.
Arguments lo_planes {N} l.
Arguments lo_sats {N} l.
Arguments install_sat {N} precision junk now alt inc c.
Arguments install_sats {N} precision junk now alt inc n c.
Arguments InstallOrbit {N} precision junk now o.
Arguments InstallOrbits {N} precision junk now l.
Arguments InstallGrid {N} latNodes lonNodes.
Arguments mkLatLong {N}.
Arguments ll_lat {N} l.
Arguments ll_lon {N} l.
Arguments GetEarthPosition {N} loc.
Arguments InstallLocations {N} l.
Arguments InstallPair {N} l1 l2.
