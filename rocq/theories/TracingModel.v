(** The program examples/leo-circular-orbit-tracing-example.cc: a constellation is
    installed and every later course change is printed until the simulation is
    stopped. Not modelled: the command line, and whether the lines go to the
    standard output or to --traceFile (:63-70). Times do not overflow. *)
Require Import Ascii String ZArith QArith List Bool.
Require Import Verif.Base Verif.Num Verif.Vec Verif.OrbitModel Verif.MobilityModel Verif.AllocModel Verif.ParseModel.
Import ListNotations.
Local Open Scope Z_scope.

(** :72 *)
Definition csv_header : list ascii := list_ascii_of_string "Time,Satellite,x,y,z,Speed".

Section Tracing.
  Variable N : Num.
  (** A double rounded to six significant digits, as in ParseModel. *)
  Variable six_digits : num N -> bool * Z * Z.
  (** ns-3 core, operator << of Time; its format depends on the version. Not in /repo. *)
  Variable show_time : Z -> list ascii.
  Variable junk : vec N.

  (** The events of the simulator: the Update of a satellite, and Simulator::Stop. *)
  Inductive event : Type := EUpdate (i : nat) | EStop.

  (** The mobility models of the nodes 0, 1, ... and the pending events, in the
      order in which they will run. The clock of the simulator is the [s_now] of
      the mobility model that is running. *)
  Record sim : Type := mkSim { sim_nodes : list (mob N); sim_events : list (Z * event) }.

  (** ns-3 core, Simulator::Schedule: events of equal time run in the order in
      which they were scheduled. Not in /repo. *)
  Fixpoint schedule (t : Z) (e : event) (q : list (Z * event)) : list (Z * event) :=
    match q with
    | [] => [(t, e)]
    | (t', e') :: r => if t <? t' then (t, e) :: q else (t', e') :: schedule t e r
    end.
  Definition schedule_updates (i : nat) (ts : list Z) (q : list (Z * event)) : list (Z * event) :=
    fold_left (fun q t => schedule t (EUpdate i) q) ts q.

  (** The events the installation of the nodes has left behind: it creates one
      satellite after the other (helper/leo-orbit-node-helper.cc:65-67). *)
  Fixpoint installed_events (i : nat) (nodes : list (mob N)) (q : list (Z * event)) : list (Z * event) :=
    match nodes with
    | [] => q
    | s :: r => installed_events (S i) r (schedule_updates i (s_pending s) q)
    end.

  (** CourseChange, :29-34. Reading an uninitialised orbit would be undefined. *)
  Definition CourseChange (i : nat) (s : mob N) : res (list ascii) :=
    let pos := DoGetPosition junk s in
    match DoGetVelocity junk s with
    | None => UB Uninit
    | Some v =>
        Ok (show_time (s_now s) ++ ":"%char :: show (Z.of_nat i) ++
            ":"%char :: put_double six_digits (vx pos) ++ ":"%char :: put_double six_digits (vy pos) ++
            ":"%char :: put_double six_digits (vz pos) ++ ":"%char :: put_double six_digits (vlen v))%list
    end.

  Fixpoint set_nth (i : nat) (s : mob N) (l : list (mob N)) : list (mob N) :=
    match i, l with
    | O, _ :: r => s :: r
    | S j, x :: r => x :: set_nth j s r
    | _, [] => []
    end.

  (** The simulator runs the Update of node [i] at time [t]
      (model/leo-circular-orbit-mobility-model.cc:158-169), whose notification
      prints a line. [q] are the remaining events. *)
  Definition fire (t : Z) (i : nat) (nodes : list (mob N)) (q : list (Z * event)) : res (list ascii * sim) :=
    match nth_error nodes i with
    | None => UB NullDeref
    | Some s =>
        let s1 := set_now (set_pending s (remove_one t (s_pending s))) t in
        let s2 := fst (Update junk s1) in
        bind (CourseChange i s2) (fun line =>
        Ok (line, mkSim (set_nth i s2 nodes) (schedule_updates i (skipn (length (s_pending s1)) (s_pending s2)) q)))
    end.

  (** Simulator::Run, :75: the lines printed and how the run ends. A run that
      never ends has no outcome. *)
  Inductive run : sim -> list (list ascii) -> res unit -> Prop :=
  | run_empty : forall nodes, run (mkSim nodes []) [] (Ok tt)
  | run_stop : forall nodes t q, run (mkSim nodes ((t, EStop) :: q)) [] (Ok tt)
  | run_update : forall nodes t i q line st out r, fire t i nodes q = Ok (line, st) -> run st out r ->
      run (mkSim nodes ((t, EUpdate i) :: q)) (line :: out) r
  | run_abort : forall nodes t i q w, fire t i nodes q = Abort w -> run (mkSim nodes ((t, EUpdate i) :: q)) [] (Abort w)
  | run_ub : forall nodes t i q w, fire t i nodes q = UB w -> run (mkSim nodes ((t, EUpdate i) :: q)) [] (UB w).

  (** Whether Config::Connect is content with a path that matches nothing, i.e.
      if there is no satellite; this depends on the version of ns-3. *)
  Variable connect_nothing : bool.

  (** :60-80 after the installation. The installation has notified the course
      changes of time 0 before Connect (:60), which are not printed. The header
      is printed (:72) before Simulator::Stop (:74), which aborts for a negative
      duration. *)
  Definition traced (duration : Z) (nodes : list (mob N)) (out : list (list ascii)) (r : res unit) : Prop :=
    if negb connect_nothing && match nodes with [] => true | _ => false end then out = [] /\ r = Abort AssertFailed
    else if duration <? 0 then out = [csv_header] /\ r = Abort NegativeDelay
    else exists lines, out = csv_header :: lines /\
      run (mkSim nodes (schedule duration EStop (installed_events 0 nodes []))) lines r.

  (** The lines the program writes, given the orbits, the value of --precision and
      the value of --duration. *)
  Definition tracing (precision duration : Z) (orbits : list (leoorbit N)) (out : list (list ascii)) (r : res unit) : Prop :=
    match InstallOrbits precision junk 0 orbits with
    | Ok nodes => traced duration nodes out r
    | Abort w => out = [] /\ r = Abort w
    | UB w => out = [] /\ r = UB w
    end.

  (** :56-57: the orbits without --orbitFile. *)
  Definition default_orbits : list (leoorbit N) :=
    [mkLeoOrbit (nZ N 1200) (nZ N 20) 32 16; mkLeoOrbit (nZ N 1180) (nZ N 30) 12 10].

  Variable to_double : bool -> Q -> option (num N).
  Variable failed_double : list ascii -> num N.
  Variable junk_char : ascii.

  (** main, :36-80. [None]: no --orbitFile; [Some contents]: the contents of the
      file, if it can be opened. *)
  Definition tracing_main (precision duration : Z) (orbitFile : option (option (list ascii)))
      (out : list (list ascii)) (r : res unit) : Prop :=
    match orbitFile with
    | None => tracing precision duration default_orbits out r
    | Some contents =>
        exists nodes, InstallOrbitFile N to_double failed_double junk_char precision junk 0 contents nodes /\
          match nodes with
          | Ok nodes => traced duration nodes out r
          | Abort w => out = [] /\ r = Abort w
          | UB w => out = [] /\ r = UB w
          end
    end.
End Tracing.
Arguments mkSim {N}. Arguments sim_nodes {N}. Arguments sim_events {N}.
Arguments installed_events {N}. Arguments CourseChange {N}. Arguments set_nth {N}. Arguments fire {N}. Arguments run {N}.
Arguments traced {N}. Arguments tracing {N}. Arguments tracing_main {N}.
