(** C07-C10: the mobility object in the simulator. The theorems hold for every
    arithmetic [N], in particular for the reals and for binary64. *)
Require Import ZArith Reals Lra Lia List.
Require Import Verif.Base Verif.Num Verif.NumR Verif.Vec Verif.OrbitModel Verif.MobilityModel
  Verif.GeomSpec Verif.OrbitSpec Verif.MobilitySpec Verif.OrbitApiSpec
  Verif.MobilityProofs Verif.OrbitProofs Verif.OrbitApiProofs.
Import ListNotations.
Local Open Scope Z_scope.

(** ** C07 *)
Theorem C07_bounded_staleness : forall N (junk : vec N) now0 alt incl prec ops s,
  0 < prec -> keeps_precision ops -> existsb is_setter ops = true ->
  reached junk now0 alt incl prec ops s ->
  exists t, s_now s - prec <= t <= s_now s /\
    DoGetPosition junk s =
    CalcPosition (mkOrbit (HeightOf (last_altitude alt ops))
                          (RadiansOf (last_inclination incl ops))
                          (fst (last_start (nZ N 0, nZ N 0) ops))
                          (snd (last_start (nZ N 0, nZ N 0) ops))) t t.
Proof. exact reached_staleness. Qed.
Print Assumptions C07_bounded_staleness.

(** The same over the reals, against the path of the specification. *)
Theorem C07_bounded_staleness_path : forall (junk : point) now0 (alt incl : R) prec ops (s : mob NumR),
  0 < prec -> keeps_precision ops -> existsb is_setter ops = true ->
  reached junk now0 alt incl prec ops s ->
  exists t, s_now s - prec <= t <= s_now s /\ DoGetPosition junk s = path alt incl ops (sec t).
Proof. exact api_staleness. Qed.
Print Assumptions C07_bounded_staleness_path.

(** Both hypotheses on the history are needed: without a call after construction
    the position is never updated, ... *)
Theorem C07_no_update_without_call : forall N (junk : vec N) now0 alt incl prec ops s,
  0 < prec -> keeps_precision ops ->
  forallb (fun op => negb (is_setter op)) ops = true ->
  reached junk now0 alt incl prec ops s ->
  DoGetPosition junk s =
    CalcPosition (mkOrbit (HeightOf alt) (RadiansOf incl) (nZ N 0) (nZ N 0)) now0 now0 /\
  s_pending s = [].
Proof. exact reached_no_setter. Qed.
Print Assumptions C07_no_update_without_call.

(** ... and switching Precision off and on again stops the updates for ever. *)
Theorem C07_toggled_precision_refuted : forall N (junk : vec N) alt incl (p : vec N) prec later,
  0 < prec -> prec <= later -> neq N incl (nZ N 0) = false ->
  exists ops s, reached junk 0 alt incl prec ops s /\ existsb is_setter ops = true /\
    s_now s = later /\ m_precision s = prec /\
    DoGetPosition junk s = CalcPosition (mkOrbit (HeightOf alt) (RadiansOf incl) (vx p) (vy p)) prec prec.
Proof.
  intros N junk alt incl p prec later H1 H2 H3. exists (toggle_ops N p prec later).
  destruct (toggle_stale N junk alt incl p prec later H1 H2 H3) as (s & A & B & C & D).
  exists s. auto.
Qed.
Print Assumptions C07_toggled_precision_refuted.

(** ** C08 *)
Theorem C08_zero_precision_exact : forall N (junk : vec N) now0 alt incl ops s,
  keeps_precision ops -> reached junk now0 alt incl 0 ops s ->
  s_pending s = [] /\
  DoGetPosition junk s =
    CalcPosition (mkOrbit (HeightOf (last_altitude alt ops))
                          (RadiansOf (last_inclination incl ops))
                          (fst (last_start (nZ N 0, nZ N 0) ops))
                          (snd (last_start (nZ N 0, nZ N 0) ops))) (s_now s) (s_now s).
Proof. exact reached_zero. Qed.
Print Assumptions C08_zero_precision_exact.

Theorem C08_zero_precision_path : forall (junk : point) now0 (alt incl : R) ops (s : mob NumR),
  keeps_precision ops -> reached junk now0 alt incl 0 ops s ->
  s_pending s = [] /\ DoGetPosition junk s = path alt incl ops (sec (s_now s)).
Proof. exact api_zero. Qed.
Print Assumptions C08_zero_precision_path.

(** ** C09: [call_times] are the instants of the setter calls of the history;
    2 notifications come from the construction itself. *)
Theorem C09_notifications : forall N (junk : vec N) now0 alt incl prec ops s s0 u,
  0 < prec -> keeps_precision ops ->
  construct junk now0 alt incl prec = Ok (s0, u) -> mrun junk s0 ops = Ok s ->
  length (s_pending s) = length (call_times junk s0 ops) /\
  (Forall (fun x => s_now s < x) (s_pending s) ->
   Z.of_nat (length (s_notified s)) = 2 + sumZ (map (firings prec (s_now s)) (call_times junk s0 ops))).
Proof. exact reached_notifications. Qed.
Print Assumptions C09_notifications.

Definition ex9_ops (N : Num) (p : vec N) (h : num N) : list (mop N) :=
  [OSetPosition p; OFire; OFire; OSetAltitude h; OFire; OFire].

(** Two calls: two sequences, 8 notifications after 3 s. *)
Example ex9 : forall N (junk p : vec N) alt incl h, neq N incl (nZ N 0) = false ->
  exists s0 u s,
  construct junk 0 alt incl 1000000000 = Ok (s0, u) /\
  mrun junk s0 (ex9_ops N p h) = Ok s /\ keeps_precision (ex9_ops N p h) /\
  existsb is_setter (ex9_ops N p h) = true /\
  call_times junk s0 (ex9_ops N p h) = [0; 2000000000] /\
  s_now s = 3000000000 /\ s_pending s = [4000000000; 4000000000] /\ length (s_notified s) = 8%nat.
Proof.
  intros N junk p alt incl h Hi. eexists _, _, _.
  split; [apply construct_ok; exact Hi|].
  split; [vm_compute; reflexivity|]. split; [intros q; cbn; intuition discriminate|].
  split; [reflexivity|]. split; [reflexivity|]. split; [reflexivity|]. split; reflexivity.
Qed.
Example ex9_firings : sumZ (map (firings 1000000000 3000000000) [0; 2000000000]) = 6.
Proof. reflexivity. Qed.
Example ex9_inclination : neq NumR 53%R (nZ NumR 0) = false.
Proof. apply Reqb_false. change (53 <> 0)%R. lra. Qed.

(** ** C10 *)
Theorem C10_construction : forall N (junk : vec N) now alt incl prec,
  (neq N incl (nZ N 0) = false ->
   construct junk now alt incl prec =
   Ok (mkMob (Some (HeightOf alt)) (Some (RadiansOf incl)) (nZ N 0) (nZ N 0)
             (CalcPosition (mkOrbit (HeightOf alt) (RadiansOf incl) (nZ N 0) (nZ N 0)) now now)
             prec now [] [now; now],
       true (* an uninitialised member was read on the way *))) /\
  (neq N incl (nZ N 0) = true -> construct junk now alt incl prec = Abort AssertFailed).
Proof.
  intros. split; [apply construct_ok|apply construct_abort].
Qed.
Print Assumptions C10_construction.

Theorem C10_histories : forall N (junk : vec N) now0 alt incl prec s0 u ops,
  construct junk now0 alt incl prec = Ok (s0, u) ->
  (legal ops -> exists s, forall junk', mrun junk' s0 ops = Ok s) /\
  (~ legal ops -> exists w, mrun junk s0 ops = Abort w).
Proof. exact histories_defined. Qed.
Print Assumptions C10_histories.

Example ex10 : @legal NumR (ex9_ops NumR (pt 1 2 0) 600%R) /\ ~ @legal NumR [OSetInclination (0%R : num NumR)].
Proof.
  split.
  - intros i; cbn; intuition discriminate.
  - intros H. specialize (H _ (or_introl eq_refl)). cbn in H. unfold Reqb in H.
    destruct (Req_EM_T 0 0); congruence.
Qed.
