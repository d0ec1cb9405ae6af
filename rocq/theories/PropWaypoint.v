(** Reading waypoint files (C55 to C58). *)
Require Import ZArith List Bool String Lia ZifyBool.
Require Import Verif.Base Verif.WaypointModel Verif.WaypointSpec Verif.WaypointProofs.
Import ListNotations.
Local Open Scope Z_scope.
Local Open Scope string_scope.
Local Open Scope list_scope.

Section Waypoints.
  Variable P : Type.
  Variable origin : P.
  Variable files : string -> option (list (Z * P)).
  Variable junk : nat -> Z.
  Notation next := (GetNextSample origin files junk).
  Notation drains := (drains origin files junk).
  Notation reads := (reads origin files junk).
  Notation installs := (installs origin files junk).

  (** [ended r]: every call from now on reports the end and leaves the last time. *)
  Definition ended (r : reader P) : Prop :=
    forall n, exists rs : nat -> reader P, rs O = r /\
      forall i, (i < n)%nat -> exists s, next (rs i) = Ok (false, s, rs (S i)) /\ r_last (rs (S i)) = r_last r.
  Lemma reading_ended : forall r, reading P files r [] -> ended r.
  Proof.
    intros r R n. revert r R. induction n as [|n IH]; intros r R.
    - exists (fun _ => r). split; [reflexivity|]. intros i H. lia.
    - destruct (next_end P origin files junk r R) as (s & r1 & A & R1 & L & _). destruct (IH r1 R1) as (rs & E & H).
      exists (fun i => match i with O => r | S k => rs k end). split; [reflexivity|]. intros i HI. destruct i as [|i].
      + exists s. rewrite E. split; assumption.
      + destruct (H i ltac:(lia)) as (s' & A' & L'). exists s'. split; [assumption|]. congruence.
  Qed.

  (** C55: a file with increasing times is returned completely and in order, then
      its end is reported, now and on every later call; the last time is that of the
      last sample. *)
  Theorem C55_complete : forall path last l d,
    files path = Some l -> 0 <= last -> increasing_from last l ->
    (forall l1 l2, l = l1 ++ l2 -> exists r1, reads (new_reader path last) l1 r1 /\ r_last r1 = fst (List.last l1 (last, d))) /\
    (exists r', drains (new_reader path last) l r' /\ r_last r' = fst (List.last l (last, d)) /\ ended r' /\
       forall l2 r2, drains (new_reader path last) l2 r2 -> l2 = l /\ r2 = r').
  Proof.
    intros path last l d F H0 I. assert (R : reading P files (new_reader path last) l) by exact F. split.
    - intros l1 l2 ->. destruct (reads_prefix P origin files junk l1 l2 (new_reader path last) d R H0 I) as (r1 & A & _ & B). eauto.
    - destruct (drains_spec P origin files junk _ l (new_reader path last) (le_n _) R H0) as (l' & r' & D & RE & _ & [(E & -> & N & _)|(l0 & s & E & B & _)]).
      + cbn [r_last new_reader] in *. rewrite (increasing_later _ _ _ I) in D. exists r'. split; [exact D|].
        rewrite N. split; [apply (increasing_newest _ _ _ _ I)|]. split; [apply reading_ended; assumption|].
        intros l2 r2 D2. destruct (drains_det _ _ _ _ _ _ _ D _ _ D2) as [-> ->]. auto.
      + exfalso. apply (ends_not _ _ _ _ _ E (increasing_ends _ _ _ I)). exact B.
  Qed.

  (** With a negative last time nothing is ever read. *)
  Theorem C55_negative_last_time : forall path last l, files path = Some l -> last < 0 ->
    exists r', next (new_reader path last) = Ok (false, (0, origin), r') /\ drains (new_reader path last) [] r' /\ r_last r' = last.
  Proof.
    intros path last l F H. destruct (next_negative P origin files junk (new_reader path last) l F H) as (r' & A & _ & C & _).
    exists r'. split; [exact A|]. split; [econstructor; exact A|exact C].
  Qed.

  (** A missing file aborts the first read, unless another file is still open. *)
  Theorem C55_missing_file : forall r, r_in r = None -> files (r_path r) = None -> next r = Abort AssertFailed.
  Proof. intros r H F. unfold GetNextSample, open. rewrite H, F. reflexivity. Qed.

  (** C56: a general file from any place on. *)
  Theorem C56_exact : forall r rest,
    (exists all, r_in r = Some (all, rest)) \/ (r_in r = None /\ files (r_path r) = Some rest) ->
    0 <= r_last r ->
    (ends_newest (r_last r) rest ->
       exists r', drains r (later (r_last r) rest) r' /\ r_last r' = newest (r_last r) rest /\ ended r') /\
    (forall l0 s, rest = l0 ++ [s] -> fst s <= newest (r_last r) l0 ->
       exists r' any, drains r (later (r_last r) rest ++ [(any, snd s)]) r' /\ r_last r' = any /\ ended r') /\
    (forall l1 r1 l2 r2, drains r l1 r1 -> drains r l2 r2 -> l1 = l2).
  Proof.
    intros r rest H H0. assert (R : reading P files r rest).
    { unfold reading. destruct H as [(all & ->)|(-> & H)]; [reflexivity|exact H]. }
    destruct (drains_spec P origin files junk _ rest r (le_n _) R H0) as (l & r' & D & RE & _ & CASES).
    split; [|split].
    - intros E. destruct CASES as [(_ & -> & N & _)|(l0 & s & X & B & _)].
      + exists r'. split; [assumption|]. split; [assumption|]. apply reading_ended. assumption.
      + exfalso. exact (ends_not _ _ _ _ _ X E B).
    - intros l0 s X B. destruct CASES as [(E & _)|(l1 & s1 & X1 & B1 & -> & N & _)].
      + exfalso. exact (ends_not _ _ _ _ _ X E B).
      + rewrite X in X1. apply app_inj_tail in X1 as [_ <-]. exists r', (junk (r_failures r)). split; [assumption|]. split; [assumption|].
        apply reading_ended. assumption.
    - intros l1 r1 l2 r2 D1 D2. exact (proj1 (drains_det _ _ _ _ _ _ _ D1 _ _ D2)).
  Qed.

  (** The two cases cover every file. *)
  Theorem C56_cases : forall last (rest : list (Z * P)),
    ends_newest last rest \/ exists l0 s, rest = l0 ++ [s] /\ fst s <= newest last l0.
  Proof.
    intros last rest. destruct rest as [|x r]; [left; left; reflexivity|].
    destruct (exists_last (l := x :: r)) as (l0 & s & E); [discriminate|].
    destruct (Z_le_gt_dec (fst s) (newest last l0)) as [L|G]; [right; eauto|]. left. right. exists l0, s. split; [assumption|lia].
  Qed.

  (** C57: one node per file, with the waypoints described by [serves]; exactly the
      lists of existing files can be installed. *)
  Theorem C57_install : forall r fs cs, Forall2 (fun f c => files f = Some c) fs cs ->
    exists ls r', installs r fs ls r' /\ serves (r_last r) cs ls /\ List.length ls = List.length fs /\
      forall ls2 r2, installs r fs ls2 r2 -> ls2 = ls /\ r2 = r'.
  Proof.
    intros r fs cs F. destruct (installs_spec P origin files junk fs cs r F) as (ls & r' & I & S). exists ls, r'.
    split; [assumption|]. split; [assumption|]. split.
    - clear -I. induction I; cbn; congruence.
    - intros ls2 r2 J. destruct (installs_det _ _ _ _ _ _ _ _ I _ _ J) as [-> ->]. auto.
  Qed.
  Theorem C57_missing_file : forall r fs f ls r', In f fs -> files f = None -> ~ installs r fs ls r'.
  Proof.
    intros r fs f ls r' HIn F I. pose proof (installs_files _ _ _ _ _ _ _ _ I) as X. rewrite Forall_forall in X. exact (X f HIn F).
  Qed.

  (** A file that does not go beyond the last time of the previous one gives a
      single waypoint, with the position of its last sample. *)
  Theorem C57_carried_over : forall r f1 f2 c1 c2 s2,
    files f1 = Some c1 -> files f2 = Some (c2 ++ [s2]) -> 0 <= r_last r ->
    ends_newest (r_last r) c1 -> Forall (fun s => fst s <= newest (r_last r) c1) (c2 ++ [s2]) ->
    exists any r', installs r [f1; f2] [later (r_last r) c1; [(any, snd s2)]] r'.
  Proof.
    intros r f1 f2 c1 c2 s2 F1 F2 H0 E A.
    destruct (C57_install r [f1; f2] [c1; c2 ++ [s2]]) as (ls & r' & I & S & _); [repeat constructor; assumption|].
    inversion S as [| ? ? ? ? N|? ? ? ? ? E1 S1|? c s ? ? any ? B1 S1]; subst; [lia| |].
    - inversion S1 as [| ? ? ? ? N|? ? ? ? ? E2 S2|? c s ? ? any ? B2 S2]; subst.
      + pose proof (newest_ge P c1 (r_last r)). lia.
      + exfalso. apply (ends_not _ _ _ _ _ eq_refl E2). apply Forall_app in A as [A1 A2]. inversion A2; subst.
        rewrite (newest_none P c2) by assumption. assumption.
      + match goal with H : _ ++ [_] = _ ++ [_] |- _ => apply app_inj_tail in H as [-> ->] end.
        inversion S2; subst. rewrite (later_none P (c2 ++ [s2])) in I by assumption. exists any, r'. exact I.
    - exfalso. exact (ends_not _ _ _ _ _ eq_refl E B1).
  Qed.

  (** C58: after SetLastTime the next read returns the first later sample of the whole
      file; the position before does not matter. *)
  Theorem C58_rewind : forall r all rest t l1 s l2, r_in r = Some (all, rest) -> 0 <= t ->
    all = l1 ++ s :: l2 -> Forall (fun x => fst x <= t) l1 -> t < fst s ->
    exists r', next (SetLastTime r t) = Ok (true, s, r') /\ r_last r' = fst s /\ r_in r' = Some (all, l2).
  Proof.
    intros r all rest t l1 s l2 H H0 -> F HS.
    destruct (next_later P origin files junk (SetLastTime r t) l1 s l2) as (r' & A & R & L & _); [|exact H0|exact F|exact HS|].
    - unfold reading, SetLastTime. cbn. rewrite H. reflexivity.
    - exists r'. split; [assumption|]. split; [assumption|].
      unfold GetNextSample, SetLastTime in A. rewrite H in A. cbn [r_in r_last r_failures r_path] in A.
      destruct (read_loop _ _ _ _ _ _) as [[[s' u] rest'] f]. injection A as _ _ E. subst r'. cbn in R. subst rest'. reflexivity.
  Qed.
  (** Without a later sample, a file that is not empty is reported as successful
      once more. *)
  Theorem C58_rewind_none_later : forall r all rest t, r_in r = Some (all, rest) -> 0 <= t ->
    Forall (fun x => fst x <= t) all ->
    exists r' any, next (SetLastTime r t) = Ok (negb (Nat.eqb (List.length all) 0), (any, snd (List.last all (0, origin))), r').
  Proof.
    intros r all rest t H H0 F.
    destruct (next_none_later P origin files junk (SetLastTime r t) all) as (r' & A & _); [|exact H0|exact F|].
    - unfold reading, SetLastTime. cbn. rewrite H. reflexivity.
    - exists r'. eexists. rewrite A. destruct all; reflexivity.
  Qed.
  (** Setting the attribute LastTime instead does not rewind: reading continues. *)
  Theorem C58_attribute : forall r all rest t l1 s l2, r_in r = Some (all, rest) -> 0 <= t ->
    rest = l1 ++ s :: l2 -> Forall (fun x => fst x <= t) l1 -> t < fst s ->
    exists r', next (set_last_attribute r t) = Ok (true, s, r').
  Proof.
    intros r all rest t l1 s l2 H H0 -> F HS.
    destruct (next_later P origin files junk (set_last_attribute r t) l1 s l2) as (r' & A & _); [|exact H0|exact F|exact HS|eauto].
    unfold reading, set_last_attribute. cbn. rewrite H. reflexivity.
  Qed.
  (** Setting the attribute File does not open a file. While a stream is open, the
      samples of the old file keep coming; SetFile would have started the new one. *)
  Theorem C58_file_attribute : forall r all rest path l1 s l2, r_in r = Some (all, rest) -> 0 <= r_last r ->
    rest = l1 ++ s :: l2 -> Forall (fun x => fst x <= r_last r) l1 -> r_last r < fst s ->
    exists r', next (set_file_attribute r path) = Ok (true, s, r') /\ r_path r' = path /\ r_last r' = fst s /\ r_in r' = Some (all, l2).
  Proof.
    intros r all rest path l1 s l2 H H0 -> F HS.
    destruct (next_later P origin files junk (set_file_attribute r path) l1 s l2) as (r' & A & R & L & _);
      [unfold reading, set_file_attribute; cbn; rewrite H; reflexivity|exact H0|exact F|exact HS|].
    exists r'. split; [exact A|]. unfold GetNextSample, set_file_attribute in A. rewrite H in A. cbn [r_in r_last r_failures r_path] in A.
    destruct (read_loop _ _ _ _ _ _) as [[[s' u] rest'] f]. injection A as -> -> E. subst r'. unfold reading in R. cbn in R |- *. subst rest'. auto.
  Qed.
  (** Before anything has been read it is as good as SetFile. *)
  Theorem C58_file_attribute_fresh : forall r path, r_in r = None ->
    next (set_file_attribute r path) = next (SetFile files r path).
  Proof.
    intros r path H. unfold GetNextSample, set_file_attribute, SetFile. cbn [r_in r_last r_failures r_path]. rewrite H.
    destruct (open files path); reflexivity.
  Qed.
End Waypoints.
Print Assumptions C55_complete.
Print Assumptions C55_negative_last_time.
Print Assumptions C55_missing_file.
Print Assumptions C56_exact.
Print Assumptions C56_cases.
Print Assumptions C57_install.
Print Assumptions C57_missing_file.
Print Assumptions C57_carried_over.
Print Assumptions C58_rewind.
Print Assumptions C58_rewind_none_later.
Print Assumptions C58_attribute.
Print Assumptions C58_file_attribute.
Print Assumptions C58_file_attribute_fresh.

(** Two satellites with the same times: the second one loses its trajectory. *)
Definition tracks (path : string) : option (list (Z * Z)) :=
  if path =? "a" then Some [(10, 1); (20, 2); (30, 3)]
  else if path =? "b" then Some [(10, 4); (20, 5); (30, 6)]
  else if path =? "c" then Some [(10, 7); (5, 8); (30, 9); (20, 10); (25, 11)] else None.

Theorem C57_trajectories_refuted : exists (files : string -> option (list (Z * Z))) junk r f1 f2 c1 c2,
  files f1 = Some c1 /\ files f2 = Some c2 /\ increasing_from (r_last r) c1 /\ increasing_from (r_last r) c2 /\ 0 <= r_last r /\
  forall ls r', installs 0 files junk r [f1; f2] ls r' -> ls <> [c1; c2].
Proof.
  exists tracks, (fun _ => 0), (new_reader "" 0), "a", "b". do 2 eexists. split; [reflexivity|]. split; [reflexivity|].
  split; [cbn; lia|]. split; [cbn; lia|]. split; [cbn; lia|]. intros ls r' I E. subst ls.
  destruct (C57_carried_over Z 0 tracks (fun _ => 0) (new_reader "" 0) "a" "b" [(10, 1); (20, 2); (30, 3)] [(10, 4); (20, 5)] (30, 6))
    as (any & r2 & I2); [reflexivity|reflexivity|cbn; lia| |repeat constructor; cbn; lia|].
  - apply increasing_ends. cbn. lia.
  - destruct (installs_det _ _ _ _ _ _ _ _ I _ _ I2) as [X _]. discriminate.
Qed.
Print Assumptions C57_trajectories_refuted.

Example C55_example : increasing_from 0 [(10, 1); (20, 2); (30, 3)] /\ tracks "a" = Some [(10, 1); (20, 2); (30, 3)].
Proof. split; [cbn; lia|reflexivity]. Qed.
Example C56_example :
  later 0 [(10, 7); (5, 8); (30, 9); (20, 10); (25, 11)] = [(10, 7); (30, 9)] /\
  ~ ends_newest 0 [(10, 7); (5, 8); (30, 9); (20, 10); (25, 11)] /\
  exists r', drains 0 tracks (fun n => - Z.of_nat n) (new_reader "c" 0) [(10, 7); (30, 9); (0, 11)] r'.
Proof.
  split; [reflexivity|]. split.
  - intros E. exact (ends_not Z 0 _ [(10, 7); (5, 8); (30, 9); (20, 10)] (25, 11) eq_refl E ltac:(cbn; lia)).
  - eexists. repeat (eapply drains_next; [reflexivity|]). eapply drains_end. reflexivity.
Qed.
Example C57_example : exists r', installs 0 tracks (fun n => Z.of_nat n) (new_reader "" 0) ["a"; "b"; "c"]
  [[(10, 1); (20, 2); (30, 3)]; [(1, 6)]; [(10, 7); (30, 9); (3, 11)]] r'.
Proof.
  eexists. repeat (eapply installs_cons; [repeat (eapply drains_next; [vm_compute; reflexivity|]); eapply drains_end; vm_compute; reflexivity|]).
  apply installs_nil.
Qed.
Example C58_example : exists r1 r2, reads 0 tracks (fun _ => 0) (new_reader "a" 0) [(10, 1); (20, 2); (30, 3)] r1 /\
  GetNextSample 0 tracks (fun _ => 0) (SetLastTime r1 15) = Ok (true, (20, 2), r2).
Proof. do 2 eexists. split; [repeat (eapply reads_next; [reflexivity|]); apply reads_nil|]. reflexivity. Qed.

(** Two files; after the first sample of "a" the attribute is set to "b", and the
    next sample still is the second one of "a". *)
Example ex_C58_file :
  let files := fun p => if String.eqb p "a" then Some [(1, 10); (2, 20)] else Some [(5, 50)] in
  let get r := GetNextSample 0 files (fun _ => 0) r in
  match get (new_reader "a" 0) with
  | Ok (_, _, r) =>
      match get (set_file_attribute r "b"), get (SetFile files r "b") with
      | Ok (u, s, r2), Ok (u', s', _) => (u, s, r_path r2) = (true, (2, 20), "b") /\ (u', s') = (true, (5, 50))
      | _, _ => False
      end
  | _ => False
  end.
Proof. vm_compute. split; reflexivity. Qed.
