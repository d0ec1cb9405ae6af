(** Reading waypoint files. *)
Require Import ZArith List Bool String Lia ZifyBool.
Require Import Verif.Base Verif.WaypointModel Verif.WaypointSpec.
Import ListNotations.
Local Open Scope Z_scope.

Section Proofs.
  Variable P : Type.
  Variable origin : P.
  Variable files : string -> option (list (Z * P)).
  Variable junk : nat -> Z.
  Notation next := (@GetNextSample P origin files junk).
  Notation drains := (@drains P origin files junk).
  Notation installs := (@installs P origin files junk).
  Implicit Type l : list (Z * P).

  (** ** The loop *)
  (** From a sample that is not later, the loop takes the first later one, or fails. *)
  Lemma loop_spec : forall rest last (s : Z * P) b f, fst s <= last ->
    (exists l1 s1 l2, rest = l1 ++ s1 :: l2 /\ Forall (fun x => fst x <= last) l1 /\ last < fst s1 /\
       read_loop junk last s b rest f = (s1, true, l2, f)) \/
    (Forall (fun x => fst x <= last) rest /\
       read_loop junk last s b rest f =
         ((junk f, snd (List.last rest s)), match rest with [] => b | _ => true end, [], S f)).
  Proof.
    induction rest as [|s1 r IH]; intros last s b f H; cbn [read_loop].
    - rewrite (proj2 (Z.leb_le _ _) H). right. split; [constructor|reflexivity].
    - rewrite (proj2 (Z.leb_le _ _) H). destruct (Z_le_gt_dec (fst s1) last) as [L|G].
      + destruct (IH last s1 true f L) as [(l1 & s2 & l2 & -> & F & B & ->)|(F & ->)].
        * left. exists (s1 :: l1), s2, l2. repeat split; auto.
        * right. split; [constructor; assumption|]. f_equal. f_equal. f_equal.
          -- f_equal. destruct r as [|x r]; [reflexivity|].
             change (List.last (s1 :: x :: r) s) with (List.last (x :: r) s). f_equal.
             clear. revert x. induction r as [|y r IH]; intros x; [reflexivity|]. cbn. apply IH.
          -- destruct r; reflexivity.
      + left. exists [], s1, r. split; [reflexivity|]. split; [constructor|]. split; [lia|].
        destruct r; cbn [read_loop]; rewrite (proj2 (Z.leb_gt _ _)) by lia; reflexivity.
  Qed.

  Definition reading (r : reader P) (rest : list (Z * P)) : Prop :=
    match r_in r with
    | Some (_, x) => x = rest
    | None => files (r_path r) = Some rest
    end.

  Lemma next_later : forall r l1 s l2, reading r (l1 ++ s :: l2) -> 0 <= r_last r ->
    Forall (fun x => fst x <= r_last r) l1 -> r_last r < fst s ->
    exists r', next r = Ok (true, s, r') /\ reading r' l2 /\ r_last r' = fst s /\ r_failures r' = r_failures r /\ r_path r' = r_path r.
  Proof.
    intros r l1 s l2 R H0 F HS.
    assert (X : read_loop junk (r_last r) (0, origin) false (l1 ++ s :: l2) (r_failures r) = (s, true, l2, r_failures r)).
    { assert (G : forall l1 (s0 : Z * P) b, Forall (fun x => fst x <= r_last r) l1 -> fst s0 <= r_last r ->
                 read_loop junk (r_last r) s0 b (l1 ++ s :: l2) (r_failures r) = (s, true, l2, r_failures r)).
      { clear F R. induction l0 as [|x l0 IH]; intros s0 b F L; cbn [app read_loop]; rewrite (proj2 (Z.leb_le _ _) L).
        - destruct l2; cbn [read_loop]; rewrite (proj2 (Z.leb_gt _ _)) by lia; reflexivity.
        - inversion F; subst. apply IH; assumption. }
      apply G; [assumption|]. cbn. lia. }
    unfold GetNextSample, reading, open in *. destruct (r_in r) as [[all rest]|].
    - subst rest. rewrite X. eexists. split; [reflexivity|]. cbn. auto.
    - rewrite R, X. eexists. split; [reflexivity|]. cbn. auto.
  Qed.

  Lemma next_none_later : forall r rest, reading r rest -> 0 <= r_last r -> Forall (fun x => fst x <= r_last r) rest ->
    exists r', next r = Ok (match rest with [] => false | _ => true end,
                            (junk (r_failures r), snd (List.last rest (0, origin))), r') /\
      reading r' [] /\ r_last r' = match rest with [] => r_last r | _ => junk (r_failures r) end /\
      r_failures r' = S (r_failures r) /\ r_path r' = r_path r.
  Proof.
    intros r rest R H0 F.
    assert (X : read_loop junk (r_last r) (0, origin) false rest (r_failures r) =
       ((junk (r_failures r), snd (List.last rest (0, origin))), match rest with [] => false | _ => true end, [], S (r_failures r))).
    { destruct (loop_spec rest (r_last r) (0, origin) false (r_failures r)) as [(l1 & s1 & l2 & -> & _ & B & _)|(_ & X)];
        [cbn; lia| |exact X].
      rewrite Forall_forall in F. specialize (F s1). rewrite in_app_iff in F. specialize (F (or_intror (or_introl eq_refl))). lia. }
    unfold GetNextSample, reading, open in *. destruct (r_in r) as [[all rest']|].
    - subst rest'. rewrite X. eexists. split; [reflexivity|]. cbn. destruct rest; auto.
    - rewrite R, X. eexists. split; [reflexivity|]. cbn. destruct rest; auto.
  Qed.

  (** A negative last time: nothing is read. *)
  Lemma next_negative : forall r rest, reading r rest -> r_last r < 0 ->
    exists r', next r = Ok (false, (0, origin), r') /\ reading r' rest /\ r_last r' = r_last r /\
      r_failures r' = r_failures r /\ r_path r' = r_path r.
  Proof.
    intros r rest R H.
    assert (X : read_loop junk (r_last r) (0, origin) false rest (r_failures r) = ((0, origin), false, rest, r_failures r)).
    { destruct rest; cbn [read_loop]; cbn [fst]; rewrite (proj2 (Z.leb_gt _ _)) by lia; reflexivity. }
    unfold GetNextSample, reading, open in *. destruct (r_in r) as [[all rest']|].
    - subst rest'. rewrite X. eexists. split; [reflexivity|]. cbn. auto.
    - rewrite R, X. eexists. split; [reflexivity|]. cbn. auto.
  Qed.

  (** At the end of the stream nothing more is returned. *)
  Lemma next_end : forall r, reading r [] -> exists s r', next r = Ok (false, s, r') /\ reading r' [] /\ r_last r' = r_last r /\
    r_path r' = r_path r /\ (0 <= r_last r -> r_failures r' = S (r_failures r)).
  Proof.
    intros r R. destruct (Z_lt_ge_dec (r_last r) 0) as [H|H].
    - destruct (next_negative r [] R H) as (r' & A & B & C & D & E). exists (0, origin), r'. repeat split; auto. lia.
    - destruct (next_none_later r [] R) as (r' & A & B & C & D & E); [lia|constructor|]. eexists _, r'. split; [exact A|]. auto.
  Qed.

  (** ** Draining *)
  Lemma drains_det : forall r l r', drains r l r' -> forall l2 r2, drains r l2 r2 -> l = l2 /\ r' = r2.
  Proof.
    induction 1 as [r s r' H|r s r1 l r' H D IH]; intros l2 r2 D2; inversion D2 as [? s2 ? H2|? s2 r3 l3 ? H2 D3]; subst; rewrite H in H2; injection H2 as E1 E2; subst; try congruence.
    - split; congruence.
    - destruct (IH _ _ D3) as [-> ->]. split; congruence.
  Qed.

  Lemma newest_ge : forall l last, last <= newest last l.
  Proof.
    induction l as [|s r IH]; intros last; [apply Z.le_refl|]. cbn. specialize (IH (Z.max last (fst s))). unfold newest in IH. lia.
  Qed.
  Lemma newest_cons : forall s l last, newest last (s :: l) = newest (Z.max last (fst s)) l.
  Proof. reflexivity. Qed.
  Lemma newest_none : forall l last, Forall (fun x => fst x <= last) l -> newest last l = last.
  Proof.
    induction l as [|s r IH]; intros last F; [reflexivity|]. inversion F as [|? ? F1 F2]; subst. rewrite newest_cons.
    rewrite Z.max_l by assumption. apply IH. assumption.
  Qed.
  Lemma newest_app : forall l1 l2 last, newest last (l1 ++ l2) = newest (newest last l1) l2.
  Proof. intros. unfold newest. apply fold_left_app. Qed.
  Lemma later_none : forall l last, Forall (fun x => fst x <= last) l -> later last l = [].
  Proof.
    induction l as [|s r IH]; intros last F; [reflexivity|]. inversion F as [|? ? F1 F2]; subst. cbn.
    rewrite (proj2 (Z.ltb_ge _ _)) by assumption. apply IH. assumption.
  Qed.
  Lemma later_split : forall l1 s l2 last, Forall (fun x => fst x <= last) l1 -> last < fst s ->
    later last (l1 ++ s :: l2) = s :: later (fst s) l2.
  Proof.
    induction l1 as [|x l1 IH]; intros s l2 last F H; cbn.
    - rewrite (proj2 (Z.ltb_lt _ _)) by assumption. reflexivity.
    - inversion F as [|? ? F1 F2]; subst. rewrite (proj2 (Z.ltb_ge _ _)) by assumption. apply IH; assumption.
  Qed.
  Lemma first_later : forall last l, (exists l1 s l2, l = l1 ++ s :: l2 /\ Forall (fun x => fst x <= last) l1 /\ last < fst s) \/
    Forall (fun x => fst x <= last) l.
  Proof.
    intros last. induction l as [|x r IH]; [right; constructor|]. destruct (Z_le_gt_dec (fst x) last) as [L|G].
    - destruct IH as [(l1 & s & l2 & -> & F & B)|F]; [left; exists (x :: l1), s, l2; auto|right; auto].
    - left. exists [], x, r. repeat split; auto. lia.
  Qed.

  (** What a drained reader returned: the later samples, and one more if the file
      does not end with its newest sample. *)
  Lemma drains_spec : forall n rest r, (List.length rest <= n)%nat -> reading r rest -> 0 <= r_last r ->
    exists l r', drains r l r' /\ reading r' [] /\ r_path r' = r_path r /\
      ((ends_newest (r_last r) rest /\ l = later (r_last r) rest /\ r_last r' = newest (r_last r) rest /\ r_failures r' = S (r_failures r)) \/
       (exists l0 s, rest = l0 ++ [s] /\ fst s <= newest (r_last r) l0 /\
          l = later (r_last r) rest ++ [(junk (r_failures r), snd s)] /\ r_last r' = junk (r_failures r) /\
          (r_failures r < r_failures r')%nat)).
  Proof.
    induction n as [|n IH]; intros rest r L R H0.
    - destruct rest; [|cbn in L; lia]. destruct (next_end r R) as (s & r' & A & B & C & D & E). exists [], r'.
      split; [econstructor; exact A|]. split; [assumption|]. split; [assumption|]. left. split; [left; reflexivity|].
      split; [reflexivity|]. split; [exact C|]. auto.
    - destruct (first_later (r_last r) rest) as [(l1 & s & l2 & -> & F & B)|F].
      + destruct (next_later r l1 s l2 R H0 F B) as (r1 & A & R1 & L1 & F1 & P1).
        destruct (IH l2 r1) as (l & r' & D & RE & PA & CASES); [|exact R1|lia|].
        { rewrite app_length in L. cbn in L. lia. }
        rewrite L1, F1 in CASES. exists (s :: l), r'. split; [econstructor; eassumption|]. split; [assumption|]. split; [congruence|].
        assert (NE : newest (r_last r) (l1 ++ [s]) = fst s).
        { rewrite newest_app, (newest_none l1) by assumption. cbn. lia. }
        rewrite later_split by assumption.
        destruct CASES as [(E & -> & N & NF)|(l0 & s1 & -> & S1 & -> & N & NF)].
        * left. split; [|split; [reflexivity|]].
          -- right. destruct E as [->|(l3 & s3 & -> & E)].
             ++ exists l1, s. split; [reflexivity|]. rewrite newest_none by assumption. assumption.
             ++ exists (l1 ++ s :: l3), s3. split; [rewrite <- app_assoc; reflexivity|].
                replace (l1 ++ s :: l3) with ((l1 ++ [s]) ++ l3) by (rewrite <- app_assoc; reflexivity).
                rewrite newest_app, NE. exact E.
          -- rewrite N. split; [|assumption]. replace (l1 ++ s :: l2) with ((l1 ++ [s]) ++ l2) by (rewrite <- app_assoc; reflexivity).
             rewrite newest_app, NE. reflexivity.
        * right. exists (l1 ++ s :: l0), s1. split; [rewrite <- app_assoc; reflexivity|]. split; [|split; [reflexivity|split; assumption]].
          replace (l1 ++ s :: l0) with ((l1 ++ [s]) ++ l0) by (rewrite <- app_assoc; reflexivity). rewrite newest_app, NE. exact S1.
      + destruct (next_none_later r rest R H0 F) as (r1 & A & R1 & L1 & F1 & P1).
        destruct rest as [|x rest].
        * exists [], r1. split; [econstructor; exact A|]. split; [assumption|]. split; [assumption|]. left. split; [left; reflexivity|].
          split; [reflexivity|]. split; [exact L1|]. auto.
        * destruct (next_end r1 R1) as (s & r' & A' & B' & C' & D' & _).
          destruct (exists_last (l := x :: rest)) as (l0 & y & E); [discriminate|].
          rewrite E in *. rewrite last_last in A. destruct (l0 ++ [y]) as [|z zs] eqn:EE; [destruct l0; discriminate|]. rewrite <- EE in *.
          exists [(junk (r_failures r), snd y)], r'. split; [econstructor; [exact A|econstructor; exact A']|].
          split; [assumption|]. split; [congruence|]. right. exists l0, y. split; [reflexivity|].
          apply Forall_app in F as [F2 F3]. inversion F3; subst.
          split; [rewrite newest_none by assumption; assumption|]. rewrite later_none by (apply Forall_app; auto).
          split; [reflexivity|]. split; [congruence|].
          destruct (Z_lt_ge_dec (r_last r1) 0) as [HN|HN].
          -- destruct (next_negative r1 [] R1 HN) as (r2 & A2 & _ & _ & G & _). rewrite A' in A2. injection A2 as _ ->. lia.
          -- destruct (next_none_later r1 [] R1) as (r2 & A2 & _ & _ & G & _); [lia|constructor|]. rewrite A' in A2. injection A2 as _ ->. lia.
  Qed.

  Lemma drains_negative : forall r rest, reading r rest -> r_last r < 0 ->
    exists r', drains r [] r' /\ reading r' rest /\ r_last r' = r_last r.
  Proof.
    intros r rest R H. destruct (next_negative r rest R H) as (r' & A & B & C & _). exists r'. split; [econstructor; exact A|auto].
  Qed.

  Lemma increasing_later : forall l last, increasing_from last l -> later last l = l.
  Proof.
    induction l as [|s r IH]; intros last H; [reflexivity|]. destruct H as [H1 H2]. cbn. rewrite (proj2 (Z.ltb_lt _ _)) by assumption.
    rewrite IH by assumption. reflexivity.
  Qed.
  Lemma increasing_ends : forall l last, increasing_from last l -> ends_newest last l.
  Proof.
    induction l as [|s r IH]; intros last H; [left; reflexivity|]. destruct H as [H1 H2]. right.
    destruct (IH _ H2) as [->|(l1 & x & -> & E)].
    - exists [], s. split; [reflexivity|]. exact H1.
    - exists (s :: l1), x. split; [reflexivity|]. rewrite newest_cons, Z.max_r by lia. exact E.
  Qed.
  Lemma increasing_newest : forall l last d, increasing_from last l -> newest last l = fst (List.last l (last, d)).
  Proof.
    induction l as [|s r IH]; intros last d H; [reflexivity|]. destruct H as [H1 H2]. rewrite newest_cons, Z.max_r by lia.
    rewrite (IH _ d H2). destruct r as [|x r]; [reflexivity|].
    change (List.last (s :: x :: r) (last, d)) with (List.last (x :: r) (last, d)). f_equal.
    generalize (fst s, d) (last, d). clear. revert x. induction r as [|y r IH]; intros x a b; [reflexivity|]. cbn. apply IH.
  Qed.
  Lemma ends_not : forall last l l0 s, l = l0 ++ [s] -> ends_newest last l -> ~ fst s <= newest last l0.
  Proof.
    intros last l l0 s -> [E|(l1 & x & E & H)]; [destruct l0; discriminate|]. apply app_inj_tail in E as [-> ->]. lia.
  Qed.

  (** Prefixes of increasing files. *)
  Lemma reads_prefix : forall l1 l2 r d, reading r (l1 ++ l2) -> 0 <= r_last r -> increasing_from (r_last r) (l1 ++ l2) ->
    exists r', reads origin files junk r l1 r' /\ reading r' l2 /\ r_last r' = fst (List.last l1 (r_last r, d)).
  Proof.
    induction l1 as [|s l1 IH]; intros l2 r d R H0 I.
    - exists r. split; [constructor|]. auto.
    - destruct I as [I1 I2]. destruct (next_later r [] s (l1 ++ l2) R H0 (Forall_nil _) I1) as (r1 & A & R1 & L1 & _).
      rewrite <- L1 in I2. destruct (IH l2 r1 d R1 ltac:(lia) I2) as (r' & D & R' & L'). exists r'. split; [econstructor; eassumption|].
      split; [assumption|]. rewrite L', L1. destruct l1 as [|x l1]; [reflexivity|].
      change (List.last (s :: x :: l1) (r_last r, d)) with (List.last (x :: l1) (r_last r, d)). f_equal.
      generalize (fst s, d) (r_last r, d). clear. revert x. induction l1 as [|y l1 IH]; intros x a b; [reflexivity|]. cbn. apply IH.
  Qed.

  (** ** Installation *)
  Lemma installs_det : forall r fs ls r', installs r fs ls r' -> forall ls2 r2, installs r fs ls2 r2 -> ls = ls2 /\ r' = r2.
  Proof.
    induction 1 as [r|r f fs l r1 ls r' D I IH]; intros ls2 r2 J; inversion J; subst; [auto|].
    match goal with H : drains _ _ _ |- _ => destruct (drains_det _ _ _ D _ _ H) as [-> ->] end.
    match goal with H : installs _ fs _ _ |- _ => destruct (IH _ _ H) as [-> ->] end. auto.
  Qed.

  Lemma installs_spec : forall fs cs r, Forall2 (fun f c => files f = Some c) fs cs ->
    exists ls r', installs r fs ls r' /\ serves (r_last r) cs ls.
  Proof.
    induction fs as [|f fs IH]; intros cs r F; inversion F as [|? c ? cs' F1 F2]; subst.
    - exists [], r. split; constructor.
    - assert (R : reading (SetFile files r f) c) by (unfold reading, SetFile, open; cbn; rewrite F1; reflexivity).
      destruct (Z_lt_ge_dec (r_last r) 0) as [H|H].
      + destruct (drains_negative (SetFile files r f) c R H) as (r1 & D & _ & L). destruct (IH cs' r1 F2) as (ls & r' & I & S).
        exists ([] :: ls), r'. split; [econstructor; eassumption|]. apply serves_negative; [assumption|]. rewrite <- (L : r_last r1 = r_last r). assumption.
      + destruct (drains_spec (List.length c) c (SetFile files r f) (le_n _) R ltac:(cbn; lia)) as (l & r1 & D & _ & _ & CASES).
        destruct (IH cs' r1 F2) as (ls & r' & I & S). exists (l :: ls), r'. split; [econstructor; eassumption|].
        cbn [r_last SetFile r_failures] in CASES. destruct CASES as [(E & -> & N & _)|(l0 & s & -> & B & -> & N & _)].
        * apply serves_file; [lia|assumption|]. rewrite <- N. assumption.
        * apply serves_trailing; [lia|assumption|]. rewrite <- N. assumption.
  Qed.

  Lemma installs_files : forall r fs ls r', installs r fs ls r' -> Forall (fun f => files f <> None) fs.
  Proof.
    induction 1 as [r|r f fs l r1 ls r' D I IH]; [constructor|]. constructor; [|assumption]. intros F.
    assert (X : next (SetFile files r f) = Abort AssertFailed).
    { unfold GetNextSample, SetFile, open. cbn. rewrite F. reflexivity. }
    inversion D; congruence.
  Qed.
End Proofs.
