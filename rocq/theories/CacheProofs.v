(** Filling ARP and NDISC caches. *)
Require Import ZArith List Bool Lia ZifyBool.
Require Import Verif.Base Verif.NetModel Verif.CacheModel Verif.CacheSpec.
Import ListNotations.
Local Open Scope Z_scope.

Lemma set_entry_same : forall s c x m, set_entry s c x m c x = Some m.
Proof. intros. unfold set_entry, upd. rewrite Nat.eqb_refl, Z.eqb_refl. reflexivity. Qed.
Lemma set_entry_other : forall s c x m c' x', c' <> c \/ x' <> x -> set_entry s c x m c' x' = s c' x'.
Proof.
  intros s c x m c' x' H. unfold set_entry, upd. destruct (Nat.eqb_spec c' c); [|reflexivity]. subst.
  destruct (Z.eqb_spec x' x); [|reflexivity]. exfalso. tauto.
Qed.
Lemma same_type_iff : forall a b, same_type a b = true <-> (a = Gnd /\ b = Gnd) \/ (a = Sat /\ b = Sat).
Proof. intros [] []; cbn; split; intros H; try discriminate; auto; destruct H as [[? ?]|[? ?]]; discriminate. Qed.
Lemma GetAddress_ok : forall I n k x, GetAddress I n k = Ok x <-> address_of I k n x.
Proof.
  intros I n k x. unfold GetAddress, address_of. destruct (nth_error I n) as [l|].
  - destruct (nth_error l k) eqn:E; split; intros H.
    + injection H as ->. eauto.
    + destruct H as (l' & H1 & H2). congruence.
    + discriminate.
    + destruct H as (l' & H1 & H2). congruence.
  - split; [discriminate|]. intros (l & H & _). discriminate.
Qed.
Lemma GetAddress_cases : forall I n k, (exists x, GetAddress I n k = Ok x) \/ (~ (exists x, address_of I k n x) /\ is_ok (GetAddress I n k) = false).
Proof.
  intros I n k. destruct (GetAddress I n k) eqn:E; [left; eauto| |]; right; (split; [|reflexivity]); intros (x & H); apply GetAddress_ok in H; congruence.
Qed.

Section Fill.
  Variable devs : list endpoint.
  Variable I : list (list Z).
  Variable k : nat.
  Variable s0 : caches.
  Notation entered := (entered devs I k).

  (** All pairs before (i, j) are done. *)
  Definition upto_at (i j : nat) (s : caches) (c : nat) (x : Z) : Prop :=
    (exists i1 j1 m, entered i1 j1 c x m /\ (i1 < i \/ (i1 = i /\ j1 < j))%nat /\
       (forall i2 j2 m2, entered i2 j2 c x m2 -> (i2 < i \/ (i2 = i /\ j2 < j))%nat -> not_after i2 j2 i1 j1) /\ s c x = Some m) \/
    ((forall i1 j1 m, entered i1 j1 c x m -> ~ (i1 < i \/ (i1 = i /\ j1 < j))%nat) /\ s c x = s0 c x).
  Definition upto (i j : nat) (s : caches) : Prop := forall c x, upto_at i j s c x.

  Lemma nth_mid : forall (pre : list endpoint) o r, nth_error (pre ++ o :: r) (length pre) = Some o.
  Proof. intros. rewrite nth_error_app2 by lia. rewrite Nat.sub_diag. reflexivity. Qed.

  Lemma upto_skip2 : forall i j s s' c x, (forall m, ~ entered i j c x m) -> s' c x = s c x ->
    upto_at i j s c x -> upto_at i (S j) s' c x.
  Proof.
    intros i j s s' c x N EQ U.
    assert (B : forall i1 j1 m, entered i1 j1 c x m -> (i1 < i \/ (i1 = i /\ j1 < S j))%nat -> (i1 < i \/ (i1 = i /\ j1 < j))%nat).
    { intros i1 j1 m E [H|[-> H]]; [auto|]. right. split; [reflexivity|]. assert (j1 <> j) by (intros ->; exact (N _ E)). lia. }
    unfold upto_at. rewrite EQ. destruct U as [(i1 & j1 & m & E & L & M & V)|(NE & V)].
    - left. exists i1, j1, m. split; [assumption|]. split; [lia|]. split; [|assumption]. intros i2 j2 m2 E2 H. exact (M _ _ _ E2 (B _ _ _ E2 H)).
    - right. split; [|assumption]. intros i1 j1 m E H. exact (NE _ _ _ E (B _ _ _ E H)).
  Qed.
  Lemma upto_skip : forall i j s, (forall c x m, ~ entered i j c x m) -> upto i j s -> upto i (S j) s.
  Proof. intros i j s N U c x. apply (upto_skip2 i j s s c x (N c x) eq_refl (U c x)). Qed.

  Lemma fill_row_spec : forall i d, nth_error devs i = Some d -> forall others pre s,
    devs = pre ++ others -> upto i (length pre) s ->
    match fill_row I k i d (length pre) others s with
    | Ok s' => upto i (length devs) s' /\
        (forall j o, (length pre <= j)%nat -> peers devs i j d o -> e_cache d <> None /\ exists x, address_of I k (e_index o) x)
    | _ => exists j o, peers devs i j d o /\ (e_cache d = None \/ ~ exists x, address_of I k (e_index o) x)
    end.
  Proof.
    intros i d Hd. induction others as [|o r IH]; intros pre s Hs U.
    - rewrite app_nil_r in Hs. cbn. subst pre. split; [assumption|]. intros j o L (_ & _ & X & _).
      apply nth_error_None in L. congruence.
    - assert (No : nth_error devs (length pre) = Some o) by (rewrite Hs; apply nth_mid).
      assert (Hs' : devs = (pre ++ [o]) ++ r) by (rewrite <- app_assoc; exact Hs).
      assert (Ln : length (pre ++ [o]) = S (length pre)) by (rewrite app_length; cbn; lia).
      cbn [fill_row]. destruct (Nat.eqb i (length pre) || same_type (e_kind d) (e_kind o)) eqn:C.
      + assert (NP : forall d' o', peers devs i (length pre) d' o' -> False).
        { intros d' o' (P1 & P2 & P3 & P4 & P5). assert (d' = d) by congruence. assert (o' = o) by congruence. subst.
          apply orb_prop in C as [C|C]; [apply Nat.eqb_eq in C; contradiction|]. apply same_type_iff in C. tauto. }
        specialize (IH (pre ++ [o]) s Hs'). rewrite Ln in IH.
        specialize (IH (upto_skip _ _ _ (fun c x m (E : entered i (length pre) c x m) => match E with ex_intro _ d' (ex_intro _ o' (conj X _)) => NP d' o' X end) U)).
        destruct (fill_row I k i d (S (length pre)) r s); [|exact IH|exact IH]. destruct IH as [A B]. split; [assumption|].
        intros j o' L X. destruct (Nat.eq_dec j (length pre)) as [->|N]; [exfalso; exact (NP _ _ X)|]. apply (B j); [lia|assumption].
      + apply orb_false_elim in C as [C1 C2]. apply Nat.eqb_neq in C1.
        assert (PE : peers devs i (length pre) d o).
        { assert (~ ((e_kind d = Gnd /\ e_kind o = Gnd) \/ (e_kind d = Sat /\ e_kind o = Sat))) by (rewrite <- same_type_iff; congruence).
          unfold peers. tauto. }
        destruct (GetAddress_cases I (e_index o) k) as [(ip & G)|(G1 & G2)].
        * rewrite G. cbn [bind]. pose proof (proj1 (GetAddress_ok _ _ _ _) G) as AO. destruct (e_cache d) as [c|] eqn:EC.
          -- specialize (IH (pre ++ [o]) (set_entry s c ip (e_mac o)) Hs'). rewrite Ln in IH.
             assert (E0 : entered i (length pre) c ip (e_mac o)) by (exists d, o; auto).
             assert (ON : forall c' x' m', entered i (length pre) c' x' m' -> c' = c /\ x' = ip).
             { intros c' x' m' (d' & o' & (_ & P2 & P3 & _) & E1 & (l' & A1 & A2) & _). destruct AO as (l & B1 & B2).
               assert (d' = d) by congruence. assert (o' = o) by congruence. subst. split; congruence. }
             assert (U' : upto i (S (length pre)) (set_entry s c ip (e_mac o))).
             { intros c' x'. destruct (Nat.eq_dec c' c) as [->|NC]; [destruct (Z.eq_dec x' ip) as [->|NX]|].
               - left. exists i, (length pre), (e_mac o). split; [assumption|]. split; [lia|]. split; [|apply set_entry_same].
                 intros i2 j2 m2 _ H. unfold not_after. lia.
               - apply (upto_skip2 i (length pre) s); [|apply set_entry_other; auto|].
                 + intros m E. destruct (ON _ _ _ E). contradiction.
                 + apply U.
               - apply (upto_skip2 i (length pre) s); [|apply set_entry_other; auto|].
                 + intros m E. destruct (ON _ _ _ E). contradiction.
                 + apply U. }
             specialize (IH U'). destruct (fill_row I k i d (S (length pre)) r _); [|exact IH|exact IH]. destruct IH as [A B]. split; [assumption|].
             intros j o' L X. destruct (Nat.eq_dec j (length pre)) as [->|N].
             ++ split; [congruence|]. destruct X as (_ & _ & X & _). assert (o' = o) by congruence. subst. eauto.
             ++ apply (B j); [lia|assumption].
          -- exists (length pre), o. auto.
        * destruct (GetAddress I (e_index o) k); [discriminate| |]; cbn [bind]; exists (length pre), o; auto.
  Qed.

  Lemma fill_spec : forall rest pre s, devs = pre ++ rest -> upto (length pre) 0 s ->
    match fill I k devs (length pre) rest s with
    | Ok s' => upto (length devs) 0 s' /\
        (forall d, In d rest -> e_interface d = true) /\
        (forall i j d o, (length pre <= i)%nat -> peers devs i j d o -> e_cache d <> None /\ exists x, address_of I k (e_index o) x)
    | _ => ~ complete devs I k
    end.
  Proof.
    induction rest as [|d r IH]; intros pre s Hs U.
    - rewrite app_nil_r in Hs. cbn. subst pre. split; [assumption|]. split; [tauto|]. intros i j d o L (_ & X & _).
      apply nth_error_None in L. congruence.
    - assert (Nd : nth_error devs (length pre) = Some d) by (rewrite Hs; apply nth_mid).
      assert (Hs' : devs = (pre ++ [d]) ++ r) by (rewrite <- app_assoc; exact Hs).
      assert (Ln : length (pre ++ [d]) = S (length pre)) by (rewrite app_length; cbn; lia).
      cbn [fill]. destruct (e_interface d) eqn:EI.
      + pose proof (fill_row_spec (length pre) d Nd devs [] s eq_refl U) as R. cbn [length] in R.
        destruct (fill_row I k (length pre) d 0 devs s) as [s'|w|w]; cbn [bind].
        * destruct R as [U' PR]. specialize (IH (pre ++ [d]) s' Hs'). rewrite Ln in IH.
          assert (U2 : upto (S (length pre)) 0 s').
          { intros c x.
            assert (B : forall i1 j1 m, entered i1 j1 c x m -> (i1 < S (length pre) \/ (i1 = S (length pre) /\ j1 < 0))%nat ->
                        (i1 < length pre \/ (i1 = length pre /\ j1 < length devs))%nat).
            { intros i1 j1 m (d' & o' & (_ & _ & P3 & _) & _) H. assert (j1 < length devs)%nat by (apply nth_error_Some; congruence). lia. }
            destruct (U' c x) as [(i1 & j1 & m & E & L & M & V)|(NE & V)].
            - left. exists i1, j1, m. split; [assumption|]. split; [lia|]. split; [|assumption].
              intros i2 j2 m2 E2 H. exact (M _ _ _ E2 (B _ _ _ E2 H)).
            - right. split; [|assumption]. intros i1 j1 m E H. exact (NE _ _ _ E (B _ _ _ E H)). }
          specialize (IH U2). destruct (fill I k devs (S (length pre)) r s'); [|exact IH|exact IH].
          destruct IH as (A & B & C). split; [assumption|]. split.
          -- intros d' [<-|H]; auto.
          -- intros i j d' o L X. destruct (Nat.eq_dec i (length pre)) as [->|N].
             ++ assert (d' = d) by (destruct X as (_ & X & _); congruence). subst. apply (PR j); [lia|assumption].
             ++ apply (C i j); [lia|assumption].
        * intros [_ X]. destruct R as (j & o & PE & R). destruct (X _ _ _ _ PE) as [X1 X2]. tauto.
        * intros [_ X]. destruct R as (j & o & PE & R). destruct (X _ _ _ _ PE) as [X1 X2]. tauto.
      + intros [X _]. specialize (X d). rewrite EI in X. assert (In d devs) by (rewrite Hs; apply in_or_app; right; left; reflexivity).
        specialize (X H). discriminate.
  Qed.
End Fill.

Lemma fill_exact : forall devs I k s,
  (complete devs I k -> exists s', fill I k devs 0 devs s = Ok s') /\
  (forall s', fill I k devs 0 devs s = Ok s' -> complete devs I k /\ forall c x,
     (exists i j m, entered devs I k i j c x m /\ (forall i2 j2 m2, entered devs I k i2 j2 c x m2 -> not_after i2 j2 i j) /\ s' c x = Some m) \/
     ((forall i j m, ~ entered devs I k i j c x m) /\ s' c x = s c x)).
Proof.
  intros devs I k s.
  assert (U : upto devs I k s 0 0 s) by (intros c x; right; split; [intros; lia|reflexivity]).
  pose proof (fill_spec devs I k s devs [] s eq_refl U) as F. cbn [length] in F.
  destruct (fill I k devs 0 devs s) as [s'|w|w]; (split; [intros C|intros s1 E]); try discriminate; try contradiction; [eauto|].
  injection E as <-. destruct F as (U' & A & B). split; [split; [assumption|intros i j d o; apply B; lia]|].
  assert (L : forall i j c x m, entered devs I k i j c x m -> (i < length devs)%nat).
  { intros i j c x m (d & o & (_ & P & _) & _). apply nth_error_Some. congruence. }
  intros c x. destruct (U' c x) as [(i1 & j1 & m & E & _ & M & V)|(NE & V)].
  - left. exists i1, j1, m. split; [assumption|]. split; [|assumption]. intros i2 j2 m2 E2. apply (M _ _ _ E2). left. eauto.
  - right. split; [|assumption]. intros i j m E. apply (NE _ _ _ E). left. eauto.
Qed.

