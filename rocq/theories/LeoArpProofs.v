(** ARP entries made by LeoHelper. *)
Require Import ZArith List Bool Lia ZifyBool.
Require Import Verif.Base Verif.Num Verif.NetModel Verif.CacheModel Verif.CacheSpec Verif.CacheProofs Verif.LeoHelperModel Verif.LeoHelperSpec Verif.LeoHelperProofs.
Import ListNotations.
Local Open Scope Z_scope.

Lemma nth_assigned : forall ip k n i, nth_error (assigned ip k n) i = if (i <? n)%nat then Some [ip (k + i)%nat] else None.
Proof.
  intros ip k n i. unfold assigned. rewrite nth_error_map. destruct (Nat.ltb_spec i n) as [H|H].
  - rewrite (nth_error_nth' (seq k n) 0%nat) by (rewrite seq_length; assumption). rewrite seq_nth by assumption. reflexivity.
  - assert (E : nth_error (seq k n) i = None) by (apply nth_error_None; rewrite seq_length; assumption). rewrite E. reflexivity.
Qed.
Lemma address_assigned : forall ip k n i x, address_of (assigned ip k n) 0 i x <-> (i < n)%nat /\ x = ip (k + i)%nat.
Proof.
  intros ip k n i x. unfold address_of. rewrite nth_assigned. destruct (Nat.ltb_spec i n) as [H|H]; split.
  - intros (l & E & E2). injection E as <-. cbn in E2. injection E2 as <-. auto.
  - intros [_ ->]. eexists. split; reflexivity.
  - intros (l & E & _). discriminate.
  - lia.
Qed.

(** ** Satellites and ground devices *)
Definition star_net (devs : list endpoint) (d n m ks kg : nat) (mac : nat -> Z) : Prop :=
  length devs = (n + m)%nat /\
  forall i e, nth_error devs i = Some e ->
    e = mkEndpoint (mac i) (if (i <? n)%nat then ks else kg) (if (i <? n)%nat then Sat else Gnd) true (Some (d + i)%nat).

Lemma star_arp : forall devs d n m ks kg mac ip k s, star_net devs d n m ks kg mac ->
  (0 < n)%nat -> (0 < m)%nat -> (ks < n + m)%nat -> (kg < n + m)%nat ->
  exists s', arp_install devs (assigned ip k (n + m)) s = Ok s' /\ forall c y, s' c y =
    primed (primed s d n (ip (k + kg)%nat) (mac (n + m - 1)%nat)) (d + n) m (ip (k + ks)%nat) (mac (n - 1)%nat) c y.
Proof.
  intros devs d n m ks kg mac ip k s [LEN NET] N0 M0 KS KG.
  assert (PEER : forall i j e o, peers devs i j e o ->
    ((i < n)%nat /\ (n <= j < n + m)%nat /\ e_cache e = Some (d + i)%nat /\ e_index o = kg /\ e_mac o = mac j) \/
    ((n <= i < n + m)%nat /\ (j < n)%nat /\ e_cache e = Some (d + i)%nat /\ e_index o = ks /\ e_mac o = mac j)).
  { intros i j e o (_ & Hi & Hj & P1 & P2).
    assert (Li : (i < n + m)%nat) by (rewrite <- LEN; apply nth_error_Some; congruence).
    assert (Lj : (j < n + m)%nat) by (rewrite <- LEN; apply nth_error_Some; congruence).
    rewrite (NET _ _ Hi), (NET _ _ Hj) in P1, P2 |- *. cbn [e_kind e_cache e_index e_mac] in P1, P2 |- *.
    destruct (Nat.ltb_spec i n), (Nat.ltb_spec j n);
      [exfalso; apply P2; split; reflexivity|left; repeat split; lia|right; repeat split; lia|exfalso; apply P1; split; reflexivity]. }
  assert (CO : complete devs (assigned ip k (n + m)) 0).
  { split.
    - intros e He. apply In_nth_error in He as (i & Hi). rewrite (NET _ _ Hi). reflexivity.
    - intros i j e o P. apply PEER in P as [(_ & _ & C & I & _)|(_ & _ & C & I & _)]; rewrite C, I; (split; [discriminate|]);
        eexists; apply address_assigned; (split; [assumption|reflexivity]). }
  destruct (fill_exact devs (assigned ip k (n + m)) 0 s) as [F1 F2]. destruct (F1 CO) as (s' & F). exists s'. split; [exact F|].
  destruct (F2 s' F) as [_ V]. intros c y.
  assert (EN : forall i j c x v, entered devs (assigned ip k (n + m)) 0 i j c x v <->
    ((i < n)%nat /\ (n <= j < n + m)%nat /\ c = (d + i)%nat /\ x = ip (k + kg)%nat /\ v = mac j) \/
    ((n <= i < n + m)%nat /\ (j < n)%nat /\ c = (d + i)%nat /\ x = ip (k + ks)%nat /\ v = mac j)).
  { intros i j c0 x v. split.
    - intros (e & o & P & C & A & ->). apply address_assigned in A as [A ->].
      apply PEER in P as [(A1 & A2 & A3 & A4 & A5)|(A1 & A2 & A3 & A4 & A5)]; rewrite A4, A5; rewrite A3 in C; injection C as <-; [left|right]; auto 10.
    - intros H. assert (Li : (i < length devs)%nat) by lia. assert (Lj : (j < length devs)%nat) by lia.
      apply nth_error_Some in Li. apply nth_error_Some in Lj.
      destruct (nth_error devs i) as [e|] eqn:Hi; [|contradiction]. destruct (nth_error devs j) as [o|] eqn:Hj; [|contradiction].
      exists e, o. unfold peers. rewrite Hi, Hj. pose proof (NET _ _ Hi) as Ei. pose proof (NET _ _ Hj) as Ej. subst e o. cbn [e_kind e_cache e_index e_mac].
      destruct H as [(A1 & A2 & -> & -> & ->)|(A1 & A2 & -> & -> & ->)];
        destruct (Nat.ltb_spec i n), (Nat.ltb_spec j n); try lia;
        repeat split; try lia; try assumption; try (intros [? ?]; discriminate); apply address_assigned; auto. }
  unfold primed. destruct (V c y) as [(i & j & v & E & MX & ->)|(NE & ->)].
  - apply EN in E as [(A1 & A2 & -> & -> & ->)|(A1 & A2 & -> & -> & ->)].
    + pose proof (MX i (n + m - 1)%nat (mac (n + m - 1)%nat)) as Q. rewrite EN in Q. unfold not_after in Q.
      replace (n + m - 1)%nat with j by lia.
      replace ((d + n <=? d + i)%nat) with false by lia. replace ((d <=? d + i)%nat) with true by lia.
      replace ((d + i <? d + n)%nat) with true by lia. cbn [andb]. rewrite Z.eqb_refl. reflexivity.
    + pose proof (MX i (n - 1)%nat (mac (n - 1)%nat)) as Q. rewrite EN in Q. unfold not_after in Q.
      replace (n - 1)%nat with j by lia.
      replace ((d + n <=? d + i)%nat) with true by lia.
      replace ((d + i <? d + n + m)%nat) with true by lia. cbn [andb]. rewrite Z.eqb_refl. reflexivity.
  - destruct ((d + n <=? c)%nat && (c <? d + n + m)%nat && (y =? ip (k + ks)%nat)) eqn:B1.
    + exfalso. apply (NE (c - d)%nat 0%nat (mac 0%nat)). apply EN. right. lia.
    + destruct ((d <=? c)%nat && (c <? d + n)%nat && (y =? ip (k + kg)%nat)) eqn:B2; [|reflexivity].
      exfalso. apply (NE (c - d)%nat n (mac n)). apply EN. left. lia.
Qed.

Lemma arp_same_kind : forall devs I s k, k <> Plain -> (forall e, In e devs -> e_kind e = k /\ e_interface e = true) ->
  exists s', arp_install devs I s = Ok s' /\ forall c y, s' c y = s c y.
Proof.
  intros devs I s k K H.
  assert (NP : forall i j e o, ~ peers devs i j e o).
  { intros i j e o (_ & Hi & Hj & P1 & P2). apply nth_error_In in Hi. apply nth_error_In in Hj. apply H in Hi as [Hi _]. apply H in Hj as [Hj _].
    rewrite Hi, Hj in *. destruct k; tauto. }
  destruct (fill_exact devs I 0 s) as [F1 F2].
  assert (CO : complete devs I 0) by (split; [intros e He; apply H; assumption|intros i j e o P; exfalso; eapply NP; exact P]).
  destruct (F1 CO) as (s' & F). exists s'. split; [exact F|]. destruct (F2 s' F) as [_ V]. intros c y.
  destruct (V c y) as [(i & j & v & (e & o & P & _) & _)|(_ & ->)]; [exfalso; eapply NP; exact P|reflexivity].
Qed.

(** ** Inter-satellite devices *)
Definition mesh_net (devs : list endpoint) (d n ix : nat) (mac : nat -> Z) : Prop :=
  length devs = n /\ forall i e, nth_error devs i = Some e -> e = mkEndpoint (mac i) ix Plain true (Some (d + i)%nat).

Lemma mesh_arp : forall devs d n ix mac ip k s, mesh_net devs d n ix mac -> (2 <= n)%nat -> (ix < n)%nat ->
  exists s', arp_install devs (assigned ip k n) s = Ok s' /\ forall c y, s' c y =
    primed (primed s d (n - 1) (ip (k + ix)%nat) (mac (n - 1)%nat)) (d + n - 1) 1 (ip (k + ix)%nat) (mac (n - 2)%nat) c y.
Proof.
  intros devs d n ix mac ip k s [LEN NET] N2 IX.
  assert (AT : forall i e, nth_error devs i = Some e -> (i < n)%nat) by (intros i e H; rewrite <- LEN; apply nth_error_Some; congruence).
  assert (CO : complete devs (assigned ip k n) 0).
  { split.
    - intros e He. apply In_nth_error in He as (i & Hi). rewrite (NET _ _ Hi). reflexivity.
    - intros i j e o (_ & Hi & Hj & _). rewrite (NET _ _ Hi), (NET _ _ Hj). cbn. split; [discriminate|].
      eexists. apply address_assigned. split; [assumption|reflexivity]. }
  destruct (fill_exact devs (assigned ip k n) 0 s) as [F1 F2]. destruct (F1 CO) as (s' & F). exists s'. split; [exact F|].
  destruct (F2 s' F) as [_ V]. intros c y.
  assert (EN : forall i j c x v, entered devs (assigned ip k n) 0 i j c x v <->
    ((i < n)%nat /\ (j < n)%nat /\ i <> j /\ c = (d + i)%nat /\ x = ip (k + ix)%nat /\ v = mac j)).
  { intros i j c0 x v. split.
    - intros (e & o & (NE & Hi & Hj & _) & C & A & ->). apply address_assigned in A as [A ->].
      rewrite (NET _ _ Hi) in C. rewrite (NET _ _ Hj). cbn in C. injection C as <-. eauto 10.
    - intros (A1 & A2 & A3 & -> & -> & ->). assert (Li : (i < length devs)%nat) by lia. assert (Lj : (j < length devs)%nat) by lia.
      apply nth_error_Some in Li. apply nth_error_Some in Lj.
      destruct (nth_error devs i) as [e|] eqn:Hi; [|contradiction]. destruct (nth_error devs j) as [o|] eqn:Hj; [|contradiction].
      exists e, o. unfold peers. rewrite Hi, Hj. pose proof (NET _ _ Hi) as Ei. pose proof (NET _ _ Hj) as Ej. subst e o. cbn [e_kind e_cache e_index e_mac].
      repeat split; try lia; try assumption; try (intros [? ?]; discriminate). apply address_assigned. auto. }
  unfold primed. destruct (V c y) as [(i & j & v & E & MX & ->)|(NE & ->)].
  - apply EN in E as (A1 & A2 & A3 & -> & -> & ->). rewrite Z.eqb_refl.
    destruct (Nat.eq_dec i (n - 1)) as [->|NI].
    + pose proof (MX (n - 1)%nat (n - 2)%nat (mac (n - 2)%nat)) as Q. rewrite EN in Q. unfold not_after in Q.
      replace (n - 2)%nat with j by lia.
      replace ((d + n - 1 <=? d + (n - 1))%nat) with true by lia. replace ((d + (n - 1) <? d + n - 1 + 1)%nat) with true by lia. reflexivity.
    + pose proof (MX i (n - 1)%nat (mac (n - 1)%nat)) as Q. rewrite EN in Q. unfold not_after in Q.
      replace (n - 1)%nat with j by lia.
      replace ((d + n - 1 <=? d + i)%nat) with false by lia. replace ((d <=? d + i)%nat) with true by lia.
      replace ((d + i <? d + j)%nat) with true by lia. reflexivity.
  - destruct ((d + n - 1 <=? c)%nat && (c <? d + n - 1 + 1)%nat && (y =? ip (k + ix)%nat)) eqn:B1.
    + exfalso. apply (NE (n - 1)%nat 0%nat (mac 0%nat)). apply EN. lia.
    + destruct ((d <=? c)%nat && (c <? d + (n - 1))%nat && (y =? ip (k + ix)%nat)) eqn:B2; [|reflexivity].
      exfalso. apply (NE (c - d)%nat (n - 1)%nat (mac (n - 1)%nat)). apply EN. lia.
Qed.
Lemma mesh_single : forall devs d n ix mac I s, mesh_net devs d n ix mac -> (n < 2)%nat ->
  exists s', arp_install devs I s = Ok s' /\ forall c y, s' c y = s c y.
Proof.
  intros devs d n ix mac I s [LEN NET] N2. destruct devs as [|e [|e' l]]; cbn in LEN; [| |lia].
  - exists s. split; reflexivity.
  - exists s. split; [|reflexivity]. rewrite (NET 0%nat e eq_refl). reflexivity.
Qed.

(** Two devices, a satellite and a terminal with an index out of range. *)
Lemma pair_arp : forall devs d ks kg mac ip k s, star_net devs d 1 1 ks kg mac -> (2 <= ks)%nat -> (kg < 2)%nat ->
  arp_install devs (assigned ip k 2) s = UB OutOfRange.
Proof.
  intros devs d ks kg mac ip k s [LEN NET] KS KG. destruct devs as [|a [|b [|? ?]]]; cbn in LEN; try lia.
  rewrite (NET 0%nat a eq_refl), (NET 1%nat b eq_refl). unfold arp_install. cbn [fill e_interface].
  cbn [fill_row Nat.eqb orb same_type e_kind e_index e_cache Nat.ltb Nat.leb bind].
  unfold GetAddress. rewrite !nth_assigned. replace ((kg <? 2)%nat) with true by lia. cbn [nth_error bind].
  replace ((ks <? 2)%nat) with false by lia. reflexivity.
Qed.

(** ** Endpoints *)
Lemma nth_combine : forall (a b : list nat) i x y, nth_error a i = Some x -> nth_error b i = Some y -> nth_error (combine a b) i = Some (x, y).
Proof. induction a as [|? a IH]; intros [|? b] [|i] x y H1 H2; try discriminate; cbn in *; [congruence|auto]. Qed.
Lemma endpoints_length : forall {N : Num} (w : world N) d l, length (endpoints w d l) = length l.
Proof. intros N w d l. unfold endpoints. rewrite map_length, combine_length, seq_length. lia. Qed.
Lemma nth_endpoints : forall {N : Num} (w : world N) d l i e, nth_error (endpoints w d l) i = Some e ->
  exists x, nth_error l i = Some x /\ e = mkEndpoint (addr_of w (d + i)) x (g_kind (d_cfg (w_dev w (d + i)))) true (Some (d + i)%nat).
Proof.
  intros N w d l i e H. assert (L : (i < length l)%nat) by (rewrite <- (endpoints_length w d); apply nth_error_Some; congruence).
  destruct (nth_error l i) as [x|] eqn:E; [|apply nth_error_None in E; lia]. exists x. split; [reflexivity|].
  unfold endpoints in H. rewrite nth_error_map in H.
  rewrite (nth_combine (seq d (length l)) l i (d + i)%nat x) in H; [cbn in H; congruence| |assumption].
  rewrite (nth_error_nth' _ 0%nat) by (rewrite seq_length; assumption). rewrite seq_nth by assumption. reflexivity.
Qed.
Lemma nth_repeat2 : forall n m (a b : nat) i x, nth_error (repeat a n ++ repeat b m) i = Some x -> x = if (i <? n)%nat then a else b.
Proof.
  intros n m a b i x H. destruct (Nat.ltb_spec i n).
  - rewrite nth_error_app1 in H by (rewrite repeat_length; assumption). apply nth_error_In, repeat_spec in H. assumption.
  - rewrite nth_error_app2 in H by (rewrite repeat_length; assumption). apply nth_error_In, repeat_spec in H. assumption.
Qed.
