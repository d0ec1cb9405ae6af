(** ARP and NDISC caches (C61). *)
Require Import ZArith List Bool Lia ZifyBool.
Require Import Verif.Base Verif.NetModel Verif.CacheModel Verif.CacheSpec Verif.CacheProofs.
Import ListNotations.
Local Open Scope Z_scope.

(** [outcome devs interfaces k s r]: [r] succeeds exactly if everything needed
    exists; then an entry is that of the last device for which it was set, or as
    before. *)
Definition outcome (devs : list endpoint) (interfaces : list (list Z)) (k : nat) (s : caches) (r : res caches) : Prop :=
  (complete devs interfaces k <-> exists s', r = Ok s') /\
  forall s', r = Ok s' -> forall c x,
    (exists i j m, entered devs interfaces k i j c x m /\
       (forall i2 j2 m2, entered devs interfaces k i2 j2 c x m2 -> not_after i2 j2 i j) /\ s' c x = Some m) \/
    ((forall i j m, ~ entered devs interfaces k i j c x m) /\ s' c x = s c x).

Lemma fill_outcome : forall devs I k s, outcome devs I k s (fill I k devs 0 devs s).
Proof.
  intros devs I k s. destruct (fill_exact devs I k s) as [A B]. split.
  - split; [exact A|]. intros (s' & E). exact (proj1 (B s' E)).
  - intros s' E. exact (proj2 (B s' E)).
Qed.

Theorem C61_arp_exact : forall devs interfaces s, outcome devs interfaces 0 s (arp_install devs interfaces s).
Proof. intros. apply fill_outcome. Qed.
Print Assumptions C61_arp_exact.
Theorem C61_nd_exact : forall devs interfaces s, outcome devs interfaces 1 s (nd_install devs interfaces s).
Proof. intros. apply fill_outcome. Qed.
Print Assumptions C61_nd_exact.

(** Each device has its own cache; the interface of the device [j] of the container
    is interface [j] of the other container, and their addresses differ. *)
Definition own_caches (devs : list endpoint) : Prop :=
  forall i j d o c, nth_error devs i = Some d -> nth_error devs j = Some o -> e_cache d = Some c -> e_cache o = Some c -> i = j.
Definition own_addresses (interfaces : list (list Z)) (k : nat) : Prop :=
  forall i j x, address_of interfaces k i x -> address_of interfaces k j x -> i = j.

(** What the helper is for: device [i] finds the link-layer address of every peer
    under the network address of the peer, and nothing else changes. *)
Definition resolves (devs : list endpoint) (interfaces : list (list Z)) (k : nat) (s s' : caches) : Prop :=
  forall i d c, nth_error devs i = Some d -> e_cache d = Some c ->
    (forall j o x, peers devs i j d o -> address_of interfaces k j x -> s' c x = Some (e_mac o)) /\
    (forall x, (forall j o, peers devs i j d o -> ~ address_of interfaces k j x) -> s' c x = s c x).

Lemma outcome_resolves : forall devs I k s r s', outcome devs I k s r -> r = Ok s' ->
  own_caches devs -> own_addresses I k -> (forall j o, nth_error devs j = Some o -> e_index o = j) -> resolves devs I k s s'.
Proof.
  intros devs I k s r s' [_ H] E OC OA IDX i d c Hd Hc.
  assert (EN : forall i1 j1 x m, entered devs I k i1 j1 c x m -> i1 = i /\ exists o, peers devs i j1 d o /\ address_of I k j1 x /\ m = e_mac o).
  { intros i1 j1 x m (d1 & o1 & P & C1 & A & M). assert (i1 = i) by (destruct P as (_ & P & _); exact (OC _ _ _ _ _ P Hd C1 Hc)). subst i1.
    split; [reflexivity|]. exists o1. assert (d1 = d) by (destruct P as (_ & P & _); congruence). subst.
    rewrite (IDX j1 o1) in A by (destruct P as (_ & _ & P & _); assumption). auto. }
  split.
  - intros j o x P A.
    assert (E0 : entered devs I k i j c x (e_mac o)).
    { exists d, o. split; [assumption|]. split; [assumption|]. split; [|reflexivity]. rewrite (IDX j o); [assumption|]. apply P. }
    destruct (H s' E c x) as [(i1 & j1 & m & E1 & _ & ->)|(N & _)]; [|exfalso; exact (N _ _ _ E0)].
    destruct (EN _ _ _ _ E1) as (_ & o1 & P1 & A1 & ->). assert (j1 = j) by exact (OA _ _ _ A1 A). subst.
    destruct P as (_ & _ & P & _), P1 as (_ & _ & P1 & _). congruence.
  - intros x N. destruct (H s' E c x) as [(i1 & j1 & m & E1 & _)|(_ & V)]; [|exact V].
    destruct (EN _ _ _ _ E1) as (_ & o1 & P1 & A1 & _). exfalso. exact (N _ _ P1 A1).
Qed.

Theorem C61_arp_resolves : forall devs interfaces s,
  complete devs interfaces 0 -> own_caches devs -> own_addresses interfaces 0 ->
  (forall j o, nth_error devs j = Some o -> e_index o = j) ->
  exists s', arp_install devs interfaces s = Ok s' /\ resolves devs interfaces 0 s s'.
Proof.
  intros devs I s C OC OA IDX. pose proof (C61_arp_exact devs I s) as O. destruct (proj1 (proj1 O) C) as (s' & E).
  exists s'. split; [assumption|]. exact (outcome_resolves _ _ _ _ _ _ O E OC OA IDX).
Qed.
Print Assumptions C61_arp_resolves.
Theorem C61_nd_resolves : forall devs interfaces s,
  complete devs interfaces 1 -> own_caches devs -> own_addresses interfaces 1 ->
  (forall j o, nth_error devs j = Some o -> e_index o = j) ->
  exists s', nd_install devs interfaces s = Ok s' /\ resolves devs interfaces 1 s s'.
Proof.
  intros devs I s C OC OA IDX. pose proof (C61_nd_exact devs I s) as O. destruct (proj1 (proj1 O) C) as (s' & E).
  exists s'. split; [assumption|]. exact (outcome_resolves _ _ _ _ _ _ O E OC OA IDX).
Qed.
Print Assumptions C61_nd_resolves.

(** One device per node: all have the same index [n], and only the address of
    interface [n] gets an entry, with the link-layer address of the last peer. *)
Theorem C61_same_index : forall devs interfaces k n s s' x,
  (k = 0%nat /\ arp_install devs interfaces s = Ok s') \/ (k = 1%nat /\ nd_install devs interfaces s = Ok s') ->
  (forall o, In o devs -> e_index o = n) -> address_of interfaces k n x -> own_caches devs ->
  forall i d c, nth_error devs i = Some d -> e_cache d = Some c ->
    (forall y, y <> x -> s' c y = s c y) /\
    (forall j o, peers devs i j d o -> (forall j2 o2, peers devs i j2 d o2 -> (j2 <= j)%nat) -> s' c x = Some (e_mac o)).
Proof.
  intros devs I k n s s' x HK IDX AX OC i d c Hd Hc.
  assert (O : outcome devs I k s (Ok s')).
  { destruct HK as [[-> HK]|[-> HK]]; rewrite <- HK; [apply C61_arp_exact|apply C61_nd_exact]. }
  assert (EX : forall i1 j1 y m, entered devs I k i1 j1 c y m -> y = x /\ i1 = i /\ exists o, peers devs i j1 d o /\ m = e_mac o).
  { intros i1 j1 y m (d1 & o1 & P & C1 & A & M).
    assert (i1 = i) by (destruct P as (_ & P & _); exact (OC _ _ _ _ _ P Hd C1 Hc)). subst i1.
    assert (d1 = d) by (destruct P as (_ & P & _); congruence). subst d1.
    rewrite IDX in A by (destruct P as (_ & _ & P & _); exact (nth_error_In _ _ P)).
    destruct A as (l & A1 & A2), AX as (l' & B1 & B2). split; [congruence|]. split; [reflexivity|]. eauto. }
  split.
  - intros y Hy. destruct (proj2 O s' eq_refl c y) as [(i1 & j1 & m & E & _)|(_ & V)]; [|assumption]. destruct (EX _ _ _ _ E). contradiction.
  - intros j o P LAST.
    assert (E0 : entered devs I k i j c x (e_mac o)).
    { exists d, o. split; [assumption|]. split; [assumption|]. split; [|reflexivity].
      rewrite IDX by (destruct P as (_ & _ & P & _); exact (nth_error_In _ _ P)). assumption. }
    destruct (proj2 O s' eq_refl c x) as [(i1 & j1 & m & E & M & ->)|(N & _)]; [|exfalso; exact (N _ _ _ E0)].
    destruct (EX _ _ _ _ E) as (_ & -> & o1 & P1 & ->). pose proof (M _ _ _ E0) as MM. pose proof (LAST _ _ P1) as LL.
    assert (j1 = j) by (unfold not_after in MM; lia). subst. destruct P as (_ & _ & P & _), P1 as (_ & _ & P1 & _). congruence.
Qed.
Print Assumptions C61_same_index.

(** Three nodes with one device each, beside the loopback device. *)
Definition sky : list endpoint :=
  [ mkEndpoint 101 1 Sat true (Some 0%nat); mkEndpoint 102 1 Gnd true (Some 1%nat); mkEndpoint 103 1 Gnd true (Some 2%nat) ].
Definition nets : list (list Z) := [ [11; 21]; [12; 22]; [13; 23] ].
Definition empty : caches := fun _ _ => None.

(** Everything exists, each device has its own cache and address, but the
    satellite does not resolve the ground nodes. *)
Theorem C61_refuted : exists devs interfaces s s',
  complete devs interfaces 0 /\ own_caches devs /\ own_addresses interfaces 0 /\
  arp_install devs interfaces s = Ok s' /\ ~ resolves devs interfaces 0 s s'.
Proof.
  exists sky, nets, empty.
  destruct (arp_install sky nets empty) as [s'|w|w] eqn:E; [|discriminate|discriminate]. exists s'.
  split; [apply (proj1 (C61_arp_exact sky nets empty)); eauto|]. split; [|split; [|split; [reflexivity|]]].
  - intros i j d o c H1 H2 H3 H4.
    destruct i as [|[|[|i]]], j as [|[|[|j]]]; cbn in H1, H2; try reflexivity; try (destruct i; discriminate); try (destruct j; discriminate);
      injection H1 as <-; injection H2 as <-; cbn in H3, H4; congruence.
  - intros i j x (l1 & A1 & A2) (l2 & B1 & B2).
    destruct i as [|[|[|i]]], j as [|[|[|j]]]; cbn in A1, B1; try reflexivity; try (destruct i; discriminate); try (destruct j; discriminate);
      injection A1 as <-; injection B1 as <-; cbn in A2, B2; congruence.
  - intros R. destruct (R 0%nat (mkEndpoint 101 1 Sat true (Some 0%nat)) 0%nat eq_refl eq_refl) as [R1 _].
    assert (X : s' 0%nat 12 = Some 102).
    { apply (R1 1%nat (mkEndpoint 102 1 Gnd true (Some 1%nat)) 12).
      - unfold peers. cbn. repeat split; try discriminate; intros [? ?]; discriminate.
      - exists [12; 22]. split; reflexivity. }
    injection E as <-. vm_compute in X. discriminate.
Qed.
Print Assumptions C61_refuted.

(** With container indices as device indices the same network is resolved. *)
Definition sky_indexed : list endpoint :=
  [ mkEndpoint 101 0 Sat true (Some 0%nat); mkEndpoint 102 1 Gnd true (Some 1%nat); mkEndpoint 103 2 Gnd true (Some 2%nat) ].
Example C61_example :
  (forall j o, nth_error sky_indexed j = Some o -> e_index o = j) /\
  (exists s', arp_install sky_indexed nets empty = Ok s' /\
     s' 0%nat 12 = Some 102 /\ s' 0%nat 13 = Some 103 /\ s' 0%nat 11 = None /\ s' 1%nat 11 = Some 101 /\ s' 1%nat 13 = None) /\
  (exists s', nd_install sky nets empty = Ok s' /\ s' 0%nat 22 = Some 103 /\ s' 0%nat 23 = None) /\
  complete sky_indexed nets 0.
Proof.
  split; [|split; [|split]].
  - intros j o H. destruct j as [|[|[|j]]]; cbn in H; try (destruct j; discriminate); injection H as <-; reflexivity.
  - eexists. split; [reflexivity|]. repeat split.
  - eexists. split; [reflexivity|]. repeat split.
  - apply (proj1 (C61_arp_exact sky_indexed nets empty)). eexists. reflexivity.
Qed.
