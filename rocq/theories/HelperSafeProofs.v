(** Programs made of installations by the helpers, sends and events never fail. *)
Require Import ZArith List Bool String Lia ZifyBool.
Require Import Verif.Base Verif.Num Verif.Vec Verif.LossModel Verif.FrameModel Verif.NetModel Verif.NetSpec Verif.NetSteps Verif.NetInv
  Verif.NetTxProofs Verif.NetSendProofs Verif.NetChanProofs Verif.NetProvProofs Verif.NetSideProofs Verif.NetSafeProofs
  Verif.HelperModel Verif.HelperProofs.
Import ListNotations.
Local Open Scope Z_scope.

Section HelperSafe.
  Context {N : Num}.
  Variable crc : list Z -> Z.
  Variable fcs : bool.
  Variable tx_time : Z -> Z -> Z.
  Variable has_mob : nat -> bool.
  Hypothesis tx_time_nonneg : forall bps n, 0 < bps -> 0 <= n -> 0 <= tx_time bps n.
  Variable pos : nat -> Z -> vec N.
  Variable seconds : num N -> Z.
  Notation reachable := (@reachable N crc fcs tx_time has_mob).
  Notation step := (@step N crc fcs tx_time has_mob).
  Notation run := (@run N crc fcs tx_time has_mob).
  Notation program := (@program N pos seconds).
  Implicit Type w : world N.

  Definition good_attrs (l : list (attr N)) : Prop :=
    forall a, In a l -> match a with ARate bps => 0 < bps | AGap t => 0 <= t | _ => True end.
  Definition good (a : act N) : Prop :=
    match a with
    | ALeoInstall h _ _ => good_attrs (lh_sat h) /\ good_attrs (lh_gnd h) /\
        (forall a b t, 0 <= constant_speed pos seconds (lh_speed h) a b t)
    | AIslInstall h _ => good_attrs (ih_dev h) /\
        (forall f, In (ADelay (Some f)) (ih_chan h) -> forall a b t, 0 <= f a b t)
    | AOp o => usual o
    end.
  Definition installed (a : act N) : nat :=
    match a with
    | ALeoInstall _ sats gnds => List.length (sats ++ gnds)
    | AIslInstall _ nodes => List.length nodes
    | AOp _ => 0
    end.
  Definition total (l : list (act N)) : Z := fold_right (fun a n => Z.of_nat (installed a) + n) 0 l.
  Lemma total_nonneg : forall l, 0 <= total l.
  Proof. induction l as [|a r IH]; cbn [total fold_right]; [lia|]. fold (total r). lia. Qed.

  Lemma reachable_run : forall ops w w', reachable w -> run w ops = Ok w' -> reachable w'.
  Proof.
    induction ops as [|o r IH]; intros w w' R H; cbn in H; [congruence|].
    destruct (step w o) as [w1| |] eqn:E; try discriminate. cbn in H. eapply IH; [|exact H]. eapply reachable_step; eassumption.
  Qed.

  Lemma attrs_ready : forall l leo, good_attrs l -> 0 <= g_gap (attrs_cfg (N := N) (new_cfg leo) l) /\ 0 < g_bps (attrs_cfg (N := N) (new_cfg leo) l).
  Proof.
    intros l leo. assert (G : forall l (g : cfg N), good_attrs l -> 0 <= g_gap g /\ 0 < g_bps g -> 0 <= g_gap (attrs_cfg g l) /\ 0 < g_bps (attrs_cfg g l)).
    { induction l0 as [|a r IH]; intros g H B; [assumption|]. cbn. apply IH; [intros x Hx; apply H; right; assumption|].
      specialize (H a (or_introl eq_refl)). destruct a; cbn; lia. }
    intros H. apply G; [assumption|]. cbn. lia.
  Qed.
  Lemma installed_ready : forall l leo node a q busy cur c i, good_attrs l -> 0 <= a < 2 ^ 48 ->
    ready (mkDev (installed_cfg (N := N) (new_cfg leo) l node a) (Some q) [] busy cur (Some c) i true).
  Proof.
    intros l leo node a q busy cur c i G A. destruct (attrs_ready l leo G) as [B1 B2].
    split; [discriminate|]. split; [discriminate|]. split; [reflexivity|]. split; [exact B1|]. split; [exact B2|exact A].
  Qed.

  Lemma install_equipped : forall w w' c d n, touches (fun x => (d <= x < d + n)%nat) c w w' ->
    (forall i, (i < n)%nat -> ready (w_dev w' (d + i)) /\ d_chan (w_dev w' (d + i)) <> None) ->
    c_link (w_chan w' c) = seq d n ->
    (forall a x, In (a, x) (c_gnd (w_chan w' c)) \/ In (a, x) (c_sat (w_chan w' c)) -> (d <= x < d + n)%nat) ->
    (forall a x y, In (a, x) (c_gnd (w_chan w' c)) -> ~ In (a, y) (c_sat (w_chan w' c))) ->
    (forall f, c_delay (w_chan w' c) = Some f -> forall a b t, 0 <= f a b t) ->
    equipped w -> sound w -> equipped w' /\ sound w'.
  Proof.
    intros w w' c d n (T1 & T2 & (new & T3 & T3') & T4 & T5) R L SI SB DL (E1 & E2 & E3 & E4 & E5 & E6) (S1 & S2 & S3).
    assert (IN : forall x, {(d <= x < d + n)%nat} + {~ (d <= x < d + n)%nat}).
    { intros x. destruct (le_lt_dec d x); [|right; lia]. destruct (le_lt_dec (d + n) x); [right; lia|left; lia]. }
    assert (R' : forall x, (d <= x < d + n)%nat -> ready (w_dev w' x) /\ d_chan (w_dev w' x) <> None).
    { intros x Hx. replace x with (d + (x - d))%nat by lia. apply R. lia. }
    assert (KEEP : forall x, d_chan (w_dev w x) <> None -> d_chan (w_dev w' x) <> None).
    { intros x Hx. destruct (IN x) as [I|I]; [apply R'; assumption|rewrite T4; assumption]. }
    split; [split; [|split; [|split; [|split; [|split]]]]|split; [|split]].
    - intros x Hx. destruct (IN x) as [I|I]; [apply R'; assumption|]. rewrite T4 in * by assumption. auto.
    - intros x Hx. destruct (IN x) as [I|I]; [apply R'; assumption|]. rewrite T4 in * by assumption. auto.
    - intros c' x Hx. destruct (Nat.eq_dec c' c) as [->|Hc].
      + rewrite L in Hx. apply in_seq in Hx. apply R'. assumption.
      + rewrite T5 in Hx by assumption. apply KEEP. eapply E3. exact Hx.
    - intros c' a x Hx. destruct (Nat.eq_dec c' c) as [->|Hc].
      + rewrite L. apply in_seq. eapply SI. exact Hx.
      + rewrite T5 in * by assumption. eapply E4. exact Hx.
    - intros c' a. destruct (Nat.eq_dec c' c) as [->|Hc]; [|rewrite T5 by assumption; apply E5].
      destruct (indexed a (c_gnd (w_chan w' c))) eqn:G; [|reflexivity]. destruct (indexed a (c_sat (w_chan w' c))) eqn:S; [|reflexivity].
      apply indexed_in in G as (x & G). apply indexed_in in S as (y & S). exfalso. eapply SB; eassumption.
    - intros c' f Hf. destruct (Nat.eq_dec c' c) as [->|Hc]; [apply DL; assumption|]. rewrite T5 in Hf by assumption. eapply E6. exact Hf.
    - intros t x dest H. rewrite T2 in H. apply KEEP. eapply S1. exact H.
    - intros t x p src power H. rewrite T2 in H. apply KEEP. eapply S2. exact H.
    - intros t x p a q own H. rewrite T3 in H. apply in_app_iff in H as [H|H]; [eapply S3; exact H|].
      rewrite forallb_forall in T3'. specialize (T3' _ H). discriminate T3'.
  Qed.

  Definition fresh (c d : nat) (l : list (act N)) w : Prop :=
    (forall i, fixed (w_dev w (d + i)) = fixed (new_dev (nth i (device_classes l) false))) /\
    (forall i, w_chan w (c + i) = new_chan (nth i (channel_classes l) IslChannel)).

  Lemma nth_repeat_l : forall A (x y : A) n l i, (i < n)%nat -> nth i (repeat x n ++ l) y = x.
  Proof.
    intros A x y n l i H. rewrite app_nth1 by (rewrite repeat_length; assumption). revert n H.
    induction i as [|i IH]; intros [|n] H; cbn; try lia; auto. apply IH. lia.
  Qed.
  Lemma nth_repeat_r : forall A (x y : A) n l i, nth (n + i) (repeat x n ++ l) y = nth i l y.
  Proof. intros. rewrite app_nth2 by (rewrite repeat_length; lia). rewrite repeat_length. f_equal. lia. Qed.

  Lemma fresh_next : forall c d n leo k r cs l w w', touches (fun x => (d <= x < d + n)%nat) c w w' ->
    device_classes l = repeat leo n ++ device_classes r -> channel_classes l = k :: cs -> channel_classes r = cs ->
    fresh c d l w -> fresh (S c) (d + n) r w'.
  Proof.
    intros c d n leo k r cs l w w' (_ & _ & _ & T4 & T5) D K R [F1 F2]. split.
    - intros i. rewrite T4 by lia. specialize (F1 (n + i)%nat). rewrite D, nth_repeat_r in F1.
      replace (d + n + i)%nat with (d + (n + i))%nat by lia. exact F1.
    - intros i. rewrite T5 by lia. specialize (F2 (S i)). rewrite K in F2. cbn in F2. rewrite R.
      replace (S c + i)%nat with (c + S i)%nat by lia. exact F2.
  Qed.

  Lemma program_okay : forall l c d id w, reachable w -> equipped w -> sound w -> fresh c d l w -> Forall good l ->
    0 <= id -> id + total l < 2 ^ 48 ->
    exists w', run w (program c d id l) = Ok w' /\ reachable w' /\ equipped w' /\ sound w'.
  Proof.
    induction l as [|a r IH]; intros c d id w RE E S F G I1 I2; [exists w; auto|].
    inversion G as [|? ? G1 G2]; subst. pose proof (total_nonneg r) as TN. cbn [total fold_right] in I2. fold (total r) in I2.
    destruct a as [h sats gnds|h nodes|o]; cbn [HelperModel.program].
    - cbn [good] in G1. destruct G1 as (GS & GG & GD). cbn [installed] in I2. pose proof F as [F1 F2].
      set (n := List.length (sats ++ gnds)) in *.
      destruct (leo_install_spec crc fcs tx_time has_mob pos seconds h c d sats gnds id w) as (w1 & H & T & D & K & L & LO & DE & SI).
      { specialize (F2 O). rewrite Nat.add_0_r in F2. exact F2. }
      { intros i Hi. specialize (F1 i). cbn [device_classes] in F1. rewrite nth_repeat_l in F1 by assumption. unfold fixed in F1.
        injection F1 as F1 _ _ _. exact F1. }
      { assumption. }
      { fold n. lia. }
      fold n in T, D, L, SI. rewrite run_app, H. cbn [bind].
      assert (X : equipped w1 /\ sound w1).
      { eapply install_equipped; [exact T| |exact L| | | |exact E|exact S].
        - intros i Hi. destruct (nth_error (sats ++ gnds) i) as [node|] eqn:Hn; [|apply nth_error_None in Hn; unfold n in Hi; lia].
          rewrite (D i node Hn). split; [|discriminate]. apply installed_ready; [|lia].
          unfold leo_attrs. destruct (i <? List.length sats)%nat; assumption.
        - intros a x [H1|H1]; [apply (SI Gnd a x) in H1|apply (SI Sat a x) in H1]; try discriminate;
            destruct H1 as (i & Hi & _ & -> & _); lia.
        - intros a x y H1 H2. apply (SI Gnd a x) in H1; [|discriminate]. apply (SI Sat a y) in H2; [|discriminate].
          destruct H1 as (i & Hi & A1 & _ & K1). destruct H2 as (j & Hj & A2 & _ & K2). assert (i = j) by lia. subst. congruence.
        - intros f Hf. rewrite DE in Hf. injection Hf as <-. exact GD. }
      destruct X as [E1 S1]. apply IH; [eapply reachable_run; eassumption|assumption|assumption| |assumption|lia|lia].
      eapply (fresh_next c d n true LeoChannel r _ (ALeoInstall h sats gnds :: r)); [exact T|reflexivity|reflexivity|reflexivity|exact F].
    - cbn [good] in G1. destruct G1 as (GS & GD). cbn [installed] in I2. pose proof F as [F1 F2].
      set (n := List.length nodes) in *.
      destruct (isl_install_spec crc fcs tx_time has_mob pos h c d nodes id w) as (w1 & H & T & D & K & L & CG & CS & LO & DE).
      { specialize (F2 O). rewrite Nat.add_0_r in F2. exact F2. }
      { intros i Hi. specialize (F1 i). cbn [device_classes] in F1. rewrite nth_repeat_l in F1 by assumption. unfold fixed in F1.
        injection F1 as F1 _ _ _. exact F1. }
      { assumption. }
      { fold n. lia. }
      fold n in T, D, L. rewrite run_app, H. cbn [bind].
      assert (X : equipped w1 /\ sound w1).
      { eapply install_equipped; [exact T| |exact L| | | |exact E|exact S].
        - intros i Hi. destruct (nth_error nodes i) as [node|] eqn:Hn; [|apply nth_error_None in Hn; unfold n in Hi; lia].
          rewrite (D i node Hn). split; [|discriminate]. apply installed_ready; [assumption|lia].
        - intros a x. rewrite CG, CS. intros [[]|[]].
        - intros a x y. rewrite CG. intros [].
        - intros f Hf. rewrite DE in Hf. apply GD. revert Hf. generalize (ih_chan h). clear.
          assert (Y : forall l (ch : chan N) f, c_delay (fold_left chan_apply l ch) = Some f -> In (ADelay (Some f)) l \/ c_delay ch = Some f).
          { induction l as [|a r IH]; intros ch g H; [auto|]. cbn in H. apply IH in H as [H|H]; [left; right; assumption|].
            destruct a; cbn in H; [auto|]. subst. left. left. reflexivity. }
          intros l H. apply Y in H as [H|H]; [assumption|discriminate]. }
      destruct X as [E1 S1]. apply IH; [eapply reachable_run; eassumption|assumption|assumption| |assumption|lia|lia].
      eapply (fresh_next c d n false IslChannel r _ (AIslInstall h nodes :: r)); [exact T|reflexivity|reflexivity|reflexivity|exact F].
    - cbn [good] in G1. cbn [installed] in I2. destruct (step_okay crc fcs tx_time has_mob tx_time_nonneg w o RE E S G1) as (w1 & H & R1 & SS & E1 & S1).
      cbn [NetModel.run]. rewrite H. cbn [bind]. apply IH; try assumption.
      destruct SS as [C D]. destruct F as [F1 F2]. split; [intros i; rewrite D; apply F1|intros i; rewrite C; apply F2].
  Qed.

  Lemma initial_equipped : forall dk ck, equipped (N := N) (initial dk ck) /\ sound (N := N) (initial dk ck).
  Proof.
    intros dk ck. split; [split; [|split; [|split; [|split; [|split]]]]|split; [|split]]; cbn; try contradiction; try discriminate; try tauto.
  Qed.

  Lemma programs_okay : forall l id, Forall good l -> 0 <= id -> id + total l < 2 ^ 48 ->
    exists w, run (initial_for l) (program 0 0 id l) = Ok w /\ equipped w /\ sound w.
  Proof.
    intros l id G I1 I2. destruct (initial_equipped (fun d => nth d (device_classes l) false) (fun c => nth c (channel_classes l) IslChannel)) as [E S].
    destruct (program_okay l 0 0 id (initial_for l)) as (w & H & _ & E' & S'); try assumption.
    - eexists _, _, []. reflexivity.
    - split; intros i; reflexivity.
    - exists w. auto.
  Qed.
End HelperSafe.
