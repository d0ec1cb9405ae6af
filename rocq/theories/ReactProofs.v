(** Answering from within callbacks and answering afterwards come to the same. *)
Require Import ZArith List Bool Lia Permutation FunctionalExtensionality.
Require Import Verif.Base Verif.Num Verif.FrameModel Verif.NetModel Verif.NetSpec Verif.NetSteps
  Verif.NetInv Verif.NetTxProofs Verif.ReactModel Verif.ReactSpec.
Import ListNotations.
Local Open Scope Z_scope.

(** ** Steps do not read the trace *)
Section Log.
  Context {N : Num}.
  Variable crc : list Z -> Z.
  Variable fcs : bool.
  Variable tx_time : Z -> Z -> Z.
  Variable has_mob : nat -> bool.
  Implicit Type w : world N.

  Definition pre (L : trace) w : world N := mkWorld (w_now w) (w_dev w) (w_chan w) (w_events w) (L ++ w_log w).
  Definition lift {A B} (f : A -> B) (x : res A) : res B := match x with Ok a => Ok (f a) | Abort e => Abort e | UB e => UB e end.
  Definition pre2 L (x : bool * world N) : bool * world N := (fst x, pre L (snd x)).

  Ltac pn := repeat match goal with
    | |- context [w_dev (pre ?L ?w)] => change (w_dev (pre L w)) with (w_dev w)
    | |- context [w_chan (pre ?L ?w)] => change (w_chan (pre L w)) with (w_chan w)
    | |- context [w_now (pre ?L ?w)] => change (w_now (pre L w)) with (w_now w)
    | |- context [w_events (pre ?L ?w)] => change (w_events (pre L w)) with (w_events w)
    | |- context [node_of (pre ?L ?w) ?d] => change (node_of (pre L w) d) with (node_of w d)
    | |- context [addr_of (pre ?L ?w) ?d] => change (addr_of (pre L w) d) with (addr_of w d)
    | |- context [GetDevice (pre ?L ?w) ?c ?d] => change (GetDevice (pre L w) c d) with (GetDevice w c d)
    end.
  Lemma pre_log1 : forall L w o, log1 (pre L w) o = pre L (log1 w o).
  Proof. intros. unfold log1, pre. cbn. rewrite app_assoc. reflexivity. Qed.
  Lemma lift_bind : forall A B C (x : res A) (f : A -> res B) (g : B -> C), lift g (bind x f) = bind x (fun a => lift g (f a)).
  Proof. intros A B C [a|e|e] f g; reflexivity. Qed.
  Lemma bind_lift : forall A B C (x : res A) (f : B -> res C) (g : A -> B), bind (lift g x) f = bind x (fun a => f (g a)).
  Proof. intros A B C [a|e|e] f g; reflexivity. Qed.
  Lemma bind_ext : forall A B (x : res A) (f g : A -> res B), (forall a, f a = g a) -> bind x f = bind x g.
  Proof. intros A B [a|e|e] f g H; cbn; auto. Qed.

  Lemma schedule_pre : forall L w t e, schedule (pre L w) t e = lift (pre L) (schedule w t e).
  Proof. intros. unfold schedule. destruct (t <? 0); reflexivity. Qed.
  Lemma Deliver_pre : forall L w c p src dst t, Deliver has_mob (pre L w) c p src dst t = lift (pre2 L) (Deliver has_mob w c p src dst t).
  Proof.
    intros. unfold Deliver. pn. destruct (node_of w src) as [a|]; [|reflexivity]. destruct (node_of w dst) as [b|]; [|reflexivity].
    cbv zeta. pn.
    assert (G : forall d e o, bind (schedule (pre L w) d e) (fun w1 => Ok (true, log1 w1 o)) = lift (pre2 L) (bind (schedule w d e) (fun w1 => Ok (true, log1 w1 o)))).
    { intros d e o. rewrite schedule_pre, bind_lift, lift_bind. apply bind_ext. intros v. rewrite pre_log1. reflexivity. }
    destruct (has_mob a && has_mob b); [|apply G]. destruct (c_loss (w_chan w c)) as [f|]; [|apply G].
    destruct (nlt N _ _); [reflexivity|apply G].
  Qed.
  Lemma deliver_all_pre : forall L dsts w c p src t, deliver_all has_mob (pre L w) c p src dsts t = lift (pre2 L) (deliver_all has_mob w c p src dsts t).
  Proof.
    induction dsts as [|d r IH]; intros; [reflexivity|]. cbn [deliver_all]. rewrite Deliver_pre, bind_lift, lift_bind. apply bind_ext.
    intros [b1 w1]. cbn [pre2 fst snd]. rewrite IH, bind_lift, lift_bind. apply bind_ext. intros [b2 w2]. reflexivity.
  Qed.
  Lemma Channel_pre : forall L w c p i dest t, ChannelTransmitStart has_mob (pre L w) c p i dest t = lift (pre2 L) (ChannelTransmitStart has_mob w c p i dest t).
  Proof.
    intros. unfold ChannelTransmitStart, IslTransmitStart, LeoTransmitStart. cbv zeta. pn.
    destruct (c_kind (w_chan w c)); destruct (nth_error (c_link (w_chan w c)) i) as [src|]; try reflexivity; pn.
    - destruct (GetDevice w c dest) as [dst|]; [apply Deliver_pre|].
      destruct (dest =? broadcast); [|reflexivity]. rewrite deliver_all_pre, bind_lift, lift_bind. apply bind_ext. intros [b v]. reflexivity.
    - destruct (indexed _ (c_gnd _) && indexed _ (c_sat _)); [reflexivity|].
      destruct (indexed _ (c_gnd _)); [apply deliver_all_pre|]. destruct (indexed _ (c_sat _)); [apply deliver_all_pre|reflexivity].
  Qed.
  Lemma set_tx_pre : forall L w d q b cur, set_tx (pre L w) d q b cur = pre L (set_tx w d q b cur).
  Proof. reflexivity. Qed.
  Lemma TransmitStart_pre : forall L w d p dest, TransmitStart tx_time has_mob (pre L w) d p dest = lift (pre2 L) (TransmitStart tx_time has_mob w d p dest).
  Proof.
    intros. unfold TransmitStart. cbv zeta. pn. destruct (d_busy (w_dev w d)); [reflexivity|].
    rewrite set_tx_pre, pre_log1, schedule_pre, bind_lift, lift_bind. apply bind_ext. intros v.
    destruct (d_chan (w_dev w d)) as [c|]; [|reflexivity]. rewrite pre_log1, Channel_pre, bind_lift, lift_bind. apply bind_ext. intros [b u].
    cbn [pre2 fst snd]. destruct b; [reflexivity|]. rewrite pre_log1. reflexivity.
  Qed.
  Lemma Complete_pre : forall L w d dest, DoTransmitComplete tx_time has_mob (pre L w) d dest = lift (pre L) (DoTransmitComplete tx_time has_mob w d dest).
  Proof.
    intros. unfold DoTransmitComplete. cbv zeta. pn. destruct (negb (d_busy (w_dev w d))); [reflexivity|].
    destruct (d_cur (w_dev w d)) as [cur|]; [|reflexivity]. rewrite set_tx_pre, pre_log1.
    destruct (d_queue (w_dev w d)); [|reflexivity]. destruct (d_q (w_dev w d)) as [|h r]; [reflexivity|].
    rewrite set_tx_pre, !pre_log1, TransmitStart_pre, bind_lift, lift_bind. apply bind_ext. intros [b0 u]. reflexivity.
  Qed.
  Lemma Send_pre : forall L w d p dest q, Send crc fcs tx_time has_mob (pre L w) d p dest q = lift (pre2 L) (Send crc fcs tx_time has_mob w d p dest q).
  Proof.
    intros. unfold Send. cbv zeta. pn.
    destruct dest as [a|]; [|destruct (d_up (w_dev w d)); [reflexivity|]; cbn [lift pre2 fst snd]; rewrite pre_log1; reflexivity].
    destruct (negb (d_up (w_dev w d))); [rewrite !pre_log1; reflexivity|].
    destruct (d_queue (w_dev w d)) as [admit|]; [|reflexivity]. destruct (admit _ _); [|rewrite !pre_log1; reflexivity].
    destruct (d_busy (w_dev w d)); [rewrite !pre_log1; reflexivity|]. destruct (d_q (w_dev w d) ++ _) as [|h r]; [reflexivity|].
    rewrite !pre_log1, set_tx_pre, !pre_log1, TransmitStart_pre, bind_lift, lift_bind. apply bind_ext. intros [b u]. reflexivity.
  Qed.
  Lemma Receive_pre : forall L w d p src power, Receive crc fcs (pre L w) d p src power = lift (pre L) (Receive crc fcs w d p src power).
  Proof.
    intros. unfold Receive. cbv zeta. pn.
    destruct (Nat.eqb src d); [rewrite pre_log1; reflexivity|]. rewrite !pre_log1.
    destruct (nlt N _ _); [reflexivity|]. destruct (match g_err _ with Some f => f _ _ | None => _ end); [reflexivity|].
    rewrite lift_bind. apply bind_ext. intros [|pl pr fr to]; [rewrite ?pre_log1; reflexivity|].
    destruct (g_pcb _); destruct (classify _ _); try destruct (g_rxcb _); rewrite ?pre_log1; reflexivity.
  Qed.
  Lemma set_link_pre : forall L w d b, set_link (pre L w) d b = pre L (set_link w d b).
  Proof. intros. unfold set_link. rewrite <- pre_log1. reflexivity. Qed.
  Lemma Attach_pre : forall L w d c, Attach (pre L w) d c = lift (pre L) (Attach w d c).
  Proof.
    intros. unfold Attach, ChannelAttach. cbv zeta. pn.
    destruct (c_kind (w_chan w c)), (g_kind (d_cfg (w_dev w d))); cbn [bind lift]; try reflexivity; f_equal; rewrite <- set_link_pre; reflexivity.
  Qed.
  Lemma BaseDetach_pre : forall L w c i, BaseDetach (pre L w) c i = pre2 L (BaseDetach w c i).
  Proof.
    intros. unfold BaseDetach. pn. destruct (nth_error (c_link (w_chan w c)) i) as [d|]; [|reflexivity]. destruct (d_up (w_dev w d)); [|reflexivity].
    rewrite set_link_pre. reflexivity.
  Qed.
  Lemma Detach_pre : forall L w c i, ChannelDetach (pre L w) c i = lift (pre2 L) (ChannelDetach w c i).
  Proof.
    intros. unfold ChannelDetach. cbv zeta. pn. destruct (c_kind (w_chan w c)); [rewrite BaseDetach_pre; reflexivity|].
    destruct (nth_error (c_link (w_chan w c)) i) as [d|]; [|reflexivity]. pn.
    change (set_chan (pre L w) c ?x) with (pre L (set_chan w c x)). rewrite BaseDetach_pre. reflexivity.
  Qed.
  Lemma step_pre : forall L w o, step crc fcs tx_time has_mob (pre L w) o = lift (pre L) (step crc fcs tx_time has_mob w o).
  Proof.
    intros L w o. destruct o; cbn [step lift].
    - rewrite Send_pre, bind_lift, lift_bind. apply bind_ext. intros [b v]. reflexivity.
    - reflexivity.
    - unfold SetQueue. rewrite <- pre_log1. reflexivity.
    - apply Attach_pre.
    - rewrite Detach_pre, bind_lift, lift_bind. apply bind_ext. intros [b v]. reflexivity.
    - rewrite set_link_pre. reflexivity.
    - reflexivity.
    - reflexivity.
    - change (w_now (pre L w)) with (w_now w). change (w_events (pre L w)) with (w_events w). destruct (_ && _); reflexivity.
    - unfold run_next. change (w_events (pre L w)) with (w_events w). destruct (w_events w) as [|[t e] r]; [reflexivity|].
      change (mkWorld t (w_dev (pre L w)) (w_chan (pre L w)) r (w_log (pre L w))) with (pre L (mkWorld t (w_dev w) (w_chan w) r (w_log w))).
      destruct e; [apply Complete_pre|apply Receive_pre].
  Qed.
  Lemma run_pre : forall L ops w, run crc fcs tx_time has_mob (pre L w) ops = lift (pre L) (run crc fcs tx_time has_mob w ops).
  Proof.
    induction ops as [|o r IH]; intros w; [reflexivity|]. cbn [run]. rewrite step_pre, bind_lift, lift_bind. apply bind_ext. apply IH.
  Qed.

  (** Two worlds in the same state go on alike. *)
  Definition bare w : world N := mkWorld (w_now w) (w_dev w) (w_chan w) (w_events w) [].
  Lemma pre_bare : forall w, pre (w_log w) (bare w) = w.
  Proof. intros [n d c e l]. unfold pre, bare. cbn. rewrite app_nil_r. reflexivity. Qed.
  Definition same_state w v : Prop := w_now w = w_now v /\ w_dev w = w_dev v /\ w_chan w = w_chan v /\ w_events w = w_events v.
  Lemma same_bare : forall w v, same_state w v -> bare w = bare v.
  Proof. intros [n d c e l] [n' d' c' e' l'] (A & B & C & D). cbn in *. subst. reflexivity. Qed.
  Lemma pre_same : forall L w, same_state (pre L w) w.
  Proof. intros. repeat split. Qed.
  Lemma run_same : forall w v ops w', same_state w v -> run crc fcs tx_time has_mob w ops = Ok w' ->
    exists v' new, run crc fcs tx_time has_mob v ops = Ok v' /\ same_state w' v' /\ w_log w' = w_log w ++ new /\ w_log v' = w_log v ++ new.
  Proof.
    intros w v ops w' S H. rewrite <- (pre_bare w), run_pre, (same_bare _ _ S) in H.
    destruct (run crc fcs tx_time has_mob (bare v) ops) as [x|e|e] eqn:E; cbn in H; try discriminate. injection H as <-.
    exists (pre (w_log v) x), (w_log x). split.
    { transitivity (run crc fcs tx_time has_mob (pre (w_log v) (bare v)) ops); [rewrite pre_bare; reflexivity|]. rewrite run_pre, E. reflexivity. }
    split; [repeat split|]. split; reflexivity.
  Qed.
End Log.

Section React.
  Context {N : Num}.
  Variable crc : list Z -> Z.
  Variable fcs : bool.
  Variable tx_time : Z -> Z -> Z.
  Variable has_mob : nat -> bool.
  Variable react : trace -> list sending.
  Notation run := (@run N crc fcs tx_time has_mob).
  Notation step := (@step N crc fcs tx_time has_mob).
  Notation sends := (@sends N crc fcs tx_time has_mob).
  Notation fire := (@fire N crc fcs tx_time has_mob react).
  Notation ReceiveR := (@ReceiveR N crc fcs tx_time has_mob react).
  Notation stepR := (@stepR N crc fcs tx_time has_mob react).
  Notation runR := (@runR N crc fcs tx_time has_mob react).
  Notation reachable := (@reachable N crc fcs tx_time has_mob).
  Implicit Type w : world N.

  Lemma alike_refl : forall w, alike w w.
  Proof. intros w. unfold alike. auto 10 using Permutation_refl. Qed.
  Lemma alike_trans : forall a b c : world N, alike a b -> alike b c -> alike a c.
  Proof.
    intros a b c (A1 & A2 & A3 & A4 & A5 & A6 & A7) (B1 & B2 & B3 & B4 & B5 & B6 & B7). unfold alike.
    repeat split; try congruence. eapply Permutation_trans; eassumption.
  Qed.
  Lemma alike_state : forall w v, alike w v -> same_state w v.
  Proof. intros w v (A & B & C & D & _). repeat split; assumption. Qed.

  Lemma sends_run : forall l w, sends w l = run w (map as_op l).
  Proof.
    induction l as [|[[[d p] dest] q] r IH]; intros w; [reflexivity|]. cbn [ReactModel.sends map as_op NetModel.run NetModel.step].
    destruct (Send crc fcs tx_time has_mob w d p dest q) as [[b v]|e|e]; [|reflexivity..]. cbn. apply IH.
  Qed.
  Lemma run_alike : forall ops w v w', alike w v -> run w ops = Ok w' -> exists v', run v ops = Ok v' /\ alike w' v'.
  Proof.
    intros ops w v w' A H. destruct (run_same crc fcs tx_time has_mob w v ops w' (alike_state _ _ A) H) as (v' & new & H' & S & L1 & L2).
    exists v'. split; [exact H'|]. destruct S as (S1 & S2 & S3 & S4). destruct A as (_ & _ & _ & _ & A5 & A6 & A7).
    unfold alike, rx_part, tx_part. rewrite L1, L2, !filter_app. fold (rx_part (w_log w)) (rx_part (w_log v)) (tx_part (w_log w)) (tx_part (w_log v)).
    rewrite A5, A6. repeat split; try assumption. apply Permutation_app_tail. exact A7.
  Qed.

  (** ** What Send leaves alone *)
  Definition outward (l : trace) : Prop := Forall (fun x => receiving (snd x) = false) l.
  Lemma Deliver_out : forall w c p src dst t b w', Deliver has_mob w c p src dst t = Ok (b, w') ->
    w_now w' = w_now w /\ w_dev w' = w_dev w /\ exists l, w_log w' = w_log w ++ l /\ outward l.
  Proof.
    intros w c p src dst t b w' H. apply Deliver_spec in H as (m & n & _ & _ & [(_ & -> & _)|(_ & _ & _ & ->)]).
    - repeat split. exists []. rewrite app_nil_r. split; [reflexivity|constructor].
    - repeat split. eexists. split; [reflexivity|]. repeat constructor.
  Qed.
  Lemma deliver_all_out : forall dsts w c p src t b w', deliver_all has_mob w c p src dsts t = Ok (b, w') ->
    w_now w' = w_now w /\ w_dev w' = w_dev w /\ exists l, w_log w' = w_log w ++ l /\ outward l.
  Proof.
    induction dsts as [|d r IH]; intros w c p src t b w' H; cbn in H.
    - injection H as <- <-. repeat split. exists []. rewrite app_nil_r. split; [reflexivity|constructor].
    - apply bind_ok in H as ([b1 w1] & H1 & H). apply bind_ok in H as ([b2 w2] & H2 & H). injection H as _ <-.
      apply Deliver_out in H1 as (A & B & l1 & C & D). apply IH in H2 as (A2 & B2 & l2 & C2 & D2).
      split; [congruence|]. split; [congruence|]. exists (l1 ++ l2). rewrite C2, C, app_assoc. split; [reflexivity|]. apply Forall_app. auto.
  Qed.
  Lemma Channel_out : forall w c p i dest t b w', ChannelTransmitStart has_mob w c p i dest t = Ok (b, w') ->
    w_now w' = w_now w /\ w_dev w' = w_dev w /\ exists l, w_log w' = w_log w ++ l /\ outward l.
  Proof.
    intros w c p i dest t b w' H. unfold ChannelTransmitStart, IslTransmitStart, LeoTransmitStart in H.
    assert (SAME : w' = w -> w_now w' = w_now w /\ w_dev w' = w_dev w /\ exists l, w_log w' = w_log w ++ l /\ outward l).
    { intros ->. repeat split. exists []. rewrite app_nil_r. split; [reflexivity|constructor]. }
    destruct (c_kind (w_chan w c)); destruct (nth_error (c_link (w_chan w c)) i) as [src|]; try (injection H as _ <-; auto; fail).
    - destruct (GetDevice w c dest) as [dst|]; [eapply Deliver_out; exact H|].
      destruct (dest =? broadcast); [|injection H as _ <-; auto]. apply bind_ok in H as ([b1 w1] & H1 & H). injection H as _ <-. eapply deliver_all_out. exact H1.
    - destruct (_ && _); [discriminate|]. destruct (indexed _ (c_gnd _)); [eapply deliver_all_out; exact H|].
      destruct (indexed _ (c_sat _)); [eapply deliver_all_out; exact H|injection H as _ <-; auto].
  Qed.
  Lemma TransmitStart_outw : forall w d p dest b w', TransmitStart tx_time has_mob w d p dest = Ok (b, w') ->
    w_now w' = w_now w /\ (forall e, d_cfg (w_dev w' e) = d_cfg (w_dev w e) /\ d_queue (w_dev w' e) = d_queue (w_dev w e)) /\ exists l, w_log w' = w_log w ++ l /\ outward l.
  Proof.
    intros w d p dest b w' H. unfold TransmitStart in H. destruct (d_busy (w_dev w d)); [discriminate|].
    apply bind_ok in H as (w2 & H1 & H). apply schedule_ok in H1 as [_ ->]. destruct (d_chan (w_dev w d)) as [c|]; [|discriminate].
    apply bind_ok in H as ([r w4] & H1 & H). apply Channel_out in H1 as (A & B & l & C & D).
    assert (R : w_now w4 = w_now w /\ (forall e, d_cfg (w_dev w4 e) = d_cfg (w_dev w e) /\ d_queue (w_dev w4 e) = d_queue (w_dev w e)) /\ exists l, w_log w4 = w_log w ++ l /\ outward l).
    { split; [rewrite A; reflexivity|]. split.
      - intros e. rewrite B. cbn. unfold upd. destruct (Nat.eqb_spec e d) as [->|]; split; reflexivity.
      - rewrite C. cbn. rewrite <- !app_assoc. eexists. split; [reflexivity|]. repeat constructor. exact D. }
    destruct r; injection H as _ <-; [exact R|]. destruct R as (R1 & R2 & k & R3 & R4). split; [exact R1|]. split; [exact R2|].
    cbn. rewrite R3, <- app_assoc. eexists. split; [reflexivity|]. apply Forall_app. split; [exact R4|]. repeat constructor.
  Qed.
  Lemma Send_out : forall w d p dest q b w', Send crc fcs tx_time has_mob w d p dest q = Ok (b, w') ->
    w_now w' = w_now w /\ (forall e, d_cfg (w_dev w' e) = d_cfg (w_dev w e)) /\ exists l, w_log w' = w_log w ++ l /\ outward l.
  Proof.
    intros w d p dest q b w' H. unfold Send in H. destruct dest as [a|].
    - destruct (negb _); [injection H as _ <-; repeat split; cbn; rewrite <- app_assoc; eexists; (split; [reflexivity|repeat constructor])|].
      destruct (d_queue _) as [admit|]; [|discriminate].
      destruct (admit _ _); [|injection H as _ <-; repeat split; cbn; rewrite <- !app_assoc; eexists; (split; [reflexivity|repeat constructor])].
      destruct (d_busy (w_dev w d)) eqn:B.
      + injection H as _ <-. split; [reflexivity|]. split; [intros e; cbn; unfold upd; destruct (Nat.eqb_spec e d) as [->|]; reflexivity|].
        cbn. rewrite <- !app_assoc. eexists. split; [reflexivity|repeat constructor].
      + destruct (_ ++ _) as [|h r]; [discriminate|]. apply bind_ok in H as ([b1 w1] & H1 & H). injection H as _ <-.
        apply TransmitStart_outw in H1 as (A & C & l & L & O). split; [rewrite A; reflexivity|]. split.
        * intros e. destruct (C e) as [C1 _]. rewrite C1. cbn. unfold upd. destruct (Nat.eqb_spec e d) as [->|]; reflexivity.
        * rewrite L. cbn. rewrite <- !app_assoc. eexists. split; [reflexivity|]. repeat constructor. exact O.
    - destruct (d_up (w_dev w d)); [discriminate|]. injection H as _ <-. repeat split. eexists. split; [reflexivity|repeat constructor].
  Qed.
  Lemma sends_out : forall l w w', sends w l = Ok w' ->
    w_now w' = w_now w /\ (forall e, d_cfg (w_dev w' e) = d_cfg (w_dev w e)) /\ exists new, w_log w' = w_log w ++ new /\ outward new.
  Proof.
    induction l as [|[[[d p] dest] q] r IH]; intros w w' H.
    - injection H as <-. repeat split. exists []. rewrite app_nil_r. split; [reflexivity|constructor].
    - cbn [ReactModel.sends] in H. apply bind_ok in H as ([b w1] & H1 & H). apply Send_out in H1 as (A & B & l1 & C & D). apply IH in H as (A2 & B2 & l2 & C2 & D2).
      split; [congruence|]. split; [intros e; rewrite B2; apply B|]. exists (l1 ++ l2). rewrite C2, C, app_assoc. split; [reflexivity|apply Forall_app; auto].
  Qed.

  (** ** Receptions *)
  Definition inward (o : obs) : Prop := receiving o = true \/ sniffing o = true.
  Inductive fires w : list obs -> list sending -> world N -> Prop :=
  | f_nil : fires w [] [] w
  | f_snoc : forall os ls w1 o l w2, fires w os ls w1 -> inward o -> sends (log1 w1 o) l = Ok w2 ->
      fires w (os ++ [o]) (ls ++ l) w2.

  Lemma sends_app : forall a b w, sends w (a ++ b) = bind (sends w a) (fun v => sends v b).
  Proof. intros a b w. rewrite !sends_run, map_app, run_app. apply bind_ext. intros v. rewrite sends_run. reflexivity. Qed.

  Lemma outward_rx : forall l, outward l -> rx_part l = [].
  Proof. induction 1 as [|x l H _ IH]; [reflexivity|]. unfold rx_part in *. cbn. rewrite H. exact IH. Qed.
  Lemma inward_tx : forall t o, inward o -> tx_part [(t, o)] = [].
  Proof. intros t o [H|H]; unfold tx_part; cbn; rewrite H; [reflexivity|]. rewrite andb_false_r. reflexivity. Qed.
  Lemma rx_app : forall a b, rx_part (a ++ b) = rx_part a ++ rx_part b. Proof. intros. apply filter_app. Qed.
  Lemma tx_app : forall a b, tx_part (a ++ b) = tx_part a ++ tx_part b. Proof. intros. apply filter_app. Qed.

  (** First all observations, then all answers. *)
  Lemma fires_open : forall w os ls w', fires w os ls w' -> exists v new, sends (emit w os) ls = Ok v /\ alike w' v /\
    w_log v = w_log w ++ map (pair (w_now w)) os ++ new /\ outward new.
  Proof.
    intros w os ls w' F. induction F as [|os ls w1 o l w2 F IH IW H].
    - exists w, []. unfold emit. cbn. rewrite !app_nil_r. split; [destruct w; reflexivity|]. split; [apply alike_refl|].
      split; [reflexivity|constructor].
    - destruct IH as (v & new & HS & A & LV & ON). pose proof (alike_state _ _ A) as SS.
      set (e := emit w (os ++ [o])).
      assert (SE : same_state (emit w os) e) by (repeat split).
      rewrite sends_run in HS. destruct (run_same crc fcs tx_time has_mob _ e _ _ SE HS) as (v1 & n1 & R1 & S1 & L1 & L1').
      assert (n1 = new) as ->. { rewrite LV in L1. cbn [emit w_log] in L1. rewrite <- app_assoc in L1. apply app_inv_head in L1. apply app_inv_head in L1. congruence. }
      assert (S2 : same_state (log1 w1 o) v1).
      { destruct SS as (X1 & X2 & X3 & X4). destruct S1 as (Y1 & Y2 & Y3 & Y4). repeat split; cbn; congruence. }
      pose proof (sends_out _ _ _ H) as (_ & _ & n2 & LW & OW).
      rewrite sends_run in H. destruct (run_same crc fcs tx_time has_mob _ v1 _ _ S2 H) as (v2 & n2' & R2 & S3 & L2 & L2').
      assert (n2' = n2) as -> by (rewrite LW in L2; apply app_inv_head in L2; congruence).
      exists v2, (new ++ n2). split.
      { rewrite sends_app, sends_run. fold e. rewrite R1. cbn [bind]. rewrite sends_run. exact R2. }
      assert (NW : w_now w1 = w_now w).
      { destruct A as (A1 & _). rewrite A1. apply (sends_out ls (emit w os) v). rewrite sends_run. exact HS. }
      assert (LV2 : w_log v2 = w_log w ++ map (pair (w_now w)) (os ++ [o]) ++ new ++ n2).
      { rewrite L2', L1'. cbn [e emit w_log]. rewrite <- !app_assoc. reflexivity. }
      split; [|split; [exact LV2|apply Forall_app; auto]].
      destruct A as (_ & _ & _ & _ & A5 & A6 & A7). destruct S3 as (X1 & X2 & X3 & X4).
      unfold alike. do 4 (split; [assumption|]).
      rewrite LV2, L2. cbn [log1 w_log]. rewrite map_app. cbn [map]. rewrite NW.
      rewrite LV in A5, A6, A7. rewrite !rx_app, !tx_app in *. rewrite A5, A6. rewrite (outward_rx _ OW), (outward_rx _ ON), (inward_tx _ _ IW), !app_nil_r.
      split; [rewrite <- !app_assoc; reflexivity|]. split; [rewrite <- !app_assoc; reflexivity|].
      rewrite A7. rewrite <- !app_assoc. apply Permutation_app_head. apply Permutation_app_head.
      rewrite app_assoc. rewrite (app_assoc [(w_now w, o)] new n2). apply Permutation_app_tail. apply Permutation_app_comm.
  Qed.

  Lemma fire_spec : forall w o w', fire w o = Ok w' -> exists past, sends (log1 w o) (react past) = Ok w'.
  Proof. intros w o w' H. unfold ReactModel.fire in H. eexists. exact H. Qed.
  Lemma fires_cfg : forall w os ls w', fires w os ls w' -> w_now w' = w_now w /\ forall e, d_cfg (w_dev w' e) = d_cfg (w_dev w e).
  Proof.
    intros w os ls w' F. induction F as [|os ls w1 o l w2 F [IH1 IH2] IW H]; [auto|].
    apply sends_out in H as (A & B & _). split; [rewrite A; exact IH1|]. intros e. rewrite B. apply IH2.
  Qed.

  Lemma inward_by : forall o, receiving o || sniffing o = true -> inward o.
  Proof. intros o H. apply orb_true_iff in H. exact H. Qed.

  Definition from_react (ls : list sending) : Prop := exists pasts, ls = concat (map react pasts).
  Lemma from_app : forall a b, from_react a -> from_react b -> from_react (a ++ b).
  Proof. intros a b (p & ->) (q & ->). exists (p ++ q). rewrite map_app, concat_app. reflexivity. Qed.
  Lemma from_nil : from_react [].
  Proof. exists []. reflexivity. Qed.
  Lemma from_one : forall past, from_react (react past).
  Proof. intros past. exists [past]. cbn. rewrite app_nil_r. reflexivity. Qed.

  Lemma f_fire : forall w os ls w1 o w2, fires w os ls w1 -> from_react ls -> receiving o || sniffing o = true -> fire w1 o = Ok w2 ->
    exists ls', fires w (os ++ [o]) ls' w2 /\ from_react ls'.
  Proof.
    intros w os ls w1 o w2 F R I%inward_by H. apply fire_spec in H as (past & H). exists (ls ++ react past). split; [econstructor; eassumption|].
    apply from_app; [exact R|]. apply from_one.
  Qed.

  Lemma emit_log1 : forall w os o, log1 (emit w os) o = emit w (os ++ [o]).
  Proof. intros. rewrite log1_emit, emit_emit. reflexivity. Qed.

  Lemma ReceiveR_fires : forall w d p src power w', ReceiveR w d p src power = Ok w' ->
    exists os ls, fires w os ls w' /\ from_react ls /\ Receive crc fcs w d p src power = Ok (emit w os).
  Proof.
    intros w d p src power w' H. unfold ReactModel.ReceiveR in H. unfold Receive.
    assert (F0 : fires w [] [] w) by constructor. pose proof from_nil as R0.
    cbv zeta. change (log1 w (PhyRxEnd d p src)) with (emit w [PhyRxEnd d p src]). change (log1 w (MacRxDrop d p)) with (emit w [MacRxDrop d p]).
    destruct (Nat.eqb src d).
    { destruct (f_fire _ _ _ _ (MacRxDrop d p) _ F0 R0 eq_refl H) as (ls & F & R). exists [MacRxDrop d p], ls. auto. }
    apply bind_ok in H as (w1 & H1 & H). destruct (f_fire _ _ _ _ (PhyRxEnd d p src) _ F0 R0 eq_refl H1) as (l1 & F1 & R1). clear H1. cbn [app] in F1.
    destruct (fires_cfg _ _ _ _ F1) as [N1 C1]. rewrite C1, N1 in H.
    destruct (nlt N _ _).
    { destruct (f_fire _ _ _ _ (PhyRxDrop d _) _ F1 R1 eq_refl H) as (ls & F & R). eexists _, ls. split; [exact F|]. split; [exact R|]. rewrite emit_log1. reflexivity. }
    destruct (match g_err _ with Some f => f _ _ | None => _ end).
    { destruct (f_fire _ _ _ _ (PhyRxDrop d _) _ F1 R1 eq_refl H) as (ls & F & R). eexists _, ls. split; [exact F|]. split; [exact R|]. rewrite emit_log1. reflexivity. }
    destruct (Decapsulate crc fcs (p_bytes p)) as [[|payload protocol from to]|e|e]; cbn [bind] in *; try discriminate.
    { destruct (f_fire _ _ _ _ (PhyRxDrop d _) _ F1 R1 eq_refl H) as (ls & F & R). eexists _, ls. split; [exact F|]. split; [exact R|]. rewrite emit_log1. reflexivity. }
    apply bind_ok in H as (w2 & H2 & H). destruct (f_fire _ _ _ _ (PromiscSniffer d p) _ F1 R1 eq_refl H2) as (l2 & F2 & R2). clear H2.
    destruct (fires_cfg _ _ _ _ F2) as [N2 C2]. rewrite C2 in H. rewrite emit_log1.
    set (t := classify (g_addr (d_cfg (w_dev w d))) to) in *.
    assert (X : exists w3 l3, fires w ((([] ++ [PhyRxEnd d p src]) ++ [PromiscSniffer d p]) ++
        (if g_pcb (d_cfg (w_dev w d)) then [MacPromiscRx d p; PromiscCallback d src payload protocol from to t] else [])) l3 w3 /\ from_react l3 /\
      match t with
      | POtherHost => Ok w3
      | _ => let* w4 := fire w3 (MacRx d p) in
             let g4 := d_cfg (w_dev w4 d) in
             if g_rxcb g4 then fire w4 (RxCallback d src payload protocol from to (g_addr g4)) else UB NullDeref
      end%res = Ok w').
    { destruct (g_pcb (d_cfg (w_dev w d))).
      - apply bind_ok in H as (w3 & H3 & H). apply bind_ok in H3 as (w2' & H2 & H3).
        destruct (f_fire _ _ _ _ (MacPromiscRx d p) _ F2 R2 eq_refl H2) as (l3 & F3 & R3).
        destruct (f_fire _ _ _ _ (PromiscCallback d src payload protocol from to t) _ F3 R3 eq_refl H3) as (l4 & F4 & R4).
        exists w3, l4. split; [rewrite <- app_assoc in F4; exact F4|]. split; [exact R4|exact H].
      - cbn [bind] in H. exists w2, l2. rewrite app_nil_r. auto. }
    clear H F2 R2. destruct X as (w3 & l3 & F3 & R3 & H).
    set (os := (([] ++ [PhyRxEnd d p src]) ++ [PromiscSniffer d p]) ++ (if g_pcb (d_cfg (w_dev w d)) then [MacPromiscRx d p; PromiscCallback d src payload protocol from to t] else [])) in *.
    assert (E3 : (if g_pcb (d_cfg (w_dev w d)) then log1 (log1 (emit w ([PhyRxEnd d p src] ++ [PromiscSniffer d p])) (MacPromiscRx d p)) (PromiscCallback d src payload protocol from to t)
                  else emit w ([PhyRxEnd d p src] ++ [PromiscSniffer d p])) = emit w os).
    { unfold os. destruct (g_pcb _); rewrite ?emit_log1; cbn [app]; reflexivity. }
    change (fun _ : world N => ?x) with (fun _ : world N => x) in *.
    rewrite E3. 
    assert (Y : t <> POtherHost -> exists os0 ls, fires w os0 ls w' /\ from_react ls /\
      (if g_rxcb (d_cfg (w_dev w d)) then Ok (log1 (log1 (emit w os) (MacRx d p)) (RxCallback d src payload protocol from to (g_addr (d_cfg (w_dev w d))))) else UB NullDeref) = Ok (emit w os0)).
    { intros NT. assert (H' : bind (fire w3 (MacRx d p)) (fun w4 => let g4 := d_cfg (w_dev w4 d) in
             if g_rxcb g4 then fire w4 (RxCallback d src payload protocol from to (g_addr g4)) else UB NullDeref) = Ok w') by (destruct t; try exact H; contradiction).
      apply bind_ok in H' as (w4 & H4 & H5). destruct (f_fire _ _ _ _ (MacRx d p) _ F3 R3 eq_refl H4) as (l4 & F4 & R4).
      destruct (fires_cfg _ _ _ _ F4) as [N4 C4]. cbv zeta in H5. rewrite C4 in H5. destruct (g_rxcb (d_cfg (w_dev w d))); [|discriminate].
      destruct (f_fire _ _ _ _ (RxCallback _ _ _ _ _ _ _) _ F4 R4 eq_refl H5) as (l5 & F5 & R5). eexists _, l5. split; [exact F5|]. split; [exact R5|].
      rewrite !emit_log1. reflexivity. }
    destruct t; try (apply Y; discriminate). injection H as <-. exists os, l3. auto.
  Qed.

  (** ** Answers are sent at once *)
  Definition prompt (L0 : trace) w : Prop := (exists k, w_log w = L0 ++ k) /\ forall l x r, w_log w = L0 ++ l ++ x :: r -> receiving (snd x) = true ->
    exists w1 w2 r2, w_log w1 = L0 ++ l ++ [x] /\ sends w1 (react (w_log w1)) = Ok w2 /\ w_log w = w_log w2 ++ r2.
  Lemma prompt_out : forall L0 w w' new, prompt L0 w -> w_log w' = w_log w ++ new -> outward new -> prompt L0 w'.
  Proof.
    intros L0 w w' new [(k & K) P] E O. split; [exists (k ++ new); rewrite E, K, app_assoc; reflexivity|].
    intros l x r H RX. rewrite E, K, <- app_assoc in H. apply app_inv_head in H.
    assert (NI : ~ In x new). { intros HI. apply (proj1 (Forall_forall _ _) O) in HI. congruence. }
    apply app_eq_app in H as (m & [[-> HM]|[-> HM]]).
    - destruct m as [|y m]; [cbn in HM; subst new; exfalso; apply NI; left; reflexivity|]. cbn in HM. injection HM as <- ->.
      destruct (P l x m) as (w1 & w2 & r2 & A & B & C); [rewrite K; reflexivity|exact RX|].
      exists w1, w2, (r2 ++ new). split; [exact A|]. split; [exact B|]. rewrite E, C, <- app_assoc. reflexivity.
    - exfalso. apply NI. rewrite HM. apply in_or_app. right. left. reflexivity.
  Qed.
  Lemma prompt_same : forall L0 w w', prompt L0 w -> w_log w' = w_log w -> prompt L0 w'.
  Proof. intros L0 w w' P E. apply (prompt_out L0 w w' []); [exact P|rewrite app_nil_r; exact E|constructor]. Qed.
  Lemma prompt_sends : forall L0 w l w', prompt L0 w -> sends w l = Ok w' -> prompt L0 w'.
  Proof. intros L0 w l w' P H. apply sends_out in H as (_ & _ & new & E & O). eapply prompt_out; eassumption. Qed.
  Lemma prompt_fire : forall L0 w o w', prompt L0 w -> fire w o = Ok w' -> prompt L0 w'.
  Proof.
    intros L0 w o w' [(k & K) P] H. unfold ReactModel.fire in H. pose proof (sends_out _ _ _ H) as (_ & _ & new & E & O).
    cbn [log1 w_log] in E. split; [exists (k ++ (w_now w, o) :: new); rewrite E, K, <- !app_assoc; reflexivity|].
    intros l x r HE RX. pose proof HE as HE'. rewrite E, K, <- !app_assoc in HE. apply app_inv_head in HE. cbn [app] in HE.
    assert (NI : ~ In x new). { intros HI. apply (proj1 (Forall_forall _ _) O) in HI. congruence. }
    apply app_eq_app in HE as (m & [[-> HM]|[-> HM]]).
    - destruct m as [|y m]; cbn in HM.
      + injection HM as -> ->. exists (log1 w o), w', []. cbn [log1 w_log]. rewrite K, !app_nil_r, <- app_assoc.
        split; [reflexivity|]. split; [|reflexivity]. rewrite <- H. cbn [log1 w_log]. rewrite K, ?app_nil_r, <- app_assoc. reflexivity.
      + injection HM as <- ->. destruct (P l x m) as (w1 & w2 & r2 & A & B & C); [rewrite K; reflexivity|exact RX|].
        exists w1, w2, (r2 ++ (w_now w, o) :: new). split; [exact A|]. split; [exact B|]. rewrite E, C, <- !app_assoc. reflexivity.
    - destruct m as [|y m]; cbn in HM.
      + injection HM as <- <-. exists (log1 w o), w', []. cbn [log1 w_log]. rewrite K, !app_nil_r, <- !app_assoc.
        split; [reflexivity|]. split; [|reflexivity]. rewrite <- H. cbn [log1 w_log]. rewrite K, ?app_nil_r, <- app_assoc. reflexivity.
      + injection HM as <- HM. exfalso. apply NI. rewrite HM. apply in_or_app. right. left. reflexivity.
  Qed.
  Lemma prompt_receive : forall L0 w d p src power w', prompt L0 w -> ReceiveR w d p src power = Ok w' -> prompt L0 w'.
  Proof.
    intros L0 w d p src power w' P H. unfold ReactModel.ReceiveR in H.
    repeat match type of H with
    | (if ?c then _ else _) = _ => destruct c
    | match ?c with _ => _ end = _ => destruct c
    | bind (fire _ _) _ = _ => let v := fresh "v" in let HV := fresh "HV" in apply bind_ok in H as (v & HV & H); eapply prompt_fire in HV; [|eassumption]; clear P; rename HV into P
    | bind (Decapsulate _ _ _) _ = _ => apply bind_ok in H as (? & _ & H)
    | fire _ _ = _ => eapply prompt_fire; eassumption
    | Ok _ = Ok _ => injection H as <-; assumption
    | UB _ = _ => discriminate
    | bind _ _ = _ => let v := fresh "v" in let HV := fresh "HV" in apply bind_ok in H as (v & HV & H);
        assert (PV : prompt L0 v) by (destruct (g_pcb _); [apply bind_ok in HV as (? & HV1 & HV); eapply prompt_fire; [|exact HV]; eapply prompt_fire; eassumption|injection HV as <-; assumption]);
        clear P HV; rename PV into P
    end.
  Qed.
  Lemma Complete_out : forall w d dest w', DoTransmitComplete tx_time has_mob w d dest = Ok w' -> exists l, w_log w' = w_log w ++ l /\ outward l.
  Proof.
    intros w d dest w' H. unfold DoTransmitComplete in H. destruct (negb _); [discriminate|]. destruct (d_cur _); [|discriminate].
    destruct (d_queue _); [|discriminate]. destruct (d_q _) as [|h r].
    - injection H as <-. eexists. split; [reflexivity|]. repeat constructor.
    - apply bind_ok in H as ([b0 w1] & H & HE). injection HE as <-. apply TransmitStart_outw in H as (_ & _ & l & L & O).
      rewrite L. cbn. rewrite <- !app_assoc. eexists. split; [reflexivity|]. repeat constructor. exact O.
  Qed.
  Lemma step_out : forall w o w', o <> ORun -> step w o = Ok w' -> exists l, w_log w' = w_log w ++ l /\ outward l.
  Proof.
    intros w o w' NR H. assert (SAME : forall v : world N, w_log v = w_log w -> exists l, w_log v = w_log w ++ l /\ outward l) by (intros v ->; exists []; rewrite app_nil_r; split; [reflexivity|constructor]).
    assert (ONE : forall (v : world N) t ob, w_log v = w_log w ++ [(t, ob)] -> receiving ob = false -> exists l, w_log v = w_log w ++ l /\ outward l)
      by (intros v t ob -> R; eexists; split; [reflexivity|]; repeat constructor; exact R).
    destruct o; cbn [NetModel.step] in H; try (injection H as <-; apply SAME; reflexivity).
    - apply bind_ok in H as ([b v] & H & HE). injection HE as <-. apply Send_out in H as (_ & _ & l & L). eauto.
    - injection H as <-. eapply ONE; reflexivity.
    - apply Attach_spec in H as HH. unfold Attach in H. apply bind_ok in H as (w1 & H1 & H). injection H as <-.
      unfold ChannelAttach in H1. destruct (c_kind _), (g_kind _); try discriminate; injection H1 as <-; eapply ONE; reflexivity.
    - apply bind_ok in H as ([b v] & H & HE). injection HE as <-. unfold ChannelDetach in H.
      assert (BD : forall u : world N, w_log u = w_log w -> BaseDetach u c i = (b, v) -> exists l, w_log v = w_log w ++ l /\ outward l).
      { intros u EU HB. unfold BaseDetach in HB. destruct (nth_error (c_link (w_chan u c)) i) as [f|]; [|injection HB as _ <-; apply SAME; exact EU].
        destruct (d_up (w_dev u f)); injection HB as _ <-; [|apply SAME; exact EU]. eapply ONE; [cbn; rewrite EU; reflexivity|reflexivity]. }
      destruct (c_kind _); [injection H as H; apply (BD w); [reflexivity|exact H]|].
      destruct (nth_error _ _); [|discriminate]. injection H as H. eapply BD; [|exact H]. reflexivity.
    - injection H as <-. eapply ONE; reflexivity.
    - destruct (_ && _); injection H as <-; apply SAME; reflexivity.
    - contradiction.
  Qed.

  Lemma upd_twice : forall A (f : nat -> A) i a b, upd (upd f i a) i b = upd f i b.
  Proof. intros. apply functional_extensionality. intros j. unfold upd. destruct (Nat.eqb j i); reflexivity. Qed.

  Hypothesis quiet_end : no_answer_to_end react.

  Lemma CompleteR_same : forall w d dest,
    ReactModel.DoTransmitCompleteR crc fcs tx_time has_mob react w d dest = DoTransmitComplete tx_time has_mob w d dest.
  Proof.
    intros w d dest. unfold DoTransmitCompleteR, DoTransmitComplete. destruct (negb (d_busy (w_dev w d))); [reflexivity|].
    destruct (d_cur (w_dev w d)) as [cur|]; [|reflexivity]. unfold ReactModel.fire. cbn [log1 w_log w_now set_tx set_dev].
    rewrite quiet_end. cbn [ReactModel.sends bind].
    unfold set_tx, set_dev, log1. cbn [w_dev w_now w_chan w_events w_log]. rewrite ?upd_same. cbn [d_queue d_q d_busy d_cfg d_chan d_id d_up].
    destruct (d_queue (w_dev w d)); [|reflexivity]. rewrite ?upd_twice.
    destruct (d_q (w_dev w d)) as [|h r]; [reflexivity|]. rewrite ?upd_same, ?upd_twice. cbn [d_queue d_q d_busy d_cfg d_chan d_id d_up]. reflexivity.
  Qed.

  Lemma stepR_open : forall w o w', stepR w o = Ok w' -> exists ls v, from_react ls /\ run w (o :: map as_op ls) = Ok v /\ alike w' v.
  Proof.
    intros w o w' H.
    assert (AN : forall w1, step w o = Ok w1 -> sends w1 (react (w_log w1)) = Ok w' ->
      exists ls v, from_react ls /\ run w (o :: map as_op ls) = Ok v /\ alike w' v).
    { intros w1 S1 HS. exists (react (w_log w1)), w'. split; [apply from_one|]. split; [|apply alike_refl].
      cbn [NetModel.run]. rewrite S1. cbn [bind]. rewrite <- sends_run. exact HS. }
    assert (ST : step w o = Ok w' -> exists ls v, from_react ls /\ run w (o :: map as_op ls) = Ok v /\ alike w' v).
    { intros S1. exists [], w'. split; [apply from_nil|]. split; [|apply alike_refl]. cbn [NetModel.run map]. rewrite S1. reflexivity. }
    destruct o; cbn [ReactModel.stepR] in H; try (apply ST; exact H).
    - apply bind_ok in H as (w1 & H1 & H). eapply AN; [exact H1|exact H].
    - apply bind_ok in H as ([b w1] & H1 & H). destruct b.
      + eapply AN; [|exact H]. cbn [NetModel.step]. rewrite H1. reflexivity.
      + injection H as <-. apply ST. cbn [NetModel.step]. rewrite H1. reflexivity.
    - eapply AN; [reflexivity|exact H].
    - unfold ReactModel.run_nextR in H. cbn [NetModel.step NetModel.run]. unfold run_next. 
      destruct (w_events w) as [|[t e] r] eqn:E.
      + injection H as <-. exists [], w. split; [apply from_nil|]. split; [reflexivity|apply alike_refl].
      + destruct e as [d dest|d p src power].
        * rewrite CompleteR_same in H. exists [], w'. split; [apply from_nil|]. split; [|apply alike_refl]. rewrite H. reflexivity.
        * apply ReceiveR_fires in H as (os & ls & F & R & HR). destruct (fires_open _ _ _ _ F) as (v & new & HS & A & _).
          exists ls, v. split; [exact R|]. split; [|exact A]. rewrite HR. cbn [bind]. rewrite <- sends_run. exact HS.
  Qed.

  Lemma prompt_step : forall L0 w o w', prompt L0 w -> stepR w o = Ok w' -> prompt L0 w'.
  Proof.
    intros L0 w o w' P H.
    assert (ST : forall v, o <> ORun -> step w o = Ok v -> prompt L0 v).
    { intros v NR HS. apply step_out in HS as (l & L & O); [|exact NR]. eapply prompt_out; eassumption. }
    destruct o; cbn [ReactModel.stepR] in H; try (apply ST; [discriminate|exact H]).
    - apply bind_ok in H as (w1 & H1 & H). eapply prompt_sends; [|exact H]. apply ST; [discriminate|exact H1].
    - apply bind_ok in H as ([b w1] & H1 & H). assert (P1 : prompt L0 w1) by (apply ST; [discriminate|]; cbn [NetModel.step]; rewrite H1; reflexivity).
      destruct b; [eapply prompt_sends; eassumption|injection H as <-; exact P1].
    - eapply prompt_sends; [|exact H]. apply ST; [discriminate|reflexivity].
    - unfold ReactModel.run_nextR in H. destruct (w_events w) as [|[t e] r]; [injection H as <-; exact P|].
      assert (P1 : prompt L0 (mkWorld t (w_dev w) (w_chan w) r (w_log w))) by (eapply prompt_same; [exact P|reflexivity]).
      destruct e as [d dest|d p src power].
      + rewrite CompleteR_same in H. apply Complete_out in H as (l & L & O). eapply prompt_out; [exact P1|exact L|exact O].
      + eapply prompt_receive; eassumption.
  Qed.
  Lemma prompt_run : forall L0 ops w w', prompt L0 w -> runR w ops = Ok w' -> prompt L0 w'.
  Proof.
    induction ops as [|o r IH]; intros w w' P H; [injection H as <-; exact P|]. cbn [ReactModel.runR] in H. apply bind_ok in H as (w1 & H1 & H).
    eapply IH; [|exact H]. eapply prompt_step; eassumption.
  Qed.

  Lemma runR_open : forall ops w u w', alike w u -> runR w ops = Ok w' ->
    exists ops' v, answered react ops ops' /\ run u ops' = Ok v /\ alike w' v.
  Proof.
    induction ops as [|o r IH]; intros w u w' A H.
    - injection H as <-. exists [], u. split; [constructor|]. split; [reflexivity|exact A].
    - cbn [ReactModel.runR] in H. apply bind_ok in H as (w1 & H1 & H). apply stepR_open in H1 as (ls & v1 & R & RV & A1).
      destruct (run_alike _ _ _ _ A RV) as (v2 & RV2 & A2). pose proof (alike_trans _ _ _ A1 A2) as A3.
      destruct (IH w1 v2 w' A3 H) as (ops' & v & AN & RO & AF). exists (o :: map as_op ls ++ ops'), v.
      split; [destruct R as (pasts & ->); constructor; exact AN|]. split; [|exact AF].
      change (o :: map as_op ls ++ ops') with ((o :: map as_op ls) ++ ops'). rewrite run_app, RV2. exact RO.
  Qed.

  (** ** Assertions *)
  Lemma Send_no_tx : forall w d p dest q, Send crc fcs tx_time has_mob w d p dest q <> Abort AssertTx.
  Proof.
    intros w d p dest q H. unfold Send in H. destruct dest as [a|]; [|destruct (d_up _); discriminate].
    destruct (negb _); [discriminate|]. destruct (d_queue _); [|discriminate]. destruct (_ (d_q _) _); [|discriminate].
    destruct (d_busy (w_dev w d)) eqn:B; [discriminate|]. destruct (_ ++ _) as [|h r]; [discriminate|].
    apply bind_abort in H as [H|([b1 w1] & _ & H)]; [|discriminate]. revert H. apply TransmitStart_no_tx. cbn. rewrite upd_same. reflexivity.
  Qed.
  Lemma sends_no_tx : forall l w, sends w l <> Abort AssertTx.
  Proof.
    induction l as [|[[[d p] dest] q] r IH]; intros w H; [discriminate|]. cbn [ReactModel.sends] in H.
    apply bind_abort in H as [H|([b1 w1] & _ & H)]; [exact (Send_no_tx _ _ _ _ _ H)|]. exact (IH _ H).
  Qed.
  Lemma Decapsulate_no_tx : forall b, Decapsulate crc fcs b <> Abort AssertTx.
  Proof.
    intros b H. unfold Decapsulate in H.
    repeat match type of H with
    | (if ?c then _ else _) = _ => destruct c
    | match ?c with _ => _ end = _ => destruct c
    | bind _ _ = _ => apply bind_abort in H as [H|(? & _ & H)]
    | _ => progress cbn in H
    end; try discriminate.
  Qed.
  Lemma ReceiveR_no_tx : forall w d p src power, ReceiveR w d p src power <> Abort AssertTx.
  Proof.
    intros w d p src power H. unfold ReactModel.ReceiveR in H.
    assert (FN : forall w o, fire w o <> Abort AssertTx) by (intros; apply sends_no_tx).
    destruct (Nat.eqb src d); [exact (FN _ _ H)|]. apply bind_abort in H as [H|(w1 & _ & H)]; [exact (FN _ _ H)|].
    destruct (nlt N _ _); [exact (FN _ _ H)|]. destruct (match g_err _ with Some f => f _ _ | None => _ end); [exact (FN _ _ H)|].
    apply bind_abort in H as [H|(r & _ & H)]; [exact (Decapsulate_no_tx _ H)|]. destruct r as [|pl pr fr to]; [exact (FN _ _ H)|].
    apply bind_abort in H as [H|(w2 & _ & H)]; [exact (FN _ _ H)|]. apply bind_abort in H as [H|(w3 & _ & H)].
    { destruct (g_pcb _); [|discriminate]. apply bind_abort in H as [H|(w4 & _ & H)]; exact (FN _ _ H). }
    destruct (classify _ _); try discriminate; (apply bind_abort in H as [H|(w4 & _ & H)]; [exact (FN _ _ H)|]; cbv zeta in H; destruct (g_rxcb _); [exact (FN _ _ H)|discriminate]).
  Qed.

  Lemma stepR_no_tx : forall w u o, alike w u -> reachable u -> stepR w o <> Abort AssertTx.
  Proof.
    intros w u o A R H.
    assert (SN : step w o <> Abort AssertTx).
    { intros S. apply (step_no_tx crc fcs tx_time has_mob u o R). rewrite <- (pre_bare u), step_pre, <- (same_bare _ _ (alike_state _ _ A)).
      rewrite <- (pre_bare w), step_pre in S. destruct (step (bare w) o); cbn in *; congruence. }
    destruct o; cbn [ReactModel.stepR] in H; try (exact (SN H)).
    - apply bind_abort in H as [H|(w1 & _ & H)]; [exact (SN H)|exact (sends_no_tx _ _ H)].
    - apply bind_abort in H as [H|([b w1] & _ & H)]; [apply SN; cbn [NetModel.step]; rewrite H; reflexivity|]. destruct b; [exact (sends_no_tx _ _ H)|discriminate].
    - exact (sends_no_tx _ _ H).
    - unfold ReactModel.run_nextR in H. cbn [NetModel.step] in SN. unfold run_next in SN. destruct (w_events w) as [|[t e] r]; [discriminate|].
      destruct e as [d dest|d p src power]; [rewrite CompleteR_same in H; exact (SN H)|exact (ReceiveR_no_tx _ _ _ _ _ H)].
  Qed.
  Lemma runR_no_tx : forall ops w u, alike w u -> reachable u -> runR w ops <> Abort AssertTx.
  Proof.
    induction ops as [|o r IH]; intros w u A R H; [discriminate|]. cbn [ReactModel.runR] in H.
    apply bind_abort in H as [H|(w1 & H1 & H)]; [exact (stepR_no_tx _ _ _ A R H)|].
    destruct (stepR_open _ _ _ H1) as (ls & v1 & _ & RV & A1). destruct (run_alike _ _ _ _ A RV) as (v2 & RV2 & A2).
    apply (IH w1 v2); [eapply alike_trans; eassumption| |exact H]. eapply reachable_run; eassumption.
  Qed.
End React.

(** ** Sending at the end of a transmission *)
Section Jam.
  Context {N : Num}.
  Variable crc : list Z -> Z.
  Variable fcs : bool.
  Variable tx_time : Z -> Z -> Z.
  Variable has_mob : nat -> bool.
  Variable react : trace -> list sending.
  Implicit Type w : world N.
  Variables (d : nat) (T dst : Z).
  Notation jam := (@jammed N d T dst).

  Lemma jam_more : forall w w', jam w -> d_busy (w_dev w' d) = d_busy (w_dev w d) -> d_cur (w_dev w' d) = d_cur (w_dev w d) ->
    (forall x, In x (w_events w) -> In x (w_events w')) -> jam w'.
  Proof. intros w w' (A & B & C) H1 H2 H3. unfold jammed. rewrite H1, H2. auto. Qed.
  Lemma insert_in : forall (e : Z * ev N) l x, In x l \/ x = e -> In x (insert_event e l).
  Proof.
    intros e l x. induction l as [|y l IH]; intros H; [destruct H as [[]| ->]; left; reflexivity|].
    cbn. destruct (fst y <=? fst e).
    - destruct H as [[H|H]| ->]; [left; exact H|right; apply IH; auto|right; apply IH; auto].
    - destruct H as [H| ->]; [right; exact H|left; reflexivity].
  Qed.
  Definition more (w w' : world N) : Prop := w_dev w' = w_dev w /\ forall x, In x (w_events w) -> In x (w_events w').
  Lemma more_refl : forall w, more w w. Proof. split; auto. Qed.
  Lemma more_trans : forall a b c : world N, more a b -> more b c -> more a c.
  Proof. intros a b c [A1 A2] [B1 B2]. split; [congruence|auto]. Qed.
  Lemma Deliver_more : forall w c p src dd t b w', Deliver has_mob w c p src dd t = Ok (b, w') -> more w w'.
  Proof.
    intros w c p src dd t b w' H. apply Deliver_spec in H as (m & n & _ & _ & [(_ & -> & _)|(_ & _ & _ & ->)]); [apply more_refl|].
    split; [reflexivity|]. intros x Hx. cbn. apply insert_in. auto.
  Qed.
  Lemma deliver_all_more : forall dsts w c p src t b w', deliver_all has_mob w c p src dsts t = Ok (b, w') -> more w w'.
  Proof.
    induction dsts as [|e r IH]; intros w c p src t b w' H; cbn in H; [injection H as _ <-; apply more_refl|].
    apply bind_ok in H as ([b1 w1] & H1 & H). apply bind_ok in H as ([b2 w2] & H2 & H). injection H as _ <-.
    eapply more_trans; [eapply Deliver_more; exact H1|eapply IH; exact H2].
  Qed.
  Lemma Channel_more : forall w c p i dest t b w', ChannelTransmitStart has_mob w c p i dest t = Ok (b, w') -> more w w'.
  Proof.
    intros w c p i dest t b w' H. unfold ChannelTransmitStart, IslTransmitStart, LeoTransmitStart in H.
    destruct (c_kind (w_chan w c)); destruct (nth_error (c_link (w_chan w c)) i) as [src|]; try (injection H as _ <-; apply more_refl).
    - destruct (GetDevice w c dest) as [dd|]; [eapply Deliver_more; exact H|].
      destruct (dest =? broadcast); [|injection H as _ <-; apply more_refl]. apply bind_ok in H as ([b1 w1] & H1 & H). injection H as _ <-. eapply deliver_all_more. exact H1.
    - destruct (_ && _); [discriminate|]. destruct (indexed _ (c_gnd _)); [eapply deliver_all_more; exact H|].
      destruct (indexed _ (c_sat _)); [eapply deliver_all_more; exact H|injection H as _ <-; apply more_refl].
  Qed.
  (** A transmission starts only at an idle device. *)
  Lemma TransmitStart_more : forall w e p dest b w', TransmitStart tx_time has_mob w e p dest = Ok (b, w') ->
    d_busy (w_dev w e) = false /\ d_busy (w_dev w' e) = true /\ d_cur (w_dev w' e) = Some p /\ d_q (w_dev w' e) = d_q (w_dev w e) /\
    d_queue (w_dev w' e) = d_queue (w_dev w e) /\
    (forall f, f <> e -> w_dev w' f = w_dev w f) /\ (forall x, In x (w_events w) -> In x (w_events w')) /\
    exists t, In (t, TxComplete e dest) (w_events w').
  Proof.
    intros w e p dest b w' H. unfold TransmitStart in H. destruct (d_busy (w_dev w e)); [discriminate|]. split; [reflexivity|].
    apply bind_ok in H as (w2 & H1 & H). apply schedule_ok in H1 as [_ ->]. destruct (d_chan (w_dev w e)) as [c|]; [|discriminate].
    apply bind_ok in H as ([r w4] & H1 & H). apply Channel_more in H1 as [M1 M2]. cbn [log1 w_dev set_tx set_dev w_events] in M1, M2.
    assert (E : w_dev w' = w_dev w4 /\ w_events w' = w_events w4) by (destruct r; injection H as _ <-; split; reflexivity).
    destruct E as [-> ->]. rewrite M1. rewrite !upd_same. cbn [d_busy d_cur d_q d_queue]. do 4 (split; [reflexivity|]). split.
    - intros f NF. rewrite upd_other by exact NF. reflexivity.
    - split; [intros x Hx; apply M2, insert_in; auto|]. eexists. apply M2, insert_in. right. reflexivity.
  Qed.
  Lemma Send_jam : forall w e p dest q b w', jam w -> Send crc fcs tx_time has_mob w e p dest q = Ok (b, w') -> jam w'.
  Proof.
    intros w e p dest q b w' J H. unfold Send in H. destruct dest as [a|].
    - destruct (negb _); [injection H as _ <-; exact J|]. destruct (d_queue _) as [admit|]; [|discriminate].
      destruct (admit _ _); [|injection H as _ <-; exact J]. destruct (d_busy (w_dev w e)) eqn:B.
      + injection H as _ <-. eapply jam_more; [exact J|cbn; unfold upd; destruct (Nat.eqb_spec d e) as [->|]; cbn; congruence..|auto].
      + assert (NE : d <> e) by (intros ->; destruct J; congruence).
        destruct (_ ++ _) as [|h r]; [discriminate|]. apply bind_ok in H as ([b1 w1] & H1 & H). injection H as _ <-.
        apply TransmitStart_more in H1 as (_ & _ & _ & _ & _ & F & M & _).
        eapply jam_more; [exact J|rewrite (F d NE); cbn; rewrite upd_other by exact NE; reflexivity..|exact M].
    - destruct (d_up _); [discriminate|]. injection H as _ <-. exact J.
  Qed.
  Lemma sends_jam : forall l w w', jam w -> sends crc fcs tx_time has_mob w l = Ok w' -> jam w'.
  Proof.
    induction l as [|[[[e p] dest] q] r IH]; intros w w' J H; [injection H as <-; exact J|]. cbn [sends] in H.
    apply bind_ok in H as ([b v] & H1 & H). eapply IH; [|exact H]. eapply Send_jam; eassumption.
  Qed.
  Lemma fire_jam : forall w o w', jam w -> fire crc fcs tx_time has_mob react w o = Ok w' -> jam w'.
  Proof. intros w o w' J H. unfold fire in H. eapply sends_jam; [|exact H]. exact J. Qed.
  Lemma ReceiveR_jam : forall w e p src power w', jam w -> ReceiveR crc fcs tx_time has_mob react w e p src power = Ok w' -> jam w'.
  Proof.
    intros w e p src power w' P H. unfold ReceiveR in H.
    repeat match type of H with
    | (if ?c then _ else _) = _ => destruct c
    | match ?c with _ => _ end = _ => destruct c
    | bind (fire _ _ _ _ _ _ _) _ = _ => let v := fresh "v" in let HV := fresh "HV" in apply bind_ok in H as (v & HV & H); eapply fire_jam in HV; [|eassumption]; clear P; rename HV into P
    | bind (Decapsulate _ _ _) _ = _ => apply bind_ok in H as (? & _ & H)
    | fire _ _ _ _ _ _ _ = _ => eapply fire_jam; eassumption
    | Ok _ = Ok _ => injection H as <-; assumption
    | UB _ = _ => discriminate
    | bind _ _ = _ => let v := fresh "v" in let HV := fresh "HV" in apply bind_ok in H as (v & HV & H);
        assert (PV : jam v) by (destruct (g_pcb _); [apply bind_ok in HV as (? & HV1 & HV); eapply fire_jam; [|exact HV]; eapply fire_jam; eassumption|injection HV as <-; assumption]);
        clear P HV; rename PV into P
    end.
  Qed.
  Lemma CompleteR_jam : forall w e dest w', jam w -> DoTransmitCompleteR crc fcs tx_time has_mob react w e dest = Ok w' -> e <> d /\ jam w'.
  Proof.
    intros w e dest w' J H. unfold DoTransmitCompleteR in H. destruct (negb (d_busy (w_dev w e))); [discriminate|].
    destruct (d_cur (w_dev w e)) as [cur|] eqn:C; [|discriminate].
    assert (NE : e <> d) by (intros ->; destruct J as (_ & X & _); congruence). split; [exact NE|].
    apply bind_ok in H as (w1 & H1 & H).
    assert (J1 : jam w1).
    { eapply fire_jam; [|exact H1]. eapply jam_more; [exact J|cbn; rewrite upd_other by auto; reflexivity..|auto]. }
    assert (J2 : forall q b c, jam (set_tx w1 e q b c)).
    { intros q b c. eapply jam_more; [exact J1|cbn; rewrite upd_other by auto; reflexivity..|auto]. }
    destruct (d_queue (w_dev w1 e)); [|discriminate]. destruct (d_q (w_dev w1 e)) as [|h r].
    - injection H as <-. apply J2.
    - apply bind_ok in H as ([b0 v] & H2 & H). injection H as <-. apply TransmitStart_more in H2 as (_ & _ & _ & _ & _ & F & M & _).
      eapply jam_more; [exact J1|rewrite (F d) by auto; cbn; rewrite !upd_other by auto; reflexivity..|exact M].
  Qed.
  Lemma step_jam : forall w o w', o <> ORun -> jam w -> step crc fcs tx_time has_mob w o = Ok w' -> jam w'.
  Proof.
    intros w o w' NR J H.
    assert (KEEP : forall v : world N, (d_busy (w_dev v d) = d_busy (w_dev w d) /\ d_cur (w_dev v d) = d_cur (w_dev w d)) -> w_events v = w_events w -> jam v).
    { intros v [K1 K2] K3. eapply jam_more; [exact J|exact K1|exact K2|]. rewrite K3. auto. }
    destruct o as [e p dest q|e s|e admit|e c|c i|e|c f|c f|t|]; cbn [NetModel.step] in H.
    - apply bind_ok in H as ([b v] & H & HE). injection HE as <-. eapply Send_jam; eassumption.
    - injection H as <-. apply KEEP; [|reflexivity]. cbn. unfold upd. destruct (Nat.eqb_spec d e) as [->|]; split; reflexivity.
    - injection H as <-. apply KEEP; [|reflexivity]. cbn. unfold upd. destruct (Nat.eqb_spec d e) as [->|]; split; reflexivity.
    - unfold Attach in H. apply bind_ok in H as (w1 & H1 & H). injection H as <-.
      assert (E : w_dev w1 = w_dev w /\ w_events w1 = w_events w) by (unfold ChannelAttach in H1; destruct (c_kind (w_chan w c)), (g_kind (d_cfg (w_dev w e))); try discriminate; injection H1 as <-; split; reflexivity).
      destruct E as [E1 E2]. apply KEEP; [|exact E2]. cbn. rewrite E1. unfold upd. rewrite Nat.eqb_refl. destruct (Nat.eqb_spec d e) as [->|]; split; reflexivity.
    - apply bind_ok in H as ([b v] & H & HE). injection HE as <-. unfold ChannelDetach in H.
      assert (BD : forall u : world N, w_dev u = w_dev w -> w_events u = w_events w -> BaseDetach u c i = (b, v) -> jam v).
      { intros u E1 E2 HB. unfold BaseDetach in HB. destruct (nth_error (c_link (w_chan u c)) i) as [f|]; [|injection HB as _ <-; apply KEEP; [rewrite E1; auto|exact E2]].
        destruct (d_up (w_dev u f)); injection HB as _ <-; apply KEEP; try exact E2; [|rewrite E1; auto]. cbn. rewrite E1. unfold upd. destruct (Nat.eqb_spec d f) as [->|]; split; reflexivity. }
      destruct (c_kind _); [injection H as H; apply (BD w); auto|]. destruct (nth_error _ _); [|discriminate]. injection H as H. eapply BD; [| |exact H]; reflexivity.
    - injection H as <-. apply KEEP; [|reflexivity]. cbn. unfold upd. destruct (Nat.eqb_spec d e) as [->|]; split; reflexivity.
    - injection H as <-. apply KEEP; [auto|reflexivity].
    - injection H as <-. apply KEEP; [auto|reflexivity].
    - destruct (_ && _); injection H as <-; [apply KEEP; [auto|reflexivity]|exact J].
    - contradiction.
  Qed.
  Lemma stepR_jam : forall w o w', jam w -> stepR crc fcs tx_time has_mob react w o = Ok w' -> jam w'.
  Proof.
    intros w o w' J H.
    assert (ST : forall v, o <> ORun -> step crc fcs tx_time has_mob w o = Ok v -> jam v) by (intros v NR; apply step_jam; assumption).
    destruct o as [e p dest q|e s|e admit|e c|c i|e|c f|c f|t|]; cbn [stepR] in H; try (apply ST; [discriminate|exact H]).
    - apply bind_ok in H as (w1 & H1 & H). eapply sends_jam; [|exact H]. apply ST; [discriminate|exact H1].
    - apply bind_ok in H as ([b w1] & H1 & H). assert (P1 : jam w1) by (apply ST; [discriminate|]; cbn [NetModel.step]; rewrite H1; reflexivity).
      destruct b; [eapply sends_jam; eassumption|injection H as <-; exact P1].
    - eapply sends_jam; [|exact H]. apply ST; [discriminate|reflexivity].
    - unfold run_nextR in H. destruct (w_events w) as [|[t e] r] eqn:E; [injection H as <-; exact J|].
      destruct J as (J1 & J2 & J3). rewrite E in J3. destruct J3 as [J3|J3].
      + injection J3 as -> ->. exfalso. unfold DoTransmitCompleteR in H. cbn [w_dev] in H. rewrite J1, J2 in H. discriminate.
      + assert (P1 : jam (mkWorld t (w_dev w) (w_chan w) r (w_log w))) by (repeat split; assumption).
        destruct e as [e dest|e p src power]; [eapply CompleteR_jam; eassumption|eapply ReceiveR_jam; eassumption].
  Qed.
  Lemma runR_jam : forall ops w w', jam w -> runR crc fcs tx_time has_mob react w ops = Ok w' -> jam w'.
  Proof.
    induction ops as [|o r IH]; intros w w' J H; [injection H as <-; exact J|]. cbn [runR] in H. apply bind_ok in H as (w1 & H1 & H).
    eapply IH; [|exact H]. eapply stepR_jam; eassumption.
  Qed.
End Jam.

Section End_.
  Context {N : Num}.
  Variable crc : list Z -> Z.
  Variable fcs : bool.
  Variable tx_time : Z -> Z -> Z.
  Variable has_mob : nat -> bool.
  Variable react : trace -> list sending.

  Lemma end_sink : forall (w w1 : world N) d dest t r admit cur p a q,
    w_events w = (t, TxComplete d dest) :: r -> d_cur (w_dev w d) = Some cur -> d_up (w_dev w d) = true ->
    d_queue (w_dev w d) = Some admit -> admit (d_q (w_dev w d)) (mkPkt (p_uid p) (AddHeader crc fcs (addr_of w d) a q (p_bytes p))) = true ->
    react (w_log w ++ [(t, PhyTxEnd d cur)]) = [(d, p, Mac a, q)] ->
    run_nextR crc fcs tx_time has_mob react w = Ok w1 -> d_q (w_dev w d) = [] /\ exists t', jammed d t' a w1.
  Proof.
    intros w w1 d dest t r admit cur p a q EV CU UP QU AD RE H. unfold run_nextR in H. rewrite EV in H.
    unfold DoTransmitCompleteR in H. cbn [w_dev] in H. destruct (negb (d_busy (w_dev w d))); [discriminate|]. rewrite CU in H.
    apply bind_ok in H as (w2 & H2 & H). unfold fire in H2.
    match type of H2 with sends _ _ _ _ ?v _ = _ => remember v as v0 eqn:EV0 end.
    assert (L0 : w_log v0 = w_log w ++ [(t, PhyTxEnd d cur)]) by (rewrite EV0; reflexivity).
    assert (D0 : w_dev v0 d = mkDev (d_cfg (w_dev w d)) (Some admit) (d_q (w_dev w d)) false (Some cur) (d_chan (w_dev w d)) (d_id (w_dev w d)) true).
    { rewrite EV0. cbn. rewrite upd_same, QU, UP. reflexivity. }
    rewrite L0, RE in H2. clear EV0 L0.
    cbn [sends] in H2. apply bind_ok in H2 as ([b w2'] & H2 & HE). injection HE as ->. unfold Send in H2.
    unfold addr_of in H2, AD. rewrite D0 in H2. cbn [d_up d_queue d_q d_busy d_cfg d_cur negb] in H2.
    rewrite AD in H2. destruct (d_q (w_dev w d) ++ _) as [|h k] eqn:EQ; [discriminate|].
    apply bind_ok in H2 as ([b1 w3] & H2 & HE). injection HE as _ ->. apply TransmitStart_more in H2 as (_ & B2 & C2 & Q2 & U2 & _ & _ & (t' & I2)).
    cbn in Q2, U2. rewrite upd_same in Q2, U2. cbn in Q2, U2. rewrite ?D0 in U2. cbn in U2. rewrite Q2, U2, B2 in H.
    destruct k as [|h2 k].
    - destruct (d_q (w_dev w d)) as [|x y]; [|destruct y; discriminate]. split; [reflexivity|]. exists t'. injection H as <-.
      unfold jammed. cbn. rewrite upd_same. cbn. auto.
    - exfalso. apply bind_ok in H as ([b4 w4] & H & _). apply TransmitStart_more in H as (H & _). cbn in H. rewrite upd_same in H. discriminate.
  Qed.
End End_.
