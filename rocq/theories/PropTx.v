(** C33-C40: devices. All theorems are about every execution of every network:
    [N] is the arithmetic of powers, [crc] the checksum function, [fcs] tells
    whether checksums are enabled, [tx_time] is the transmission time by data rate
    and size, and [has_mob] tells which nodes have a mobility model. *)
Require Import ZArith List Bool Lia.
Require Import Verif.Base Verif.Num Verif.FrameModel Verif.NetModel Verif.NetSpec Verif.NetSteps Verif.NetInv
  Verif.NetTxProofs Verif.NetSendProofs Verif.NetOrderProofs Verif.NetExamples.
Import ListNotations.
Local Open Scope Z_scope.

(** A busy sender: two packets queued behind a transmission, a third refused. *)
Definition ex_busy : list (op NumZ) := isl3 0 ++
  [OSend 0 (packet 7) (Mac 2) 2048; OSend 0 (packet 8) (Mac 3) 2048; OSend 0 (packet 9) (Mac 2) 2048;
   OSend 0 (packet 10) (Mac 2) 2048].

(** ** C33 *)
Theorem C33_transmit_assertions : forall (N : Num) crc fcs tx_time has_mob dk ck (ops : list (op N)),
  run crc fcs tx_time has_mob (initial dk ck) ops <> Abort AssertTx.
Proof. intros. apply run_no_tx, reachable_initial. Qed.
Print Assumptions C33_transmit_assertions.

(** The assertions are there: a state that cannot be reached violates them. *)
Example ex_C33 :
  holds (fun w => DoTransmitComplete ex_tx ex_mob w 0 2 = Abort AssertTx /\
                  TransmitStart ex_tx ex_mob (set_tx w 0 [] true None) 0 (packet 7) 2 = Abort AssertTx) (after true (isl3 0)) /\
  is_ok (after true (ex_busy ++ repeat ORun 6)) = true.
Proof. vm_compute. auto. Qed.

(** ** C34 *)
Theorem C34_busy_iff_pending : forall (N : Num) crc fcs tx_time has_mob (w : world N),
  reachable crc fcs tx_time has_mob w -> forall d,
  (d_busy (w_dev w d) = true <-> length (ends d (w_events w)) = 1%nat) /\
  (length (ends d (w_events w)) <= 1)%nat /\
  (d_busy (w_dev w d) = false -> d_q (w_dev w d) = []).
Proof. intros. eapply busy_pending. eassumption. Qed.
Print Assumptions C34_busy_iff_pending.

Example ex_C34 : holds (fun w => d_busy (w_dev w 0%nat) = true /\ ends 0 (w_events w) = [64000000] /\
    length (d_q (w_dev w 0%nat)) = 2%nat /\ length (w_events w) = 2%nat) (after true ex_busy).
Proof. vm_compute. auto. Qed.

(** ** C35 *)
Theorem C35_accepted_in_order : forall (N : Num) crc fcs tx_time has_mob (w : world N),
  reachable crc fcs tx_time has_mob w -> forall d, queue_kept crc fcs d (w_log w) ->
  map snd (accepted crc fcs d (w_log w)) = begun d (w_log w) ++ d_q (w_dev w d).
Proof. intros. eapply accepted_order; eassumption. Qed.
Print Assumptions C35_accepted_in_order.

(** Also when queues are replaced (which loses what was in them), the device does
    what the reference transmitter does. *)
Theorem C35_reference : forall (N : Num) crc fcs tx_time has_mob (w : world N),
  reachable crc fcs tx_time has_mob w -> forall d,
  exists line free, service crc fcs d (w_log w) = Some (line, free) /\ map snd line = d_q (w_dev w d).
Proof.
  intros N crc fcs tx_time has_mob w H d.
  destruct (reachable_transmitter crc fcs tx_time has_mob d w H) as [(_ & _ & line & free & S & L & _) _].
  exists line, free. auto.
Qed.
Print Assumptions C35_reference.

Example ex_C35 : holds (fun w => map p_uid (map snd (accepted ex_crc true 0 (w_log w))) = [7; 8; 9] /\
    map p_uid (begun 0 (w_log w)) = [7; 8] /\ map p_uid (d_q (w_dev w 0%nat)) = [9] /\
    length (filter (fun x => match snd x with QueueSet 0 => true | _ => false end) (w_log w)) = 1%nat)
  (after true (ex_busy ++ [ORun])).
Proof. vm_compute. auto. Qed.
Example ex_C35_kept : holds (fun w => queue_kept ex_crc true 0 (w_log w)) (after true (ex_busy ++ [ORun])).
Proof.
  apply holds_imp with (P := fun w => accepted ex_crc true 0 (firstn 6 (w_log w)) = [] /\
     forallb (fun x => match snd x with QueueSet 0 => false | _ => true end) (skipn 6 (w_log w)) = true);
    [vm_compute; auto|].
  intros w [L1 L2]. exists (firstn 6 (w_log w)), (skipn 6 (w_log w)). split; [symmetry; apply firstn_skipn|].
  split; [exact L1|]. intros t Ht.
  rewrite forallb_forall in L2. specialize (L2 _ Ht). discriminate.
Qed.

(** ** C36 *)
Theorem C36_no_overlap : forall (N : Num) crc fcs tx_time has_mob (w : world N),
  reachable crc fcs tx_time has_mob w -> forall d l1 t1 c1 p1 a1 tx1 g1 l2 t2 c2 p2 a2 tx2 g2 l3,
  w_log w = l1 ++ (t1, ToChannel d c1 p1 a1 tx1 g1) :: l2 ++ (t2, ToChannel d c2 p2 a2 tx2 g2) :: l3 ->
  (forall t c p a tx gap, ~ In (t, ToChannel d c p a tx gap) l2) -> t1 + tx1 + g1 <= t2.
Proof. intros. eapply no_overlap; eassumption. Qed.
Print Assumptions C36_no_overlap.

(** Exact times: first come, first served. *)
Theorem C36_begin_times : forall (N : Num) crc fcs tx_time has_mob (w : world N),
  reachable crc fcs tx_time has_mob w -> forall d, queue_kept crc fcs d (w_log w) ->
  map (fun x => fst (fst x)) (transmissions d (w_log w)) =
  first_come None (map fst (accepted crc fcs d (w_log w))) (map snd (transmissions d (w_log w))).
Proof. intros. eapply begin_times; eassumption. Qed.
Print Assumptions C36_begin_times.

(** A transmission lasts what the data rate and the size of the frame make of it,
    and is followed by the gap. *)
Theorem C36_durations : forall (N : Num) crc fcs tx_time has_mob (w : world N) o w',
  reachable crc fcs tx_time has_mob w -> step crc fcs tx_time has_mob w o = Ok w' ->
  exists new, w_log w' = w_log w ++ new /\ forall t d c p dest tx gap, In (t, ToChannel d c p dest tx gap) new ->
    t = w_now w' /\ tx = tx_time (g_bps (d_cfg (w_dev w d))) (Z.of_nat (length (p_bytes p))) /\
    gap = g_gap (d_cfg (w_dev w d)) /\ d_chan (w_dev w d) = Some c.
Proof.
  intros N crc fcs tx_time has_mob w o w' R H. apply reachable_indexed in R.
  destruct (step_marked crc fcs tx_time has_mob w o w' R H) as (l & E & M). exists l. split; [exact E|].
  intros t d c p dest tx gap HI. apply in_split in HI as (l1 & l2 & ->).
  destruct (marked_next _ _ _ M _ _ _ _ _ _ _ _ _ eq_refl) as [((D1 & D2 & D3) & D4) _]. auto.
Qed.
Print Assumptions C36_durations.

Example ex_C36 : holds (fun w =>
    map (fun x => (fst (fst x), snd x)) (transmissions 0 (w_log w)) = [(0, 64000005); (64000005, 64000005); (128000010, 64000005)])
  (after true (OSet 0 (CGap 5) :: ex_busy ++ repeat ORun 4)).
Proof. vm_compute. reflexivity. Qed.

(** ** C37 *)
Theorem C37_send_result : forall (N : Num) crc fcs tx_time has_mob (w : world N) d p a q b w',
  reachable crc fcs tx_time has_mob w -> Send crc fcs tx_time has_mob w d p (Mac a) q = Ok (b, w') ->
  let f := frame_of crc fcs p a q (addr_of w d) in
  (b = false <-> link d (w_log w) = false \/
     exists admit, d_queue (w_dev w d) = Some admit /\ admit (d_q (w_dev w d)) f = false) /\
  w_now w' = w_now w /\ w_chan w' = w_chan w /\ (forall d', d' <> d -> w_dev w' d' = w_dev w d') /\
  (b = false -> w_dev w' = w_dev w /\ w_events w' = w_events w /\
     w_log w' = w_log w ++ if link d (w_log w)
       then [(w_now w, MacTx d f); (w_now w, Sent d p a q (addr_of w d) false); (w_now w, MacTxDrop d f)]
       else [(w_now w, Sent d p a q (addr_of w d) false); (w_now w, MacTxDrop d p)]) /\
  (b = true -> d_busy (w_dev w' d) = true /\
     if d_busy (w_dev w d)
     then d_cur (w_dev w' d) = d_cur (w_dev w d) /\ d_q (w_dev w' d) = d_q (w_dev w d) ++ [f] /\ w_events w' = w_events w
     else d_cur (w_dev w' d) = Some f /\ d_q (w_dev w' d) = []).
Proof.
  intros N crc fcs tx_time has_mob w d p a q b w' R H f.
  destruct (reachable_transmitter crc fcs tx_time has_mob d w R) as [(_ & U & _) _]. rewrite <- U.
  destruct b.
  - apply Send_true in H; [|assumption]. destruct H as ((admit & H1 & H2 & H3) & HN & HC & HD & HB & HR).
    split.
    { split; [discriminate|]. intros [Hx|(admit' & Hx & Hy)]; [congruence|]. rewrite H2 in Hx. injection Hx as <-.
      fold f in H3. congruence. }
    repeat split; try assumption; try discriminate.
  - apply Send_false in H. destruct H as (HN & HD & HC & HE & H).
    split.
    { split; [intros _|reflexivity]. destruct H as [[H _]|(admit & _ & H1 & H2 & _)]; [left; assumption|right; eauto]. }
    repeat split; try assumption; try discriminate; try (intros; rewrite HD; reflexivity).
    destruct H as [[H L]|(admit & HU & H1 & H2 & L)].
    + rewrite H. exact L.
    + rewrite HU. exact L.
Qed.
Print Assumptions C37_send_result.

(** The remaining outcomes: a destination that is no Mac48Address is fatal if and
    only if the link is up; a device without queue is undefined behaviour. *)
Theorem C37_other_destination : forall (N : Num) crc fcs tx_time has_mob (w : world N) d p q,
  Send crc fcs tx_time has_mob w d p OtherAddress q =
  if d_up (w_dev w d) then Abort BadAddress
  else Ok (false, mkWorld (w_now w) (w_dev w) (w_chan w) (w_events w) (w_log w ++ [(w_now w, MacTxDrop d p)])).
Proof. reflexivity. Qed.
Print Assumptions C37_other_destination.
Theorem C37_no_queue : forall (N : Num) crc fcs tx_time has_mob (w : world N) d p a q,
  d_up (w_dev w d) = true -> d_queue (w_dev w d) = None ->
  Send crc fcs tx_time has_mob w d p (Mac a) q = UB NullDeref.
Proof. intros N crc fcs tx_time has_mob w d p a q U Q. unfold Send. rewrite U, Q. reflexivity. Qed.
Print Assumptions C37_no_queue.

Example ex_C37 : holds (fun w =>
    holds (fun x => fst x = false) (Send ex_crc true ex_tx ex_mob w 0 (packet 11) (Mac 2) 2048) /\
    holds (fun x => fst x = true) (Send ex_crc true ex_tx ex_mob w 1 (packet 11) (Mac 2) 2048) /\
    holds (fun x => fst x = false) (Send ex_crc true ex_tx ex_mob w 3 (packet 11) (Mac 2) 2048)) (after true ex_busy).
Proof. vm_compute. auto. Qed.

(** ** C38 *)
Theorem C38_destination_of_period : forall (N : Num) crc fcs tx_time has_mob (w : world N),
  reachable crc fcs tx_time has_mob w -> forall l1 t d c p dest tx gap l2,
  w_log w = l1 ++ (t, ToChannel d c p dest tx gap) :: l2 -> opened d dest l1.
Proof.
  intros N crc fcs tx_time has_mob w R l1 t d c p dest tx gap l2 E.
  destruct (reachable_destinations crc fcs tx_time has_mob d w R) as [A _]. eapply A. exact E.
Qed.
Print Assumptions C38_destination_of_period.

(** With one destination only this is that destination. *)
Theorem C38_single_destination : forall (N : Num) crc fcs tx_time has_mob (w : world N),
  reachable crc fcs tx_time has_mob w -> forall l1 t d c p dest tx gap l2 a,
  w_log w = l1 ++ (t, ToChannel d c p dest tx gap) :: l2 ->
  (forall t' p' a' q own, In (t', Sent d p' a' q own true) l1 -> a' = a) -> dest = a.
Proof.
  intros N crc fcs tx_time has_mob w R l1 t d c p dest tx gap l2 a E H.
  destruct (reachable_destinations crc fcs tx_time has_mob d w R) as [A _].
  destruct (A _ _ _ _ _ _ _ _ E) as (m1 & m2 & t' & p' & q & own & -> & _). eapply H.
  apply in_or_app. right. left. reflexivity.
Qed.
Print Assumptions C38_single_destination.

(** A packet for satellite 2 (address 3) is given to the channel once, for address
    2, and scheduled for reception at satellite 1 only. *)
Theorem C38_own_destination_refuted : forall (N : Num) crc, exists tx_time has_mob (w : world N) p f,
  reachable crc false tx_time has_mob w /\
  In (0, Sent 0 p 3 2048 1 true) (w_log w) /\ f = frame_of crc false p 3 2048 1 /\
  addr_of w 2 = 3 /\ In 2%nat (c_link (w_chan w 0%nat)) /\
  In f (begun 0 (w_log w)) /\ ~ In f (d_q (w_dev w 0%nat)) /\
  (exists t tx gap, In (t, ToChannel 0 0 f 2 tx gap) (w_log w)) /\
  (exists t tx delay, In (t, TxRx 0 f 0 1 tx delay) (w_log w)) /\
  (forall t c src tx delay, ~ In (t, TxRx c f src 2 tx delay) (w_log w)).
Proof.
  intros N crc. exists ex_tx, ex_mob.
  assert (H : holds (fun w : world N => exists p f, In (0, Sent 0 p 3 2048 1 true) (w_log w) /\ f = frame_of crc false p 3 2048 1 /\
    addr_of w 2 = 3 /\ In 2%nat (c_link (w_chan w 0%nat)) /\
    In f (begun 0 (w_log w)) /\ ~ In f (d_q (w_dev w 0%nat)) /\
    (exists t tx gap, In (t, ToChannel 0 0 f 2 tx gap) (w_log w)) /\
    (exists t tx delay, In (t, TxRx 0 f 0 1 tx delay) (w_log w)) /\
    forallb (fun x => match snd x with TxRx _ _ _ 2%nat _ _ => false | _ => true end) (w_log w) = true)
    (run crc false ex_tx ex_mob (initial (fun _ => true) ex_kinds)
       (isl3 0 ++ [OSend 0 (packet 7) (Mac 2) 2048; OSend 0 (packet 8) (Mac 3) 2048; ORun]))).
  { unfold holds. vm_compute run. cbv beta iota. eexists (packet 8), _.
    split; [|split; [reflexivity|]]; [vm_compute; auto 40|].
    split; [reflexivity|]. split; [vm_compute; auto|]. split; [vm_compute; auto|]. split; [vm_compute; auto|].
    split; [eexists _, _, _; vm_compute; do 19 (try (left; reflexivity); right); auto|].
    split; [|reflexivity]. eexists _, _, _; vm_compute; do 19 (try (left; reflexivity); right); auto. }
  apply holds_ok in H as (w & E & p & f & H1 & H2 & H3 & H4 & H5 & H6 & H7 & H8 & H9).
  exists w, p, f. split; [eexists _, _, _; exact E|]. do 7 (split; [assumption|]).
  split; [assumption|]. intros t c src tx delay Hi. rewrite forallb_forall in H9. specialize (H9 _ Hi). discriminate.
Qed.
Print Assumptions C38_own_destination_refuted.

Example ex_C38 : holds (fun w => exists l1 l2 p tx gap,
    w_log w = l1 ++ (64000000, ToChannel 0 0 p 2 tx gap) :: l2 /\ p_uid p = 8) (after true (ex_busy ++ [ORun])).
Proof.
  apply holds_imp with (P := fun w => exists x, nth_error (w_log w) 24 = Some x /\
     exists p tx gap, x = (64000000, ToChannel 0 0 p 2 tx gap) /\ p_uid p = 8);
    [vm_compute; repeat eexists|].
  intros w (x & L & p & tx & gap & -> & U). apply nth_error_split in L as (l1 & l2 & L & _).
  exists l1, l2, p, tx, gap. auto.
Qed.

(** ** C39 *)
Theorem C39_receive_table : forall (N : Num) crc fcs (w : world N) d p src power w',
  Receive crc fcs w d p src power = Ok w' ->
  let g := d_cfg (w_dev w d) in
  exists new, w' = mkWorld (w_now w) (w_dev w) (w_chan w) (w_events w) (w_log w ++ map (pair (w_now w)) new) /\
  ((src = d /\ new = [MacRxDrop d p]) \/
   (src <> d /\ phy_drop crc fcs g (w_now w) p power /\
    exists p', p_uid p' = p_uid p /\ new = [PhyRxEnd d p src; PhyRxDrop d p']) \/
   (src <> d /\ ~ phy_drop crc fcs g (w_now w) p power /\
    exists payload proto t, kind_of (g_addr g) (frame_dst (p_bytes p)) t /\
    new = [PhyRxEnd d p src; PromiscSniffer d p] ++
          (if g_pcb g then [MacPromiscRx d p; PromiscCallback d src payload proto (frame_src (p_bytes p)) (frame_dst (p_bytes p)) t] else []) ++
          match t with
          | POtherHost => []
          | _ => [MacRx d p; RxCallback d src payload proto (frame_src (p_bytes p)) (frame_dst (p_bytes p)) (g_addr g)]
          end)).
Proof. intros. eapply Receive_table. eassumption. Qed.
Print Assumptions C39_receive_table.

(** Frames made by AddHeader never crash a receiver with a receive callback. *)
Theorem C39_receive_total : forall (N : Num) crc fcs (w : world N) d uid from to proto payload src power,
  0 <= from < 2 ^ 48 -> 0 <= to < 2 ^ 48 -> 0 <= proto < 2 ^ 16 -> Z.of_nat (length payload) <= 65527 ->
  g_rxcb (d_cfg (w_dev w d)) = true ->
  is_ok (Receive crc fcs w d (mkPkt uid (AddHeader crc fcs from to proto payload)) src power) = true.
Proof. intros. apply Receive_total; assumption. Qed.
Print Assumptions C39_receive_total.

Example ex_C39 : let f := AddHeader ex_crc true 2 3 2048 [1; 2] in
  holds (fun w : world NumZ => let brief_of (x : res (world NumZ)) := match x with Ok w' => map snd (map brief (skipn (length (w_log w)) (w_log w'))) | _ => [] end in
    brief_of (Receive ex_crc true w 2 (mkPkt 5 f) 1 1) = [[10; 2; 5; 1]; [7; 2; 5]; [13; 2; 5]; [15; 2; 1; 2048; 2; 3; 3]] /\
    brief_of (Receive ex_crc true w 0 (mkPkt 5 f) 1 1) = [[10; 0; 5; 1]; [7; 0; 5]] /\
    brief_of (Receive ex_crc true w 1 (mkPkt 5 f) 1 1) = [[12; 1; 5]] /\
    brief_of (Receive ex_crc true w 2 (mkPkt 5 (f ++ [0])) 1 1) = [[10; 2; 5; 1]; [11; 2; 5]] /\
    brief_of (Receive ex_crc true w 2 (mkPkt 5 f) 1 (-2000)) = [[10; 2; 5; 1]; [11; 2; 5]] /\
    brief_of (Receive ex_crc true (Configure w 2 CPromiscCallback) 2 (mkPkt 5 f) 1 1) =
      [[10; 2; 5; 1]; [7; 2; 5]; [14; 2; 5]; [16; 2; 1; 2048; 2; 3]; [13; 2; 5]; [15; 2; 1; 2048; 2; 3; 3]]) (after true (isl3 0)).
Proof. vm_compute. repeat split. Qed.

(** ** C40 *)
Theorem C40_trace_sources : forall (N : Num) crc fcs tx_time has_mob (w : world N),
  reachable crc fcs tx_time has_mob w -> forall d,
  alternating (tx_marks d (w_log w)) /\
  mac_tx d (w_log w) = sent_up crc fcs d false (w_log w) /\
  sniffed d (w_log w) = begun d (w_log w).
Proof.
  intros N crc fcs tx_time has_mob w R d.
  destruct (reachable_records crc fcs tx_time has_mob d w R) as ((M & CM & EM) & _ & _ & S & X).
  split; [|split; assumption]. rewrite EM.
  destruct (d_busy (w_dev w d)); [destruct (d_cur (w_dev w d)); [apply closed_open; assumption|]|];
    rewrite app_nil_r; apply closed_alt; assumption.
Qed.
Print Assumptions C40_trace_sources.

(** Receiving never fires the sniffer, although it is documented to see received packets. *)
Theorem C40_no_sniffer_on_reception : forall (N : Num) crc fcs (w : world N) d p src power w',
  Receive crc fcs w d p src power = Ok w' -> forall d', sniffed d' (w_log w') = sniffed d' (w_log w).
Proof.
  intros N crc fcs w d p src power w' H d'. apply Receive_table in H as (new & -> & H). cbn [w_log].
  unfold sniffed. rewrite flat_map_app.
  replace (flat_map _ (map (pair (w_now w)) new)) with (@nil pkt); [apply app_nil_r|].
  symmetry. destruct H as [(_ & ->)|[(_ & _ & p' & _ & ->)|(_ & _ & payload & proto & t & _ & ->)]]; try reflexivity.
  destruct (g_pcb _), t; reflexivity.
Qed.
Print Assumptions C40_no_sniffer_on_reception.

(** PhyTxDrop means that the channel took nothing: it comes exactly after those
    transmissions that no reception follows, except broadcasts between satellites. *)
Theorem C40_tx_drop : forall (N : Num) crc fcs tx_time has_mob (w : world N), reachable crc fcs tx_time has_mob w ->
  (forall l1 t d p l2, w_log w = l1 ++ (t, PhyTxDrop d p) :: l2 ->
     exists l0 c dest tx gap, l1 = l0 ++ [(t, ToChannel d c p dest tx gap)]) /\
  (forall l1 t d c p dest tx gap l2, w_log w = l1 ++ (t, ToChannel d c p dest tx gap) :: l2 ->
     (exists l3, l2 = (t, PhyTxDrop d p) :: l3) \/ (exists dst delay l3, l2 = (t, TxRx c p d dst tx delay) :: l3) \/
     (c_kind (w_chan w c) = IslChannel /\ dest = 2 ^ 48 - 1)).
Proof.
  intros N crc fcs tx_time has_mob w R. pose proof (reachable_marked crc fcs tx_time has_mob w R) as M. split.
  - intros. eapply marked_drop; eassumption.
  - intros. eapply marked_next in M as [_ M]; eassumption.
Qed.
Print Assumptions C40_tx_drop.

(** A packet for nobody and a broadcast that nobody hears. *)
Example ex_C40_drop : holds (fun w => map brief (filter (fun x => match snd x with ToChannel _ _ _ _ _ _ | TxRx _ _ _ _ _ _ | PhyTxDrop _ _ => true | _ => false end) (w_log w)) =
    [(0, [8; 0; 0; 7; 2; 64000000; 0]); (0, [9; 0; 7; 0; 1; 64000000; 64000000]);
     (64000000, [8; 0; 0; 8; 9; 64000000; 0]); (64000000, [5; 0; 8]); (128000000, [8; 0; 0; 9; 281474976710655; 64000000; 0])])
  (after true (isl3 0 ++ [OSend 0 (packet 7) (Mac 2) 2048; ORun; ORun; OSend 0 (packet 8) (Mac 9) 2048; ORun;
     OSet 1 (CNode 11); OSet 2 (CNode 12); OSet 0 (CNode 10); OSetLoss 0 (Some (fun (_ : num NumZ) _ _ _ => (-1000 : num NumZ)));
     OSend 0 (packet 9) (Mac 281474976710655) 2048])).
Proof. vm_compute. reflexivity. Qed.

Example ex_C40 : holds (fun w => map fst (tx_marks 0 (w_log w)) = [true; false; true; false; true] /\
    map p_uid (mac_tx 0 (w_log w)) = [7; 8; 9; 10] /\ map p_uid (sniffed 0 (w_log w)) = [7; 8; 9] /\
    length (filter (fun x => match snd x with RxCallback 1 _ _ _ _ _ _ => true | _ => false end) (w_log w)) = 1%nat /\
    sniffed 1 (w_log w) = []) (after true (ex_busy ++ repeat ORun 4)).
Proof. vm_compute. auto 10. Qed.
