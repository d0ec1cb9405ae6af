(** C41-C52: channels, and executions of devices and channels together. The
    parameters are as in PropTx.v. *)
Require Import ZArith List Bool Lia Permutation Sorted.
Require Import Verif.Base Verif.Num Verif.FrameModel Verif.NetModel Verif.NetSpec Verif.NetSteps Verif.NetInv
  Verif.NetTxProofs Verif.NetSendProofs Verif.NetChanProofs Verif.NetProvProofs Verif.NetSideProofs Verif.NetOrderProofs Verif.NetExamples.
Import ListNotations.
Local Open Scope Z_scope.

(** A LEO channel with delay 17 on which node 13 hears nobody. *)
Definition ex_leo : list (op NumZ) := leo4 10 ++
  [OSetDelay 1 (Some (fun _ _ _ => 17));
   OSetLoss 1 (Some (fun (p : num NumZ) _ b _ => (if Nat.eqb b 13 then -1000 else p - 3) : num NumZ))].
Definition summary (x : res (world NumZ)) : list (Z * list Z) :=
  match x with
  | Ok w => map brief (filter (fun x => match snd x with TxRx _ _ _ _ _ _ | RxCallback _ _ _ _ _ _ _ | PhyTxDrop _ _ => true | _ => false end) (w_log w))
  | _ => []
  end.

(** ** C41 *)
Theorem C41_opposite_sides : forall (N : Num) crc fcs tx_time has_mob dk ck ops (w : world N) o w' c,
  steady crc fcs tx_time has_mob (fun _ => True) (initial dk ck) ops ->
  run crc fcs tx_time has_mob (initial dk ck) ops = Ok w ->
  step crc fcs tx_time has_mob w o = Ok w' -> c_kind (w_chan w c) = LeoChannel -> distinct_addresses w c ->
  exists new, w_log w' = w_log w ++ new /\ forall t p src dst tx delay, In (t, TxRx c p src dst tx delay) new ->
    In src (c_link (w_chan w c)) /\ In dst (c_link (w_chan w c)) /\
    ((g_kind (d_cfg (w_dev w src)) = Gnd /\ g_kind (d_cfg (w_dev w dst)) = Sat) \/
     (g_kind (d_cfg (w_dev w src)) = Sat /\ g_kind (d_cfg (w_dev w dst)) = Gnd)).
Proof. intros. eapply (opposite_sides crc fcs tx_time has_mob); eassumption. Qed.
Print Assumptions C41_opposite_sides.

Theorem C41_receivers : forall (N : Num) crc fcs tx_time has_mob dk ck ops (w : world N) c p i src dest tx b w',
  steady crc fcs tx_time has_mob (fun _ => True) (initial dk ck) ops ->
  run crc fcs tx_time has_mob (initial dk ck) ops = Ok w ->
  c_kind (w_chan w c) = LeoChannel -> distinct_addresses w c -> nth_error (c_link (w_chan w c)) i = Some src ->
  In (addr_of w src, src) (c_gnd (w_chan w c)) \/ In (addr_of w src, src) (c_sat (w_chan w c)) ->
  LeoTransmitStart has_mob w c p i dest tx = Ok (b, w') ->
  exists side, side = match g_kind (d_cfg (w_dev w src)) with Gnd => c_sat (w_chan w c) | _ => c_gnd (w_chan w c) end /\
    StronglySorted (fun x y => fst x < fst y) side /\
    (forall a x, In (a, x) side -> a = addr_of w x) /\
    receptions has_mob w c src p tx (filter (hears has_mob w c src) (map snd side)) w'.
Proof.
  intros N crc fcs tx_time has_mob dk ck ops w c p i src dest tx b w' S R K D HI HX H.
  pose proof (steady_sides crc fcs tx_time has_mob _ _ _ _ _ S R) as HS.
  assert (HO : ordered w) by (eapply (reachable_ordered crc fcs tx_time has_mob); eexists _, _, _; exact R).
  eexists. split; [reflexivity|]. split; [destruct (g_kind _); apply HO|]. split.
  - intros a x Hx. destruct (HS c K) as [HG HT]. destruct (g_kind _); [apply HG in Hx|apply HT in Hx|apply HG in Hx]; symmetry; apply Hx; exact I.
  - eapply leo_reaches; eassumption.
Qed.
Print Assumptions C41_receivers.

(** Without the condition on address changes, ground stations can be reached from ground. *)
Theorem C41_address_change_refuted : forall (N : Num) crc, exists tx_time has_mob (w : world N) t c p src dst tx delay,
  reachable crc false tx_time has_mob w /\ In (t, TxRx c p src dst tx delay) (w_log w) /\
  c_kind (w_chan w c) = LeoChannel /\ src <> dst /\
  g_kind (d_cfg (w_dev w src)) = Gnd /\ g_kind (d_cfg (w_dev w dst)) = Gnd.
Proof.
  intros N crc. exists ex_tx, ex_mob.
  assert (H : holds (fun w : world N => (exists p tx delay, In (0, TxRx 1 p 2 0 tx delay) (w_log w)) /\
    c_kind (w_chan w 1%nat) = LeoChannel /\ g_kind (d_cfg (w_dev w 2%nat)) = Gnd /\ g_kind (d_cfg (w_dev w 0%nat)) = Gnd)
    (run crc false ex_tx ex_mob (initial (fun _ => true) ex_kinds)
       (leo4 0 ++ [OSet 2 (CAddress 2); OSend 2 (packet 7) (Mac 1) 2048]))).
  { unfold holds. vm_compute run. cbv beta iota. split; [|repeat split].
    eexists _, _, _. vm_compute. do 14 (try (left; reflexivity); right). auto. }
  apply holds_ok in H as (w & E & (p & tx & delay & H1) & H2 & H3 & H4).
  exists w, 0, 1%nat, p, 2%nat, 0%nat, tx, delay. split; [eexists _, _, _; exact E|]. repeat split; try assumption. discriminate.
Qed.
Print Assumptions C41_address_change_refuted.

(** A plain device cannot be attached to a LEO channel, and is never on one. *)
Theorem C41_members : forall (N : Num) crc fcs tx_time has_mob (w : world N) c d,
  (c_kind (w_chan w c) = LeoChannel -> g_kind (d_cfg (w_dev w d)) = Plain -> Attach w d c = UB BadCast) /\
  (reachable crc fcs tx_time has_mob w -> c_kind (w_chan w c) = LeoChannel -> In d (c_link (w_chan w c)) ->
   g_kind (d_cfg (w_dev w d)) = Gnd \/ g_kind (d_cfg (w_dev w d)) = Sat).
Proof.
  intros N crc fcs tx_time has_mob w c d. split.
  - intros K G. unfold Attach, ChannelAttach. rewrite K, G. reflexivity.
  - intros R K HI. pose proof (reachable_members crc fcs tx_time has_mob w R c d K HI). destruct (g_kind _); [contradiction|auto|auto].
Qed.
Print Assumptions C41_members.

Example ex_C41 : summary (after true (ex_leo ++ [OSend 1 (packet 7) (Mac 4) 2048; OSend 0 (packet 8) (Mac 3) 2048])) =
  [(0, [9; 1; 7; 1; 0; 64000000; 17]); (0, [9; 1; 7; 1; 2; 64000000; 17]); (0, [9; 1; 8; 0; 1; 64000000; 17])].
Proof. vm_compute. reflexivity. Qed.
Example ex_C41_steady : steady ex_crc true ex_tx ex_mob (fun _ => True) start ex_leo /\
  holds (fun w => distinct_addresses w 1 /\ In (addr_of w 1, 1%nat) (c_sat (w_chan w 1%nat))) (after true ex_leo).
Proof.
  split.
  - apply (set_before_steady ex_crc true ex_tx ex_mob _ _ []); [apply initial_indexed|intros c d []|reflexivity].
  - apply (holds_imp _ (fun w => c_link (w_chan w 1%nat) = [0; 1; 2; 3]%nat /\ map (addr_of w) [0; 1; 2; 3]%nat = [1; 2; 3; 4] /\
      c_sat (w_chan w 1%nat) = [(2, 1%nat); (4, 3%nat)])); [vm_compute; auto|].
    intros w (L & A & S). injection A as A0 A1 A2 A3.
    split; [|rewrite S, A1; left; reflexivity]. intros x y. rewrite L. cbn.
    intuition (subst; try reflexivity; congruence).
Qed.

(** ** C42 *)
Theorem C42_leo_result : forall (N : Num) has_mob (w : world N) c p i dest tx b w',
  LeoTransmitStart has_mob w c p i dest tx = Ok (b, w') ->
  (b = true <-> exists t src dst delay, w_log w' <> w_log w /\ In (t, TxRx c p src dst tx delay) (skipn (length (w_log w)) (w_log w'))) /\
  (b = false -> w_log w' = w_log w /\ w_events w' = w_events w).
Proof.
  intros N has_mob w c p i dest tx b w' H. apply leo_transmit in H. cbv zeta in H.
  assert (SK : forall (l r : trace), skipn (length l) (l ++ r) = r).
  { intros l r. rewrite skipn_app, Nat.sub_diag, skipn_all. reflexivity. }
  assert (NE : forall (l : trace) x r, l ++ x :: r <> l).
  { intros l x r E. apply (f_equal (@length _)) in E. rewrite app_length in E. cbn in E. lia. }
  destruct (nth_error _ i) as [src|].
  - destruct H as (dsts & Hb & (_ & _ & _ & HL & HE) & _). destruct dsts as [|dst r]; cbn [negb] in Hb; subst b.
    + cbn in HL, HE. rewrite app_nil_r in HL. split; [|auto]. split; [discriminate|].
      intros (t & s & d & y & Hx & _). contradiction.
    + split; [|discriminate]. split; [intros _|reflexivity]. exists (w_now w), src, dst, (delay_to has_mob w c src dst tx).
      rewrite HL, SK. split; [apply NE|]. left. reflexivity.
  - destruct H as [-> ->]. split; [|auto]. split; [discriminate|]. intros (t & s & d & y & Hx & _). contradiction.
Qed.
Print Assumptions C42_leo_result.

Example ex_C42 : holds (fun w =>
    holds (fun x => fst x = true) (LeoTransmitStart ex_mob w 1 (packet 1) 0 9 5) /\
    holds (fun x => fst x = false) (LeoTransmitStart ex_mob (Configure w 0 (CAddress 77)) 1 (packet 1) 0 9 5)) (after true ex_leo).
Proof. vm_compute. auto. Qed.

(** ** C43-C45 *)
Theorem C43_isl_unicast : forall (N : Num) has_mob (w : world N) c p i src k dst tx b w',
  let link := c_link (w_chan w c) in
  nth_error link i = Some src -> nth_error link k = Some dst ->
  (forall j x, (j < k)%nat -> nth_error link j = Some x -> addr_of w x <> addr_of w dst) ->
  IslTransmitStart has_mob w c p i (addr_of w dst) tx = Ok (b, w') ->
  b = hears has_mob w c src dst /\ receptions has_mob w c src p tx (if b then [dst] else []) w'.
Proof.
  intros N has_mob w c p i src k dst tx b w' link HS HD HF H. apply isl_transmit in H. cbv zeta in H.
  change (c_link (w_chan w c)) with link in H. rewrite HS in H.
  assert (HI : In dst link) by (eapply nth_error_In; eassumption).
  destruct H as [(k' & dst' & K & A & F & H)|[(H & _)|(H & _)]]; [|destruct (H dst HI eq_refl)|destruct (H dst HI eq_refl)].
  assert (k' = k) as ->.
  { destruct (Nat.lt_trichotomy k k') as [L|[L|L]]; [|symmetry; exact L|].
    - destruct (F k dst L HD eq_refl).
    - destruct (HF k' dst' L K A). }
  rewrite HD in K. injection K as <-. exact H.
Qed.
Print Assumptions C43_isl_unicast.

Example ex_C43 : summary (after true (isl3 10 ++ [OSend 2 (packet 7) (Mac 2) 2048; ORun; ORun])) =
  [(0, [9; 0; 7; 2; 1; 64000000; 0]); (0, [15; 1; 2; 2048; 3; 2; 2])].
Proof. vm_compute. reflexivity. Qed.

Theorem C44_isl_broadcast : forall (N : Num) has_mob (w : world N) c p i src tx b w',
  let link := c_link (w_chan w c) in
  nth_error link i = Some src -> (forall x, In x link -> addr_of w x <> 2 ^ 48 - 1) ->
  IslTransmitStart has_mob w c p i (2 ^ 48 - 1) tx = Ok (b, w') ->
  b = true /\ receptions has_mob w c src p tx (filter (hears has_mob w c src) (firstn i link ++ skipn (S i) link)) w'.
Proof.
  intros N has_mob w c p i src tx b w' link HS HF H. apply isl_transmit in H. cbv zeta in H.
  change (c_link (w_chan w c)) with link in H. rewrite HS in H.
  destruct H as [(k' & dst' & K & A & _)|[(_ & _ & H)|(_ & H & _)]]; [|exact H|contradiction].
  apply nth_error_In in K. destruct (HF _ K A).
Qed.
Print Assumptions C44_isl_broadcast.

Example ex_C44 : summary (after true (isl3 10 ++ [OSend 1 (packet 7) (Mac broadcast) 2048; ORun; ORun])) =
  [(0, [9; 0; 7; 1; 0; 64000000; 0]); (0, [9; 0; 7; 1; 2; 64000000; 0]);
   (0, [15; 0; 1; 2048; 2; broadcast; 1]); (0, [15; 2; 1; 2048; 2; broadcast; 3])] /\
  holds (fun w => holds (fun x => fst x = true) (IslTransmitStart ex_mob w 0 (packet 1) 0 broadcast 5)) (after true (setup 0 0 0)).
Proof. vm_compute. auto. Qed.

Theorem C45_isl_unknown : forall (N : Num) has_mob (w : world N) c p i dest tx,
  (forall x, In x (c_link (w_chan w c)) -> addr_of w x <> dest) -> dest <> 2 ^ 48 - 1 ->
  IslTransmitStart has_mob w c p i dest tx = Ok (false, w).
Proof.
  intros N has_mob w c p i dest tx HF HB. unfold IslTransmitStart. destruct (nth_error _ i); [|reflexivity].
  destruct (GetDevice w c dest) as [dst|] eqn:G.
  - unfold GetDevice in G. apply find_some in G as [G1 G2]. apply HF in G1. lia.
  - destruct (Z.eqb_spec dest broadcast); [|reflexivity]. destruct HB. subst. reflexivity.
Qed.
Print Assumptions C45_isl_unknown.

(** MockNetDevice reports support for multicast (IsMulticast, mock-net-device.cc). *)
Example ex_C45 : is_group 1101088686343 = true /\
  summary (after true (isl3 10 ++ [OSend 1 (packet 7) (Mac 1101088686343) 2048; ORun; ORun])) = [(0, [5; 1; 7])].
Proof. vm_compute. auto. Qed.

(** ** C46 *)
Theorem C46_reception_delay : forall (N : Num) has_mob (w : world N) c p src dst tx w',
  Deliver has_mob w c p src dst tx = Ok (true, w') ->
  exists a b, node_of w src = Some a /\ node_of w dst = Some b /\
  let delay := if has_mob a && has_mob b
               then match c_delay (w_chan w c) with Some f => f a b (w_now w) | None => 0 end
               else tx in
  let power := if has_mob a && has_mob b
               then match c_loss (w_chan w c) with
                    | Some f => f (g_txp (d_cfg (w_dev w src))) a b (w_now w) | None => g_txp (d_cfg (w_dev w src)) end
               else g_txp (d_cfg (w_dev w src)) in
  w_log w' = w_log w ++ [(w_now w, TxRx c p src dst tx delay)] /\
  w_events w' = insert_event (w_now w + delay, RxEvent dst p src power) (w_events w).
Proof.
  intros N has_mob w c p src dst tx w' H.
  apply Deliver_spec in H as (a & b & Ha & Hb & [(H & _)|(_ & _ & _ & ->)]); [discriminate|].
  exists a, b. split; [assumption|]. split; [assumption|]. split; reflexivity.
Qed.
Print Assumptions C46_reception_delay.

(** Along executions receptions take place exactly when they were scheduled for. *)
Theorem C46_receptions_conserved : forall (N : Num) crc fcs tx_time has_mob (w : world N),
  reachable crc fcs tx_time has_mob w ->
  Permutation (scheduled (w_log w)) (performed (w_log w) ++ waiting (w_events w)) /\
  (forall t p src dst, In (t, p, src, dst) (waiting (w_events w)) -> w_now w <= t).
Proof.
  intros N crc fcs tx_time has_mob w R. split; [eapply (reachable_conserved crc fcs tx_time has_mob); exact R|].
  destruct (reachable_transmitter crc fcs tx_time has_mob 0 w R) as [_ [_ T]].
  intros t p src dst H. unfold waiting in H. apply in_flat_map in H as ([t' e] & H1 & H2).
  destruct e; cbn in H2; [destruct H2|]. destruct H2 as [H2|[]]. injection H2 as <- _ _ _.
  rewrite Forall_forall in T. apply (T _ H1).
Qed.
Print Assumptions C46_receptions_conserved.

(** They take place in the order of their times; those of one time in the order in
    which they were scheduled. *)
Theorem C46_order : forall (N : Num) crc fcs tx_time has_mob (w : world N), reachable crc fcs tx_time has_mob w ->
  let time (x : Z * pkt * nat * nat) := fst (fst (fst x)) in
  let all := performed (w_log w) ++ waiting (w_events w) in
  StronglySorted (fun x y => time x <= time y) all /\
  forall t, filter (fun x => time x =? t) all = filter (fun x => time x =? t) (scheduled (w_log w)).
Proof. intros N crc fcs tx_time has_mob w R. exact (receptions_in_order crc fcs tx_time has_mob w R). Qed.
Print Assumptions C46_order.

Example ex_C46 : holds (fun w => scheduled (w_log w) <> [] /\ performed (w_log w) = scheduled (w_log w) /\ w_events w <> [])
  (after true (ex_leo ++ [OSend 0 (packet 7) (Mac 4) 2048; ORun])).
Proof. vm_compute. repeat split; discriminate. Qed.

(** ** C47 *)
Theorem C47_cut_off : forall (N : Num) has_mob (w : world N) c p src dst tx r w',
  Deliver has_mob w c p src dst tx = Ok (r, w') ->
  (r = false <-> exists a b f, node_of w src = Some a /\ node_of w dst = Some b /\ has_mob a = true /\ has_mob b = true /\
                   c_loss (w_chan w c) = Some f /\
                   nlt N (f (g_txp (d_cfg (w_dev w src))) a b (w_now w)) (nZ N (-900)) = true) /\
  (r = false -> w' = w).
Proof.
  intros N has_mob w c p src dst tx r w' H.
  apply Deliver_spec in H as (a & b & Ha & Hb & [(-> & -> & C)|(-> & C & _ & ->)]); (split; [|try reflexivity; try discriminate]).
  - split; [intros _|reflexivity]. unfold cut_off in C. destruct (c_loss (w_chan w c)) as [f|]; [|discriminate].
    apply andb_true_iff in C as [C1 C2]. apply andb_true_iff in C1 as [C0 C1]. exists a, b, f. auto 10.
  - split; [discriminate|]. intros (a' & b' & f & H1 & H2 & H3 & H4 & H5 & H6). rewrite Ha in H1. rewrite Hb in H2.
    injection H1 as <-. injection H2 as <-. unfold cut_off in C. rewrite H5, H3, H4 in C. cbn in C. congruence.
Qed.
Print Assumptions C47_cut_off.

Example ex_C47 : holds (fun w =>
    holds (fun x => fst x = false) (Deliver ex_mob w 1 (packet 1) 0 3 5) /\
    holds (fun x => fst x = true) (Deliver ex_mob w 1 (packet 1) 0 1 5)) (after true ex_leo).
Proof. vm_compute. auto. Qed.

(** ** C48 *)
Theorem C48_stable_indices : forall (N : Num) crc fcs tx_time has_mob (w : world N) c ops w',
  reachable crc fcs tx_time has_mob w -> run crc fcs tx_time has_mob w ops = Ok w' ->
  (forall i d, nth_error (c_link (w_chan w c)) i = Some d -> nth_error (c_link (w_chan w' c)) i = Some d) /\
  (length (c_link (w_chan w c)) <= length (c_link (w_chan w' c)))%nat.
Proof.
  intros N crc fcs tx_time has_mob w c ops w' R H.
  destruct (run_links crc fcs tx_time has_mob w ops w' c R H) as (ext & ->). split.
  - intros i d Hi. rewrite nth_error_app1; [assumption|]. apply nth_error_Some. congruence.
  - rewrite app_length. lia.
Qed.
Print Assumptions C48_stable_indices.
Theorem C48_attach_index : forall (N : Num) (w : world N) d c w', Attach w d c = Ok w' ->
  d_chan (w_dev w' d) = Some c /\ d_id (w_dev w' d) = length (c_link (w_chan w c)) /\
  c_link (w_chan w' c) = c_link (w_chan w c) ++ [d] /\ d_up (w_dev w' d) = true.
Proof.
  intros N w d c w' H. apply Attach_spec in H as (g & s & _ & _ & _ & _ & _ & _ & _ & _ & _ & HD & _ & HC).
  rewrite HD, HC. repeat split.
Qed.
Print Assumptions C48_attach_index.

Example ex_C48 : holds (fun w => c_link (w_chan w 0%nat) = [0; 1; 2; 1]%nat /\ d_id (w_dev w 1%nat) = 3%nat)
  (after true (isl3 10 ++ [ODetach 0 1; OAttach 1 0])).
Proof. vm_compute. auto. Qed.

(** ** C49 *)
Theorem C49_isl_detach : forall (N : Num) (w : world N) c i, c_kind (w_chan w c) = IslChannel ->
  exists b w', ChannelDetach w c i = Ok (b, w') /\ w_now w' = w_now w /\ w_chan w' = w_chan w /\ w_events w' = w_events w /\
  (b = true <-> exists d, nth_error (c_link (w_chan w c)) i = Some d /\ d_up (w_dev w d) = true) /\
  (if b then exists d, nth_error (c_link (w_chan w c)) i = Some d /\ d_up (w_dev w' d) = false /\
               w_log w' = w_log w ++ [(w_now w, LinkChange d false)] /\
               (forall d', d' <> d -> w_dev w' d' = w_dev w d') /\
               (let x := w_dev w d in w_dev w' d = mkDev (d_cfg x) (d_queue x) (d_q x) (d_busy x) (d_cur x) (d_chan x) (d_id x) false)
   else w' = w).
Proof. intros. apply isl_detach. assumption. Qed.
Print Assumptions C49_isl_detach.

Theorem C49_isl_still_receives : forall (N : Num) has_mob (w : world N) c i d w' p j src tx,
  c_kind (w_chan w c) = IslChannel ->
  ChannelDetach w c i = Ok (true, w') -> nth_error (c_link (w_chan w c)) i = Some d ->
  nth_error (c_link (w_chan w c)) j = Some src -> distinct_addresses w c ->
  hears has_mob w c src d = true -> 0 <= delay_to has_mob w c src d tx ->
  exists w'', IslTransmitStart has_mob w' c p j (addr_of w d) tx = Ok (true, w'') /\
    In (w_now w, TxRx c p src d tx (delay_to has_mob w c src d tx)) (w_log w'').
Proof. intros. eapply isl_still_receives; eassumption. Qed.
Print Assumptions C49_isl_still_receives.

Theorem C49_leo_detached_silent : forall (N : Num) crc fcs tx_time has_mob dk ck ops (w : world N) c i d b w1 ops2 w2,
  steady crc fcs tx_time has_mob (eq d) (initial dk ck) ops ->
  run crc fcs tx_time has_mob (initial dk ck) ops = Ok w -> c_kind (w_chan w c) = LeoChannel ->
  nth_error (c_link (w_chan w c)) i = Some d -> ChannelDetach w c i = Ok (b, w1) ->
  ~ In (OAttach d c) ops2 -> run crc fcs tx_time has_mob w1 ops2 = Ok w2 ->
  exists new, w_log w2 = w_log w1 ++ new /\ forall t p src tx delay, ~ In (t, TxRx c p src d tx delay) new.
Proof. intros. eapply (leo_detached_silent crc fcs tx_time has_mob); eassumption. Qed.
Print Assumptions C49_leo_detached_silent.

Theorem C49_leo_detach : forall (N : Num) (w : world N) c i, c_kind (w_chan w c) = LeoChannel ->
  match nth_error (c_link (w_chan w c)) i with
  | None => ChannelDetach w c i = UB OutOfRange
  | Some d => exists w', ChannelDetach w c i = Ok (d_up (w_dev w d), w') /\ d_up (w_dev w' d) = false /\
      forall d', d' <> d -> w_dev w' d' = w_dev w d'
  end.
Proof. intros. apply leo_detach. assumption. Qed.
Print Assumptions C49_leo_detach.

Example ex_C49 :
  summary (after true (isl3 10 ++ [ODetach 0 1; OSend 0 (packet 7) (Mac 2) 2048; ORun])) =
    [(0, [9; 0; 7; 0; 1; 64000000; 0]); (0, [15; 1; 0; 2048; 1; 2; 2])] /\
  summary (after true (ex_leo ++ [ODetach 1 0; OSend 1 (packet 7) (Mac 1) 2048])) = [(0, [9; 1; 7; 1; 2; 64000000; 17])] /\
  after true (ex_leo ++ [ODetach 1 4]) = UB OutOfRange.
Proof. vm_compute. auto. Qed.

(** ** C50 *)
Theorem C50_address_changed : forall (N : Num) crc fcs tx_time has_mob (w : world N) c i d a,
  reachable crc fcs tx_time has_mob w -> nth_error (c_link (w_chan w c)) i = Some d -> unindexed a c w ->
  forall ops w', run crc fcs tx_time has_mob (Configure w d (CAddress a)) ops = Ok w' ->
  (forall b, ~ In (OSet d (CAddress b)) ops) ->
  (forall ops1 x ops2 w1, ops = ops1 ++ OAttach x c :: ops2 ->
     run crc fcs tx_time has_mob (Configure w d (CAddress a)) ops1 = Ok w1 -> addr_of w1 x <> a) ->
  forall p dest tx, LeoTransmitStart has_mob w' c p i dest tx = Ok (false, w').
Proof. intros. eapply (address_changed crc fcs tx_time has_mob); eassumption. Qed.
Print Assumptions C50_address_changed.

Theorem C50_detach_leaves : forall (N : Num) (w : world N) c i d a, c_kind (w_chan w c) = LeoChannel ->
  nth_error (c_link (w_chan w c)) i = Some d -> unindexed a c w ->
  exists w', ChannelDetach (Configure w d (CAddress a)) c i = Ok (d_up (w_dev w d), w') /\
    (forall x, d_cfg (w_dev w' x) = d_cfg (w_dev (Configure w d (CAddress a)) x)) /\
    c_gnd (w_chan w' c) = c_gnd (w_chan w c) /\ c_sat (w_chan w' c) = c_sat (w_chan w c) /\
    c_link (w_chan w' c) = c_link (w_chan w c) /\ d_up (w_dev w' d) = false.
Proof. intros. eapply detach_leaves; eassumption. Qed.
Print Assumptions C50_detach_leaves.

(** So that whoever was heard by the device from the other side still is. *)
Theorem C50_still_receives : forall (N : Num) has_mob (w : world N) c i d a k j src p dest tx b w1 r w2,
  c_kind (w_chan w c) = LeoChannel -> nth_error (c_link (w_chan w c)) i = Some d -> unindexed a c w ->
  nth_error (c_link (w_chan w c)) j = Some src -> src <> d ->
  (In (k, d) (c_gnd (w_chan w c)) /\ (exists x, In (addr_of w src, x) (c_sat (w_chan w c)))) \/
  (In (k, d) (c_sat (w_chan w c)) /\ (exists x, In (addr_of w src, x) (c_gnd (w_chan w c)))) ->
  ChannelDetach (Configure w d (CAddress a)) c i = Ok (b, w1) ->
  LeoTransmitStart has_mob w1 c p j dest tx = Ok (r, w2) -> hears has_mob w1 c src d = true ->
  In (w_now w1, TxRx c p src d tx (delay_to has_mob w1 c src d tx)) (w_log w2) /\ r = true.
Proof.
  intros N has_mob w c i d a k j src p dest tx b w1 r w2 K HI U HJ ND HX HD HT HH.
  destruct (detach_leaves w c i d a K HI U) as (w' & E & EC & EG & ES & EL & _).
  rewrite HD in E. injection E as _ <-.
  assert (EA : addr_of w1 src = addr_of w src).
  { unfold addr_of. rewrite EC. unfold Configure, set_dev. cbn. rewrite upd_other by assumption. reflexivity. }
  apply leo_transmit in HT. cbv zeta in HT. rewrite EL, HJ, EG, ES, EA in HT.
  destruct HT as (dsts & -> & (_ & _ & _ & HL & _) & HT).
  assert (In d dsts) as HIn.
  { destruct HX as [[H1 H2]|[H1 H2]]; destruct HT as [(A & B & ->)|[(A & B & ->)|(A & B & _)]]; try contradiction;
      apply filter_In; (split; [|assumption]); apply in_map_iff; exists (k, d); split; trivial. }
  split; [|destruct dsts; [destruct HIn|reflexivity]].
  rewrite HL. apply in_or_app. right. apply in_map_iff. exists d. split; trivial.
Qed.
Print Assumptions C50_still_receives.

Example ex_C50 :
  summary (after true (ex_leo ++ [OSet 0 (CAddress 9); OSend 0 (packet 7) (Mac 2) 2048; ODetach 1 0; OSend 1 (packet 8) (Mac 9) 2048; ORun])) =
  [(0, [5; 0; 7]); (0, [9; 1; 8; 1; 0; 64000000; 17]); (0, [9; 1; 8; 1; 2; 64000000; 17]); (17, [15; 0; 1; 2048; 2; 9; 9])].
Proof. vm_compute. reflexivity. Qed.

(** ** C51 *)
Theorem C51_integrity : forall (N : Num) crc fcs tx_time has_mob (w : world N),
  reachable crc fcs tx_time has_mob w ->
  (forall t d p dest q own ok, In (t, Sent d p dest q own ok) (w_log w) ->
     0 <= dest < 2 ^ 48 /\ 0 <= own < 2 ^ 48 /\ 0 <= q < 2 ^ 16 /\ Z.of_nat (length (p_bytes p)) <= 1492) ->
  forall l1 t d src payload proto from to own l2,
  w_log w = l1 ++ (t, RxCallback d src payload proto from to own) :: l2 ->
  src <> d /\ (to = 2 ^ 48 - 1 \/ to = own \/ Z.testbit to 40 = true) /\
  exists t0 p, t0 <= t /\ In (t0, Sent src p to proto from true) l1 /\ payload = p_bytes p.
Proof. intros. eapply (integrity crc fcs tx_time has_mob); eassumption. Qed.
Print Assumptions C51_integrity.

Example ex_C51 : holds (fun w =>
    flat_map (fun x => match snd x with RxCallback d src payload proto from to own => [(fst x, payload, proto)] | _ => [] end) (w_log w) =
      [(0, [7; 2; 3], 2048); (0, [7; 2; 3], 2048)])
  (after true (isl3 10 ++ [OSend 1 (packet 7) (Mac broadcast) 2048; ORun; ORun])).
Proof. vm_compute. reflexivity. Qed.

(** ** C52 *)
Theorem C52_not_itself : forall (N : Num) crc fcs tx_time has_mob (w : world N),
  reachable crc fcs tx_time has_mob w -> forall t d src payload proto from to,
  (forall own, In (t, RxCallback d src payload proto from to own) (w_log w) -> src <> d) /\
  (forall k, In (t, PromiscCallback d src payload proto from to k) (w_log w) -> src <> d).
Proof. intros N crc fcs tx_time has_mob w R. eapply (not_itself crc fcs tx_time has_mob). exact R. Qed.
Print Assumptions C52_not_itself.

(** A device can be scheduled to receive its own frame: here attached twice. *)
Example ex_C52 : summary (after true (isl3 10 ++ [OAttach 1 0; OSend 1 (packet 7) (Mac broadcast) 2048; ORun; ORun; ORun])) =
  [(0, [9; 0; 7; 1; 0; 64000000; 0]); (0, [9; 0; 7; 1; 1; 64000000; 0]); (0, [9; 0; 7; 1; 2; 64000000; 0]);
   (0, [15; 0; 1; 2048; 2; broadcast; 1]); (0, [15; 2; 1; 2048; 2; broadcast; 3])].
Proof. vm_compute. reflexivity. Qed.
