(** C94: packet objects sent more than once. *)
Require Import ZArith List Bool Lia.
Require Import Verif.Base Verif.Num Verif.FrameModel Verif.NetModel Verif.NetSpec Verif.SharedModel Verif.SharedSpec Verif.FrameProofs Verif.NetSteps Verif.SharedProofs Verif.NetExamples.
Import ListNotations.
Local Open Scope Z_scope.

(** A program that sends every object at most once behaves as one that sends packets of
    its own: what the other properties say holds for it. *)
Theorem C94_separate : forall (N : Num) crc fcs tx_time has_mob dk ck obj (ops : list (@hop N)),
  NoDup (sent_objects ops) -> Forall no_plain_send ops ->
  same_outcome (hrun crc fcs tx_time has_mob (hstart dk ck obj) ops)
               (NetModel.run crc fcs tx_time has_mob (initial dk ck) (map (own_packet obj) ops)).
Proof.
  intros. change (initial dk ck) with (h_world (hstart (N := N) dk ck obj)). apply separate; auto using inv_start.
  intros k _. split; [|reflexivity]. intros d. split; [intros []|discriminate].
Qed.
Print Assumptions C94_separate.

(** Send with an open link makes the object its frame, whether or not the queue takes it;
    other objects, and all with a closed link, stay as they are. *)
Theorem C94_rewrites : forall (N : Num) crc fcs tx_time has_mob (s : hworld N) d k a q b s',
  SendObject crc fcs tx_time has_mob s d k (Mac a) q = Ok (b, s') ->
  forall j, h_obj s' j = if Nat.eqb j k && d_up (w_dev (h_world s) d) then frame_of crc fcs (h_obj s k) a q (addr_of (h_world s) d) else h_obj s j.
Proof.
  intros N crc fcs tx_time has_mob s d k a q b s' H j. destruct (d_up (w_dev (h_world s) d)) eqn:UP.
  - destruct (SendObject_up _ _ _ _ _ _ _ _ _ _ _ H UP) as (_ & E & _). rewrite E. unfold new_obj, upd. rewrite andb_true_r. reflexivity.
  - destruct (SendObject_down _ _ _ _ _ _ _ _ _ _ _ H UP) as (_ & E & _). rewrite E, andb_false_r. reflexivity.
Qed.
Print Assumptions C94_rewrites.

(** Sending it once more wraps the frame: a receiver gets the first frame for a payload,
    26 bytes or more longer than the packet was. *)
Theorem C94_again : forall (N : Num) crc fcs tx_time has_mob (s : hworld N) d k a q b s1 e a' q' b' s2,
  SendObject crc fcs tx_time has_mob s d k (Mac a) q = Ok (b, s1) -> d_up (w_dev (h_world s) d) = true ->
  SendObject crc fcs tx_time has_mob s1 e k (Mac a') q' = Ok (b', s2) -> d_up (w_dev (h_world s1) e) = true ->
  0 <= a' < 281474976710656 -> 0 <= q' < 65536 -> 0 <= addr_of (h_world s1) e < 281474976710656 ->
  len (p_bytes (h_obj s k)) <= 1466 ->
  exists payload, Decapsulate crc fcs (p_bytes (h_obj s2 k)) = Ok (Frame payload q' (addr_of (h_world s1) e) a') /\
    payload = p_bytes (frame_of crc fcs (h_obj s k) a q (addr_of (h_world s) d)) /\ len (p_bytes (h_obj s k)) + 26 <= len payload.
Proof.
  intros N crc fcs tx_time has_mob s d k a q b s1 e a' q' b' s2 H1 U1 H2 U2 Ha Hq Ho L.
  pose proof (C94_rewrites _ _ _ _ _ _ _ _ _ _ _ _ H1 k) as E1. pose proof (C94_rewrites _ _ _ _ _ _ _ _ _ _ _ _ H2 k) as E2. rewrite U1, Nat.eqb_refl in E1. rewrite U2, Nat.eqb_refl in E2. cbn [andb] in E1, E2.
  set (F := frame_of crc fcs (h_obj s k) a q (addr_of (h_world s) d)) in *. rewrite E1 in E2. rewrite E2. exists (p_bytes F).
  assert (LF : len (p_bytes F) = Z.max 46 (len (p_bytes (h_obj s k)) + 8) + 18) by apply AddHeader_len. pose proof (len_pos _ (p_bytes (h_obj s k))).
  split; [|split; [reflexivity|lia]]. change (p_bytes (frame_of crc fcs F a' q' (addr_of (h_world s1) e))) with (AddHeader crc fcs (addr_of (h_world s1) e) a' q' (p_bytes F)).
  rewrite Decapsulate_AddHeader; [|assumption|assumption|assumption|destruct fcs; auto]. cbv zeta. rewrite Z.mod_small by lia.
  destruct (Z.leb_spec (len (p_bytes F) + 8) 1500); [|lia]. destruct (Z.ltb_spec (len (p_bytes F) + 8) 65536); [reflexivity|lia].
Qed.
Print Assumptions C94_again.

(** A queue never counts more bytes than wait in it. *)
Theorem C94_counter : forall (N : Num) crc fcs tx_time has_mob (s : hworld N), hreachable crc fcs tx_time has_mob s -> forall d, 0 <= h_bytes s d <= waiting_bytes s d.
Proof.
  intros N crc fcs tx_time has_mob s RS d. pose proof (inv_reachable _ _ _ _ _ RS) as I. split; [apply I|]. destruct RS as (dk & ck & obj & ops & R).
  revert R. generalize (inv_start (N := N) dk ck obj). generalize (deficit_start (N := N) dk ck obj). generalize (hstart (N := N) dk ck obj). intros s0 D I0 R.
  enough (G : 0 <= deficit s d) by (unfold deficit in G; lia). revert s0 D I0 R. enough (G : forall s0, (forall e, 0 <= deficit s0 e) -> inv s0 -> hrun crc fcs tx_time has_mob s0 ops = Ok s -> 0 <= deficit s d) by (intros s0 D; apply G; intros e; rewrite D; lia).
  induction ops as [|o r IH]; intros s0 D I0 R; cbn in R; [injection R as <-; apply D|]. apply bind_ok in R. destruct R as (s1 & R1 & R). apply (IH s1); [|eapply inv_step; eauto|exact R]. intros e.
  assert (K : keeps_queue e o \/ exists f, o = HOther (OSetQueue e f)). { destruct o as [| o]; [left; exact Logic.I|]. destruct o; try (left; exact Logic.I). destruct (Nat.eq_dec d0 e) as [->|]; [right; eauto|left; assumption]. }
  destruct K as [K|(f & ->)]; [pose proof (deficit_step _ _ _ _ _ _ _ e R1 I0 K); pose proof (D e); lia|].
  cbn in R1. injection R1 as <-. unfold deficit. rewrite waiting_total. cbn [h_obj h_wait h_bytes]. unfold upd. rewrite Nat.eqb_refl. cbn. lia.
Qed.
Print Assumptions C94_counter.

(** Sending an object that waits in a queue - from any device - makes its bytes more than
    were counted when it was put there. Unless the queue is replaced it will never be
    empty again: the assertion of the queue's Dequeue ends the program before. *)
Theorem C94_waiting : forall (N : Num) crc fcs tx_time has_mob (s : hworld N), hreachable crc fcs tx_time has_mob s ->
  forall d e k a q b s1, In k (h_wait s d) -> d_up (w_dev (h_world s) e) = true ->
  SendObject crc fcs tx_time has_mob s e k (Mac a) q = Ok (b, s1) ->
  forall ops s2, Forall (keeps_queue d) ops -> hrun crc fcs tx_time has_mob s1 ops = Ok s2 ->
  d_q (w_dev (h_world s2) d) <> [] /\ h_bytes s2 d + 26 <= waiting_bytes s2 d.
Proof.
  intros N crc fcs tx_time has_mob s RS d e k a q b s1 IN UP H ops s2 K R.
  pose proof (C94_counter _ _ _ _ _ _ RS d) as BAL. pose proof (inv_reachable _ _ _ _ _ RS) as I. pose proof (inv_send _ _ _ _ _ _ _ _ _ _ _ H I) as I1. pose proof (inv_run _ _ _ _ _ _ _ R I1) as I2.
  pose proof (deficit_send _ _ _ _ _ _ _ _ _ _ _ H UP d) as D1. pose proof (deficit_run _ _ _ _ _ _ _ d R I1 K) as D2.
  apply (count_occ_In Nat.eq_dec) in IN. pose proof (size_nonneg (h_obj s k)) as SN.
  assert (D3 : 26 <= deficit s2 d) by (unfold deficit in D1 at 2; nia).
  split; [|unfold deficit in D3; lia]. intros Q. apply (deficit_nonempty s2 d I2); [lia|].
  destruct I2 as (I2 & _). specialize (I2 d). unfold part in I2. rewrite Q in I2. destruct (h_wait s2 d); [reflexivity|discriminate].
Qed.
Print Assumptions C94_waiting.

(** The program ends when the last packet is taken. *)
Theorem C94_ends : forall (N : Num) crc fcs tx_time has_mob (s : hworld N), hreachable crc fcs tx_time has_mob s ->
  forall d h t dest evs, h_wait s d = [h] -> h_bytes s d < waiting_bytes s d -> w_events (h_world s) = (t, TxComplete d dest) :: evs ->
  d_busy (w_dev (h_world s) d) = true -> d_cur (w_dev (h_world s) d) <> None -> d_queue (w_dev (h_world s) d) <> None ->
  hstep crc fcs tx_time has_mob s (HOther ORun) = Abort AssertFailed.
Proof.
  intros N crc fcs tx_time has_mob s RS d h t dest evs W L EV BU CU QU. pose proof (inv_reachable _ _ _ _ _ RS) as I. eapply deficit_last; eauto; [unfold deficit; lia|].
  intros E. apply CU. destruct I as (I & _). specialize (I d). unfold part in I. injection I as _ ->. rewrite E. reflexivity.
Qed.
Print Assumptions C94_ends.

(** ** Cases *)
Definition ex_obj (k : nat) : pkt := packet (Z.of_nat k).
Notation ex_hrun ops := (hrun (N := NumZ) ex_crc true ex_tx ex_mob (hstart (fun _ => true) ex_kinds ex_obj) (map HOther (isl3 0) ++ ops)).
Lemma ex_reachable : forall ops s, ex_hrun ops = Ok s -> hreachable ex_crc true ex_tx ex_mob s.
Proof. intros ops s H. exists (fun _ => true), ex_kinds, ex_obj, (map HOther (isl3 0) ++ ops). exact H. Qed.
Definition ex_send (k : nat) : @hop NumZ := HSend 0 k (Mac 2) 2048.

(** Objects 0, 1, 2 sent once each, by a device with room for two. *)
Definition ex_once : list (@hop NumZ) := map ex_send [0; 1; 2]%nat ++ repeat (HOther ORun) 3.
Example ex_C94_separate : NoDup (sent_objects (map HOther (isl3 0) ++ ex_once)) /\ Forall no_plain_send (map (@HOther NumZ) (isl3 0) ++ ex_once) /\
  holds (fun s => map (fun k => length (p_bytes (h_obj s k))) [0; 1; 2; 3]%nat = [64; 64; 64; 3]%nat /\ w_now (h_world s) = 128000000) (ex_hrun ex_once).
Proof. split; [cbn; repeat constructor; cbn; intuition discriminate|]. split; [cbn; repeat constructor|vm_compute; auto]. Qed.

(** The fourth is refused; sent again when there is room, what goes out is a frame in a
    frame: expectation that a refused packet can be sent again. *)
Definition ex_refused : list (@hop NumZ) := map ex_send [0; 1; 2; 3]%nat.
Example ex_C94_refused : holds (fun s => h_wait s 0%nat = [1; 2]%nat /\ length (p_bytes (h_obj s 3%nat)) = 64%nat /\ d_up (w_dev (h_world s) 0%nat) = true) (ex_hrun ex_refused).
Proof. vm_compute. auto. Qed.

Theorem C94_retry_refuted : ~ (forall s d k a q s1 r s2 b2 s3,
  hreachable (N := NumZ) ex_crc true ex_tx ex_mob s ->
  SendObject ex_crc true ex_tx ex_mob s d k (Mac a) q = Ok (false, s1) ->
  hrun ex_crc true ex_tx ex_mob s1 [HOther r] = Ok s2 ->
  SendObject ex_crc true ex_tx ex_mob s2 d k (Mac a) q = Ok (b2, s3) -> b2 = true ->
  Decapsulate ex_crc true (p_bytes (h_obj s3 k)) = Ok (Frame (p_bytes (h_obj s k)) q (addr_of (h_world s) d) a)).
Proof.
  intros H.
  assert (X : exists s s1 s2 s3, ex_hrun (map ex_send [0; 1; 2]%nat) = Ok s /\ SendObject ex_crc true ex_tx ex_mob s 0 3 (Mac 2) 2048 = Ok (false, s1) /\
    hrun ex_crc true ex_tx ex_mob s1 [HOther ORun] = Ok s2 /\ SendObject ex_crc true ex_tx ex_mob s2 0 3 (Mac 2) 2048 = Ok (true, s3) /\
    length (p_bytes (h_obj s 3%nat)) = 3%nat /\ match Decapsulate ex_crc true (p_bytes (h_obj s3 3%nat)) with Ok (Frame p _ _ _) => length p = 64%nat | _ => False end).
  { destruct (ex_hrun (map ex_send [0; 1; 2]%nat)) as [s| |] eqn:E1.
    2, 3 : exfalso; assert (K : holds (fun _ => True) (ex_hrun (map ex_send [0; 1; 2]%nat))) by (vm_compute; exact Logic.I); rewrite E1 in K; exact K.
    assert (K : holds (fun s => holds (fun '(b, s1) => b = false /\ holds (fun s2 => holds (fun '(b, s3) => b = true /\
        length (p_bytes (h_obj s 3%nat)) = 3%nat /\ match Decapsulate ex_crc true (p_bytes (h_obj s3 3%nat)) with Ok (Frame p _ _ _) => length p = 64%nat | _ => False end)
        (SendObject ex_crc true ex_tx ex_mob s2 0 3 (Mac 2) 2048)) (hrun ex_crc true ex_tx ex_mob s1 [HOther ORun])) (SendObject ex_crc true ex_tx ex_mob s 0 3 (Mac 2) 2048)) (ex_hrun (map ex_send [0; 1; 2]%nat))) by (vm_compute; auto).
    rewrite E1 in K. cbn [holds] in K. apply holds_ok in K. destruct K as ((b1 & s1) & E2 & -> & K). apply holds_ok in K. destruct K as (s2 & E3 & K). apply holds_ok in K. destruct K as ((b3 & s3) & E4 & -> & K1 & K2).
    exists s, s1, s2, s3. split; [reflexivity|]. split; [exact E2|]. split; [exact E3|]. split; [exact E4|]. split; [exact K1|exact K2]. }
  destruct X as (s & s1 & s2 & s3 & E1 & E2 & E3 & E4 & L1 & L2).
  rewrite (H s 0%nat 3%nat 2 2048 s1 ORun s2 true s3) in L2; [rewrite L1 in L2; discriminate| |exact E2|exact E3|exact E4|reflexivity].
  exact (ex_reachable _ _ E1).
Qed.
Print Assumptions C94_retry_refuted.

(** Object 1 sent twice while the device is busy: 64 and 90 bytes are counted, 180 are
    there; the program ends at the second end of a transmission. *)
Definition ex_twice : list (@hop NumZ) := map ex_send [0; 1; 1]%nat.
Example ex_C94_waiting : holds (fun s => h_wait s 0%nat = [1]%nat /\ h_bytes s 0%nat = 64 /\ d_up (w_dev (h_world s) 0%nat) = true) (ex_hrun (map ex_send [0; 1]%nat)) /\
  holds (fun s => h_wait s 0%nat = [1; 1]%nat /\ h_bytes s 0%nat = 154 /\ waiting_bytes s 0 = 180) (ex_hrun ex_twice).
Proof. vm_compute. auto 10. Qed.
Example ex_C94_ends : holds (fun s => h_wait s 0%nat = [1]%nat /\ h_bytes s 0%nat = 64 /\ waiting_bytes s 0 = 90 /\ d_busy (w_dev (h_world s) 0%nat) = true /\
    d_cur (w_dev (h_world s) 0%nat) <> None /\ d_queue (w_dev (h_world s) 0%nat) <> None /\
    match w_events (h_world s) with (154000000, TxComplete 0 _) :: _ => True | _ => False end) (ex_hrun (ex_twice ++ repeat (HOther ORun) 2)) /\
  ex_hrun (ex_twice ++ repeat (HOther ORun) 3) = Abort AssertFailed.
Proof. vm_compute. intuition discriminate. Qed.
