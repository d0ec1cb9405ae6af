(** C97: what the delay program sends and measures. *)
Require Import ZArith Reals List Bool Lia Lra Permutation.
Require Import Flocq.Core.Core Flocq.Prop.Relative.
Require Import Verif.Base Verif.Num Verif.FrameModel Verif.NetModel Verif.NetSpec Verif.NetRunSpec Verif.NetSteps Verif.NetTxProofs
  Verif.ReactModel Verif.ReactSpec Verif.RelaySpec Verif.RelayProofs Verif.PropRelay Verif.ForwardSpec Verif.ForwardProofs
  Verif.MeasureModel Verif.MeasureSpec Verif.MeasureProofs Verif.NetExamples.
Import ListNotations.
Local Open Scope Z_scope.

(** A line at the server shows the sequence number that the client wrote, in 32 bits, and the
    time since it wrote it; packets without a whole header end the program. *)
Theorem C97_EchoRx : forall now d,
  (forall seq ts body, 0 <= ts < 2 ^ 63 -> EchoRx now d (seq_ts seq ts ++ body) = Ok (mkEcho now d (seq mod 2 ^ 32) (now - ts))) /\
  (forall packet, (length packet < 12)%nat -> EchoRx now d packet = Abort ShortPacket) /\
  (forall packet, (12 <= length packet)%nat -> exists e, EchoRx now d packet = Ok e /\ e_time e = now /\ e_dev e = d).
Proof.
  intros now d. split; [intros; apply EchoRx_reads; assumption|]. unfold EchoRx. split; intros packet H; destruct (Nat.ltb_spec (length packet) 12); try lia; eauto.
Qed.
Print Assumptions C97_EchoRx.
Example ex_C97_EchoRx : EchoRx 24042070 5 (seq_ts 3 1000000 ++ [0; 0]) = Ok (mkEcho 24042070 5 3 23042070) /\ EchoRx 1 5 [0; 0; 3] = Abort ShortPacket.
Proof. split; reflexivity. Qed.

(** A packet of the client that is sent into a network at rest and forwarded along a path
    between nodes with mobility models: the server writes one line, if the TTL is at least the
    number of hops, and its delay is the sum of the propagation delays at the times when the
    packet gets to the hops. Otherwise there is no line. *)
Theorem C97_delay : forall (N : Num) crc fcs tx_time has_mob next headers seq ttl q uid (w : world N) h rest,
  length headers = 28%nat -> nth_error headers 8 = Some ttl -> 1 <= ttl -> 0 <= q < 2 ^ 16 -> 0 <= w_now w < 2 ^ 63 ->
  let payload := datagram headers seq (w_now w) in
  let touch := fun _ : nat => IpForward in
  let path := h :: rest in
  let server := h_to (last rest h) in
  let T := arrival_at w (w_now w) path in
  w_events w = [] -> routed w next path -> passes crc fcs tx_time has_mob w touch q uid payload (w_now w) path ->
  NoDup (map h_from path) ->
  Forall (fun x => d_busy (w_dev w (h_from x)) = false /\ d_q (w_dev w (h_from x)) = []) path ->
  (forall x n, In x path -> node_of w (h_from x) = Some n \/ node_of w (h_to x) = Some n -> has_mob n = true) ->
  exists k w',
    runR crc fcs tx_time has_mob (forward next touch uid) w
      (OSend (h_from h) (mkPkt uid payload) (Mac (addr_of w (h_to h))) q :: repeat ORun k) = Ok w' /\
    w_events w' = [] /\
    server_lines server (w_log w') = server_lines server (w_log w) ++
      if Z.of_nat (length path) <=? ttl then [Ok (mkEcho T server (seq mod 2 ^ 32) (T - w_now w))] else [].
Proof.
  intros N crc fcs tx_time has_mob next headers seq ttl q uid w h rest LH TT T1 Q NW payload touch path server T EV RT PA ND RD M.
  destruct (forwarding crc fcs tx_time has_mob next touch q uid Q w payload h rest RT PA ND RD EV) as (k & w' & E & EV' & H).
  exists k, w'. split; [exact E|]. split; [exact EV'|].
  rewrite server_handed, H, server_app, <- server_handed. f_equal.
  apply (lines_of_stops crc fcs tx_time has_mob next w q uid rest h payload (w_now w) ttl (w_now w) seq (repeat 0 1012)); try assumption.
  - unfold payload, datagram. rewrite nth_error_app1; [exact TT|rewrite LH; lia].
  - unfold payload, datagram. rewrite skipn_app, LH, skipn_all2 by lia. reflexivity.
Qed.
Print Assumptions C97_delay.

(** ** The delays of a concrete network *)

Definition ex_members (w : world NumZ) (c : nat) : list nat :=
  let ch := w_chan w c in c_link ch ++ map snd (c_gnd ch) ++ map snd (c_sat ch).
(** What the network of C91 is like, whatever the packet. *)
Definition ex_fit (w : world NumZ) (h : hop) : Prop :=
  (exists f, d_queue (w_dev w (h_from h)) = Some f /\ forall p, f [] p = true) /\
  g_err (d_cfg (w_dev w (h_to h))) = None /\ g_bps (d_cfg (w_dev w (h_from h))) = 8000 /\ g_gap (d_cfg (w_dev w (h_from h))) = 0 /\
  incl (ex_members w (h_over h)) (seq 0 6).
Definition ex_open (w : world NumZ) : Prop :=
  w_now w = 0 /\ ex_fit w (mkHop 0 1 1) /\ ex_fit w (mkHop 2 0 3) /\ ex_fit w (mkHop 4 1 5) /\
  map (node_of w) (seq 0 6) = map Some [10; 11; 11; 14; 14; 15]%nat.
Lemma ex_open_base : holds ex_open (after true ex_bent).
Proof.
  vm_compute. split; [reflexivity|]. repeat split; try (eexists; split; [reflexivity|intros p; reflexivity]); intros x H; cbn in *; tauto.
Qed.
Lemma ex_member : forall (w : world NumZ) c a to x, recipient w c a to x -> In x (ex_members w c).
Proof.
  intros w c a to x R. unfold recipient in R. cbv zeta in R. unfold ex_members. cbv zeta. rewrite !in_app_iff. destruct (c_kind (w_chan w c)).
  - destruct R as [(k & K & _)|(_ & _ & k & _ & K)]; left; apply nth_error_In in K; exact K.
  - right. destruct R as [(_ & _ & K)|(_ & _ & K)]; auto.
Qed.
Lemma ex_mobile : forall (w : world NumZ) x, ex_open w -> In x (seq 0 6) -> exists n, node_of w x = Some n /\ ex_mob n = true.
Proof.
  intros w x (_ & _ & _ & _ & M) H. cbn [map seq] in M. injection M as M0 M1 M2 M3 M4 M5. cbn [seq In] in H.
  decompose [or] H; subst; try contradiction; (eexists; split; [eassumption|reflexivity]).
Qed.
Lemma delay_any : forall (w : world NumZ) t c a x tx tx', ex_open w -> In a (seq 0 6) -> In x (seq 0 6) ->
  delay_to ex_mob (set_now w t) c a x tx = delay_to ex_mob (set_now w t) c a x tx'.
Proof.
  intros w t c a x tx tx' O A X. destruct (ex_mobile w a O A) as (m & MA & MB). destruct (ex_mobile w x O X) as (n & NA & NB).
  unfold delay_to. change (node_of (set_now w t)) with (node_of w). rewrite MA, NA. unfold link_delay. rewrite MB, NB. reflexivity.
Qed.
Lemma usable_any : forall (w : world NumZ) p p' t h, ex_open w -> In h ex_path ->
  usable ex_crc true ex_tx ex_mob w p 2048 7 t h -> usable ex_crc true ex_tx ex_mob w p' 2048 7 t h /\
  hop_delay ex_crc true ex_tx ex_mob w p' 2048 7 t h = hop_delay ex_crc true ex_tx ex_mob w p 2048 7 t h.
Proof.
  intros w p p' t h OP HI U. assert (O : ex_fit w h) by (destruct OP as (_ & O1 & O2 & O3 & _); cbn in HI; decompose [or] HI; subst; try contradiction; assumption).
  destruct O as ((f & F1 & F2) & ER & BP & GP & ME).
  assert (TX : 0 <= hop_tx ex_crc true ex_tx w p' 2048 7 h). { unfold hop_tx, ex_tx. rewrite BP. clear. apply Z.div_pos; lia. }
  destruct U as (U1 & U2 & U3 & U4 & U5 & U6 & U7 & U8 & U9 & U10 & U11 & U12).
  assert (NA : In (h_from h) (seq 0 6)). { clear - HI. cbn in HI. decompose [or] HI; subst; cbn; tauto. }
  assert (DE : forall x, recipient w (h_over h) (h_from h) (addr_of w (h_to h)) x -> delay_to ex_mob (set_now w t) (h_over h) (h_from h) x (hop_tx ex_crc true ex_tx w p' 2048 7 h) =
    delay_to ex_mob (set_now w t) (h_over h) (h_from h) x (hop_tx ex_crc true ex_tx w p 2048 7 h)).
  { intros x NX. apply delay_any; [exact OP|exact NA|apply ME; eapply ex_member; exact NX]. }
  split.
  - unfold usable. cbv zeta. split; [exact U1|]. split; [exact U2|]. split; [exists f; auto|]. split; [rewrite GP; clear - TX; lia|].
    split; [exact U5|]. split; [exact U6|]. split; [|split; [exact U8|split; [exact U9|split; [exact U10|split; [|exact U12]]]]].
    + intros x HX. destruct (U7 x HX) as (V1 & V2 & V3). split; [exact V1|]. split; [exact V2|]. rewrite DE by exact HX. exact V3.
    + intros g Hg. congruence.
  - unfold hop_delay. apply DE. exact U6.
Qed.
Lemma passes_any : forall (w : world NumZ) p, ex_open w -> forall path p' t, incl path ex_path -> (length p' <= 1492)%nat ->
  passable ex_crc true ex_tx ex_mob w p 2048 7 t path -> passes ex_crc true ex_tx ex_mob w (fun _ => IpForward) 2048 7 p' t path.
Proof.
  intros w p O. induction path as [|h r IH]; intros p' t I L PA; [exact Logic.I|]. destruct PA as [U PA].
  destruct (usable_any w p p' t h O (I h (or_introl eq_refl)) U) as [U' D]. cbn [passes]. split; [exact L|]. split; [exact U'|].
  destruct r as [|h2 r]; [exact Logic.I|]. destruct (IpForward p') as [p2|] eqn:E; [|exact Logic.I]. rewrite D. apply IH; [|clear - E L|exact PA].
  - intros x Hx. apply I. right. exact Hx.
  - unfold IpForward in E. destruct (nth_error p' 8) as [ttl|] eqn:EN; [|discriminate]. destruct (ttl - 1 <=? 0); [discriminate|]. assert (E2 : p2 = firstn 8 p' ++ (ttl - 1) :: skipn 9 p') by congruence. rewrite E2. clear E E2.
    assert (nth_error p' 8 <> None) as N8 by congruence. apply nth_error_Some in N8.
    rewrite app_length, firstn_length. cbn [length]. rewrite skipn_length. lia.
Qed.
(** IPv4 and UDP headers with a TTL. *)
Definition ex_headers (ttl : Z) : list Z := [69; 0; 4; 28; 0; 0; 0; 0; ttl; 17; 0; 0; 10; 1; 0; 1; 10; 1; 0; 4; 192; 0; 0; 9; 4; 8; 0; 0].

(** From station to station over two satellites, with delays of 2, 20 and 2 ms: the line says
    24042070 ns. *)
Example ex_C97 : forall ttl, 1 <= ttl -> exists w, after true (ex_bent ++ ex_delays) = Ok w /\ w_events w = [] /\ (0 <= w_now w < 2 ^ 63)%Z /\ routed w ex_next ex_path /\
  passes ex_crc true ex_tx ex_mob w (fun _ => IpForward) 2048 7 (datagram (ex_headers ttl) 3 (w_now w)) (w_now w) ex_path /\
  NoDup (map h_from ex_path) /\ Forall (fun x => d_busy (w_dev w (h_from x)) = false /\ d_q (w_dev w (h_from x)) = []) ex_path /\
  (forall x n, In x ex_path -> node_of w (h_from x) = Some n \/ node_of w (h_to x) = Some n -> ex_mob n = true) /\ arrival_at w (w_now w) ex_path = 24042070.
Proof.
  intros ttl T. destruct ex_C91 as (w & E & EV & RT & PA & ND & RD). destruct (holds_ok _ _ _ ex_open_base) as (u & EU & OU).
  destruct (holds_ok _ _ _ ex_base) as (u2 & EU2 & X1 & X2 & X3 & _). rewrite EU in EU2. injection EU2 as <-.
  rewrite (ex_setup u EU) in E. injection E as <-. 
  exists (SetPropagationDelay (SetPropagationDelay u 1 (Some ex_up)) 0 (Some ex_across)).
  split; [exact (ex_setup u EU)|]. set (w := SetPropagationDelay (SetPropagationDelay u 1 (Some ex_up)) 0 (Some ex_across)) in *.
  assert (OW : ex_open w) by exact OU. split; [exact EV|]. split; [rewrite (proj1 OW); split; [discriminate|reflexivity]|]. split; [exact RT|].
  split; [apply (passes_any w [1; 2; 3] OW); [intros x Hx; exact Hx| |exact PA]|].
  { unfold datagram. rewrite !app_length, repeat_length. unfold seq_ts. rewrite app_length, !be_length. cbn [length ex_headers]. lia. }
  split; [exact ND|]. split; [exact RD|]. split.
  { intros x n HX HN. assert (A : In (h_from x) (seq 0 6) /\ In (h_to x) (seq 0 6)) by (clear - HX; cbn in HX; decompose [or] HX; subst; cbn; tauto).
    destruct (ex_mobile w _ OW (proj1 A)) as (n1 & E1 & B1). destruct (ex_mobile w _ OW (proj2 A)) as (n2 & E2 & B2). destruct HN; congruence. }
  assert (NO : node_of w 0 = Some 10%nat /\ node_of w 1 = Some 11%nat /\ node_of w 2 = Some 11%nat /\ node_of w 3 = Some 14%nat /\ node_of w 4 = Some 14%nat /\ node_of w 5 = Some 15%nat).
  { change (node_of w) with (node_of u). unfold ex_card in X1, X2, X3. cbn [h_from h_to] in *. repeat split; congruence. }
  destruct NO as (N0 & N1 & N2 & N3 & N4 & N5).
  assert (C0 : c_delay (w_chan w 0) = Some ex_across) by reflexivity. assert (C1 : c_delay (w_chan w 1) = Some ex_up) by reflexivity.
  rewrite (proj1 OW). clearbody w. cbn [arrival_at ex_path h_from h_to h_over]. rewrite C0, C1, N0, N1, N2, N3, N4, N5. reflexivity.
Qed.
(** With a TTL of 2 the packet is dropped at the second satellite. *)
Theorem C97_ttl_refuted : exists w k w', after true (ex_bent ++ ex_delays) = Ok w /\
  runR ex_crc true ex_tx ex_mob (forward ex_next (fun _ => IpForward) 7) w
    (OSend 0 (mkPkt 7 (datagram (ex_headers 2) 3 (w_now w))) (Mac (addr_of w 1)) 2048 :: repeat ORun k) = Ok w' /\
  w_events w' = [] /\ server_lines 5 (w_log w') = server_lines 5 (w_log w).
Proof.
  destruct (ex_C97 2 ltac:(lia)) as (w & E & EV & NW & RT & PA & ND & RD & M & _).
  destruct (C97_delay NumZ ex_crc true ex_tx ex_mob ex_next (ex_headers 2) 3 2 2048 7 w (mkHop 0 1 1) [mkHop 2 0 3; mkHop 4 1 5]
    eq_refl eq_refl ltac:(lia) ltac:(lia) NW EV RT PA ND RD) as (k & w' & ER & EV' & L).
  { exact M. }
  exists w, k, w'. split; [exact E|]. split; [exact ER|]. split; [exact EV'|]. cbn [last h_to length] in L. rewrite app_nil_r in L. exact L.
Qed.
Print Assumptions C97_ttl_refuted.

(** The number of packets that the client is told to send: undefined for an interval of 0 and
    2^64 intervals, an error from 2^32 on, and otherwise at most one off. *)
Theorem C97_packets : forall rnd duration interval, divides_well rnd -> (0 <= duration)%R -> (0 <= interval)%R ->
  match MaxPackets rnd duration interval with
  | UB _ => interval = 0%R \/ (IZR (2 ^ 64) <= rnd (duration / interval))%R
  | Abort _ => (0 < interval)%R /\ (IZR (2 ^ 32) <= rnd (duration / interval) < IZR (2 ^ 64))%R
  | Ok n => (0 < interval)%R /\ 0 <= n < 2 ^ 32 /\ (IZR n - 1 < duration / interval < IZR n + 1)%R
  end.
Proof.
  intros rnd d i G D I. unfold MaxPackets. destruct (Req_bool_spec i 0) as [E|E]; [left; exact E|].
  assert (IP : (0 < i)%R) by lra.
  assert (Q : (0 <= d / i)%R) by (apply Rmult_le_pos; [exact D|left; apply Rinv_0_lt_compat; exact IP]).
  pose proof (rnd_pos rnd G _ Q) as P. pose proof (Ztrunc_floor _ P) as F.
  assert (B1 : forall m, m <= Ztrunc (rnd (d / i)%R) -> (IZR m <= rnd (d / i))%R).
  { intros m H. rewrite F in H. apply Rle_trans with (IZR (Zfloor (rnd (d / i)%R))); [apply IZR_le; exact H|apply Zfloor_lb]. }
  assert (B2 : forall m, Ztrunc (rnd (d / i)%R) < m -> (rnd (d / i) < IZR m)%R).
  { intros m H. rewrite F in H. apply Rlt_le_trans with (1 := Zfloor_ub _). rewrite <- plus_IZR. apply IZR_le. lia. }
  assert (N0 : 0 <= Ztrunc (rnd (d / i)%R)) by (rewrite F; apply Zfloor_lub; exact P).
  cbv zeta. destruct (Z.ltb_spec (Ztrunc (rnd (d / i)%R)) 0); [lia|]. cbn [orb].
  destruct (Z.leb_spec (2 ^ 64) (Ztrunc (rnd (d / i)%R))); [right; apply B1; assumption|].
  destruct (Z.leb_spec (2 ^ 32) (Ztrunc (rnd (d / i)%R))).
  - split; [exact IP|]. split; [apply B1|apply B2]; assumption.
  - destruct (count_bounds rnd G (d / i)%R _ Q eq_refl) as (_ & B & _); [assumption|]. auto.
Qed.
Print Assumptions C97_packets.

(** With intervals of 2 ns or more, every one of these packets is sent before the program
    stops. *)
Theorem C97_in_time : forall rnd seconds duration interval n k, divides_well rnd -> truncates seconds ->
  (0 <= duration)%R -> (2 / 10 ^ 9 <= interval)%R -> MaxPackets rnd duration interval = Ok n -> 0 <= k < n ->
  send_time seconds interval k < stop_time seconds duration.
Proof.
  intros rnd seconds d i n k G S D I E K. unfold MaxPackets in E. destruct (Req_bool i 0); [discriminate|]. cbv zeta in E.
  destruct (_ || _)%bool in E; [discriminate|]. destruct (Z.leb_spec (2 ^ 32) (Ztrunc (rnd (d / i)%R))); [discriminate|]. injection E as E.
  eapply sent_in_time; try eassumption. rewrite <- E. assumption.
Qed.
Print Assumptions C97_in_time.

(** Division in doubles is such a division. *)
Local Instance prec53 : Prec_gt_0 53.
Proof. reflexivity. Qed.
Theorem C97_doubles : divides_well (round radix2 (FLT_exp (-1074) 53) ZnearestE).
Proof.
  split; [|split].
  - intros x y H. apply round_le; [typeclasses eauto|typeclasses eauto|exact H].
  - intros z H. apply round_generic; [typeclasses eauto|]. apply generic_format_FLT. exists (Float radix2 z 0); [unfold F2R; cbn; ring| |cbn; lia].
    cbn [Fnum]. change (Zpower radix2 53) with (2 ^ 53). lia.
  - intros x H.
    assert (P : (bpow radix2 (-1074 + 53 - 1) <= Rabs x)%R).
    { rewrite Rabs_pos_eq by lra. apply Rle_trans with (2 := H). change (/ 2)%R with (bpow radix2 (-1)). apply bpow_le. lia. }
    assert (R : (Rabs (round radix2 (FLT_exp (-1074) 53) ZnearestE x - x) <= / 2 * bpow radix2 (-53 + 1) * Rabs x)%R)
      by (apply relative_error_N_FLT; [reflexivity|exact P]).
    rewrite (Rabs_pos_eq x) in R by lra. apply Rabs_le_inv in R.
    assert (B : (bpow radix2 (-53 + 1) <= / 2 ^ 40)%R).
    { apply Rle_trans with (bpow radix2 (- (40))); [apply bpow_le; lia|]. right. rewrite bpow_opp. f_equal. rewrite (pow_IZR 2 40). reflexivity. }
    assert (/ 2 * bpow radix2 (-53 + 1) * x <= / 2 ^ 40 * x)%R.
    { apply Rmult_le_compat_r; [lra|]. pose proof (bpow_gt_0 radix2 (-53 + 1)). lra. }
    lra.
Qed.
Print Assumptions C97_doubles.

Example ex_C97_packets : divides_well (fun x => x) /\ truncates (fun x => Zfloor (x * 10 ^ 9)) /\ MaxPackets (fun x => x) 100 1 = Ok 100.
Proof.
  split; [|split].
  - split; [auto|]. split; [auto|]. intros x H. assert (0 <= x * / 2 ^ 40)%R by (apply Rmult_le_pos; lra). lra.
  - intros x H. split; [apply Zfloor_lb|apply Zfloor_ub].
  - unfold MaxPackets. rewrite Req_bool_false by lra. replace (100 / 1)%R with (IZR 100) by field. rewrite Ztrunc_IZR. reflexivity.
Qed.

(** Not every multiple of the interval before the end gets its packet. *)
Theorem C97_every_interval_refuted : exists duration interval n,
  MaxPackets (fun x => x) duration interval = Ok n /\ (IZR n * interval < duration)%R.
Proof.
  exists (5 / 2)%R, 1%R, 2. split; [|lra]. unfold MaxPackets. rewrite Req_bool_false by lra.
  replace (Ztrunc (5 / 2 / 1)) with 2; [reflexivity|]. symmetry. rewrite Ztrunc_floor by lra. apply Zfloor_imp. cbn. lra.
Qed.
Print Assumptions C97_every_interval_refuted.
