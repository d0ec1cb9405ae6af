(** C98: the records of forwarding and drops by IPv4. *)
Require Import ZArith List Bool String Lia Permutation.
Require Import Verif.Base Verif.Num Verif.FrameModel Verif.NetModel Verif.NetSpec Verif.NetRunSpec
  Verif.ReactModel Verif.ReactSpec Verif.RelaySpec Verif.RelayProofs Verif.PropRelay Verif.ForwardSpec Verif.ForwardProofs
  Verif.MeasureModel Verif.MeasureSpec Verif.MeasureProofs Verif.PropMeasure Verif.IpTraceModel Verif.IpTraceSpec Verif.NetExamples.
Import ListNotations.
Local Open Scope Z_scope.

Lemma IpForward_addresses : forall p p', IpForward p = Some p' -> GetSource p' = GetSource p /\ GetDestination p' = GetDestination p.
Proof.
  intros p p' H. unfold IpForward in H. destruct (nth_error p 8) as [ttl|] eqn:E; [|discriminate]. destruct (ttl - 1 <=? 0); [discriminate|]. injection H as <-.
  do 9 (destruct p as [|? p]; [discriminate E|]). split; reflexivity.
Qed.

Section Lines.
  Context {N : Num}.
  Variable crc : list Z -> Z.
  Variable fcs : bool.
  Variable tx_time : Z -> Z -> Z.
  Variable has_mob : nat -> bool.
  Variable next : nat -> option (nat * Z).
  Variable w : world N.
  Variables (q uid remote : Z).
  Notation stops := (stops crc fcs tx_time has_mob w IpTouch q uid).

  Lemma ip_handed : forall l, ip_lines next remote l = ip_lines next remote (handed l).
  Proof.
    induction l as [|[t o] l IH]; [reflexivity|]. change (handed ((t, o) :: l)) with (if match o with RxCallback _ _ _ _ _ _ _ => true | _ => false end then (t, o) :: handed l else handed l).
    unfold ip_lines in *. destruct o; cbn [flat_map fst snd]; rewrite IH; reflexivity.
  Qed.
  Lemma ip_app : forall a b, ip_lines next remote (a ++ b) = ip_lines next remote a ++ ip_lines next remote b.
  Proof. intros. unfold ip_lines. apply flat_map_app. Qed.

  Lemma ip_lines_of_stops : forall rest h payload t ttl,
    (forall x n, In x (h :: rest) -> node_of w (h_from x) = Some n \/ node_of w (h_to x) = Some n -> has_mob n = true) ->
    routed w next (h :: rest) -> nth_error payload 8 = Some ttl -> 1 <= ttl ->
    ip_lines next remote (stops payload t (h :: rest)) =
    expected_lines w t (h :: rest) (GetSource payload) (GetDestination payload) remote ttl.
  Proof.
    induction rest as [|h2 rest IH]; intros h payload t ttl M RT T T1.
    - unfold expected_lines. cbn [List.length Nat.sub Nat.min seq map].
      destruct (Z.ltb_spec ttl (Z.of_nat 1)); [lia|].
      cbn [ForwardSpec.stops]. cbv zeta.
      replace (match IpTouch (h_to h) payload with Some p => [] | None => [] end) with (@nil (Z * obs)) by (destruct (IpTouch (h_to h) payload); reflexivity).
      unfold ip_lines. cbn [flat_map fst snd]. rewrite (proj1 RT). destruct (GetDestination payload =? remote); reflexivity.
    - destruct RT as [R1 R2]. set (t' := t + hop_delay crc fcs tx_time has_mob w payload q uid t h).
      assert (D : hop_delay crc fcs tx_time has_mob w payload q uid t h =
        match c_delay (w_chan w (h_over h)), node_of w (h_from h), node_of w (h_to h) with Some f, Some m, Some n => f m n t | _, _, _ => 0 end)
        by (apply hop_delay_plain; intros n; apply M; left; reflexivity).
      assert (AT : forall r, arrival_at w t (h :: r) = arrival_at w t' r) by (intros r; unfold t'; rewrite D; reflexivity).
      assert (ST : ip_lines next remote (stops payload t (h :: h2 :: rest)) =
        (match IpForward payload with Some p => TraceIpForward remote t' (h_to h) p (h_from h2) | None => TraceIpDrop t' (h_to h) payload DROP_TTL_EXPIRED (h_from h2) end) ++
        ip_lines next remote (match IpForward payload with Some p => stops p t' (h2 :: rest) | None => [] end)).
      { cbn [ForwardSpec.stops]. unfold ip_lines at 1. cbv zeta. cbn [flat_map fst snd]. rewrite R1. reflexivity. }
      rewrite ST. destruct (IpForward_ttl payload ttl T) as [(E & L)|(p' & E & L & T')]; rewrite E.
      + assert (ttl = 1) by lia. subst ttl. unfold expected_lines. cbn [List.length Z.sub Z.to_nat].
        replace (Z.to_nat (1 - 1)) with O by reflexivity. rewrite Nat.min_0_r. cbn [seq map].
        destruct (Z.ltb_spec 1 (Z.of_nat (S (S (List.length rest))))); [|lia].
        unfold expired_at. cbn [firstn nth]. rewrite AT. cbn [arrival_at]. unfold TraceIpDrop, ip_lines. cbn [flat_map app].
        destruct (GetDestination payload =? remote); reflexivity.
      + destruct (IpForward_addresses _ _ E) as [ES ED].
        rewrite (IH h2 p' t' (ttl - 1)); [|intros x n0 Hx; apply M; right; exact Hx|exact R2|exact T'|lia].
        unfold TraceIpForward. rewrite ES, ED. unfold expected_lines.
        replace (Z.to_nat (ttl - 1)) with (S (Z.to_nat (ttl - 1 - 1))) by lia.
        cbn [List.length]. rewrite !Nat.sub_succ, !Nat.sub_0_r. cbn [Nat.min].
        assert (DR : forall k, expired_at w t (h :: h2 :: rest) (GetSource payload) (GetDestination payload) (S k) =
          expired_at w t' (h2 :: rest) (GetSource payload) (GetDestination payload) k).
        { intros k. unfold expired_at. change (firstn (S (S k)) (h :: h2 :: rest)) with (h :: firstn (S k) (h2 :: rest)). rewrite AT. reflexivity. }
        assert (FR : forall k, forwarded_at w t (h :: h2 :: rest) (GetSource payload) (GetDestination payload) (S k) =
          forwarded_at w t' (h2 :: rest) (GetSource payload) (GetDestination payload) k).
        { intros k. unfold forwarded_at. change (firstn (S (S k)) (h :: h2 :: rest)) with (h :: firstn (S k) (h2 :: rest)). rewrite AT. reflexivity. }
        rewrite DR.
        replace (ttl - 1 <? Z.of_nat (S (List.length rest))) with (ttl <? Z.of_nat (S (S (List.length rest))))
          by (destruct (Z.ltb_spec ttl (Z.of_nat (S (S (List.length rest))))), (Z.ltb_spec (ttl - 1) (Z.of_nat (S (List.length rest)))); (reflexivity || lia)).
        rewrite app_assoc. f_equal. destruct (GetDestination payload =? remote); [|reflexivity].
        cbn [seq map app]. rewrite <- seq_shift, map_map. f_equal.
        * unfold forwarded_at. cbn [firstn nth]. rewrite AT. reflexivity.
        * apply map_ext. intros k. symmetry. apply FR.
  Qed.
End Lines.

(** A packet that is sent into a network at rest and forwarded along a path: one line for
    each node between the ends that it gets to, with the time at which it got there; if the
    TTL is smaller than the number of hops, a line "TTL expired" at the node where it is
    used up, and no other. *)
Theorem C98_records : forall (N : Num) crc fcs tx_time has_mob next payload ttl q uid remote (w : world N) h rest,
  nth_error payload 8 = Some ttl -> 1 <= ttl -> 0 <= q < 2 ^ 16 ->
  let touch := fun _ : nat => IpForward in
  let path := h :: rest in
  w_events w = [] -> routed w next path -> passes crc fcs tx_time has_mob w touch q uid payload (w_now w) path ->
  NoDup (map h_from path) ->
  Forall (fun x => d_busy (w_dev w (h_from x)) = false /\ d_q (w_dev w (h_from x)) = []) path ->
  (forall x n, In x path -> node_of w (h_from x) = Some n \/ node_of w (h_to x) = Some n -> has_mob n = true) ->
  exists k w',
    runR crc fcs tx_time has_mob (forward next touch uid) w
      (OSend (h_from h) (mkPkt uid payload) (Mac (addr_of w (h_to h))) q :: repeat ORun k) = Ok w' /\
    w_events w' = [] /\
    ip_lines next remote (w_log w') = ip_lines next remote (w_log w) ++
      expected_lines w (w_now w) path (GetSource payload) (GetDestination payload) remote ttl.
Proof.
  intros N crc fcs tx_time has_mob next payload ttl q uid remote w h rest TT T1 Q touch path EV RT PA ND RD M.
  destruct (forwarding crc fcs tx_time has_mob next touch q uid Q w payload h rest RT PA ND RD EV) as (k & w' & E & EV' & H).
  exists k, w'. split; [exact E|]. split; [exact EV'|].
  rewrite ip_handed, H, ip_app, <- ip_handed. f_equal.
  apply (ip_lines_of_stops crc fcs tx_time has_mob next w q uid remote rest h payload (w_now w) ttl); assumption.
Qed.
Print Assumptions C98_records.

(** How many lines that are: of a packet to the server, [min (hops - 1) (TTL - 1)] about
    forwarding, and one about a drop exactly if the server never gets it. *)
Definition is_drop (l : ip_line) : bool := match l with Dropped _ _ _ _ _ _ => true | _ => false end.
Theorem C98_count : forall (N : Num) (w : world N) t path src dst remote ttl, 1 <= ttl -> path <> [] ->
  let lines := expected_lines w t path src dst remote ttl in
  Z.of_nat (List.length (filter (fun l => negb (is_drop l)) lines)) = (if dst =? remote then Z.min (Z.of_nat (List.length path)) ttl - 1 else 0) /\
  List.length (filter is_drop lines) = (if Z.of_nat (List.length path) <=? ttl then 0%nat else 1%nat).
Proof.
  intros N w t path src dst remote ttl T P lines. unfold lines, expected_lines. rewrite !filter_app, !app_length.
  assert (L : (1 <= List.length path)%nat) by (destruct path; [contradiction|cbn; lia]).
  assert (A : forall s n, filter is_drop (map (forwarded_at w t path src dst) (seq s n)) = []).
  { intros s n. revert s. induction n as [|n IH]; intros s; [reflexivity|]. cbn [seq map filter is_drop forwarded_at]. apply IH. }
  assert (B : forall s n, List.length (filter (fun l => negb (is_drop l)) (map (forwarded_at w t path src dst) (seq s n))) = n).
  { intros s n. revert s. induction n as [|n IH]; intros s; [reflexivity|]. cbn [seq map filter is_drop forwarded_at negb List.length]. rewrite IH. reflexivity. }
  destruct (dst =? remote), (Z.ltb_spec ttl (Z.of_nat (List.length path))), (Z.leb_spec (Z.of_nat (List.length path)) ttl); try lia;
    rewrite ?A, ?B; cbn [filter is_drop expired_at negb List.length]; lia.
Qed.
Print Assumptions C98_count.

(** The line about a drop is written for packets to anywhere, those about forwarding only for
    packets to the server. *)
Theorem C98_filter : forall now d p out remote,
  (TraceIpForward remote now d p out <> [] <-> GetDestination p = remote) /\ (forall reason, List.length (TraceIpDrop now d p reason out) = 1%nat).
Proof.
  intros now d p out remote. unfold TraceIpForward. split; [|reflexivity]. destruct (Z.eqb_spec (GetDestination p) remote) as [E|E]; split; intros H; try assumption; try discriminate; contradiction.
Qed.
Print Assumptions C98_filter.

(** The texts tell the reasons apart. *)
Theorem C98_texts : forall r s, drop_text r = drop_text s -> r = s.
Proof. intros r s H. destruct r, s; (reflexivity || discriminate H). Qed.
Print Assumptions C98_texts.

(** The network of C97 with a TTL of 64: two lines of forwarding, at the two satellites, after
    2 and 22 ms; with a TTL of 2, the first of them and a drop. *)
Definition ex_server : Z := GetDestination (ex_headers 64).
Example ex_C98 : forall ttl, ttl = 64 \/ ttl = 2 -> exists w k w', after true (ex_bent ++ ex_delays) = Ok w /\
  runR ex_crc true ex_tx ex_mob (forward ex_next (fun _ => IpForward) 7) w
    (OSend 0 (mkPkt 7 (datagram (ex_headers ttl) 3 (w_now w))) (Mac (addr_of w 1)) 2048 :: repeat ORun k) = Ok w' /\
  ip_lines ex_next ex_server (w_log w') = ip_lines ex_next ex_server (w_log w) ++
    if ttl =? 64
    then [Forwarded (arrival_at w (w_now w) [mkHop 0 1 1]) 1 2 167837697 167837700; Forwarded (arrival_at w (w_now w) [mkHop 0 1 1; mkHop 2 0 3]) 3 4 167837697 167837700]
    else [Forwarded (arrival_at w (w_now w) [mkHop 0 1 1]) 1 2 167837697 167837700; Dropped (arrival_at w (w_now w) [mkHop 0 1 1; mkHop 2 0 3]) 3 4 167837697 167837700 "TTL expired"].
Proof.
  intros ttl HT. destruct (ex_C97 ttl ltac:(lia)) as (w & E & EV & NW & RT & PA & ND & RD & M & _).
  assert (TT : nth_error (datagram (ex_headers ttl) 3 (w_now w)) 8 = Some ttl) by reflexivity.
  destruct (C98_records NumZ ex_crc true ex_tx ex_mob ex_next (datagram (ex_headers ttl) 3 (w_now w)) ttl 2048 7 ex_server w (mkHop 0 1 1) [mkHop 2 0 3; mkHop 4 1 5]
    TT ltac:(lia) ltac:(lia) EV RT PA ND RD) as (k & w' & ER & EV' & L).
  { exact M. }
  exists w, k, w'. split; [exact E|]. split; [exact ER|]. rewrite L. f_equal. clear - HT.
  assert (S1 : GetSource (datagram (ex_headers ttl) 3 (w_now w)) = 167837697) by reflexivity.
  assert (S2 : GetDestination (datagram (ex_headers ttl) 3 (w_now w)) = 167837700) by reflexivity.
  rewrite S1, S2. destruct HT; subst ttl; reflexivity.
Qed.
