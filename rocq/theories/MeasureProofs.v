(** Measurements of the delay program. *)
Require Import ZArith Reals List Bool Lia Lra Permutation.
Require Import Flocq.Core.Raux.
Require Import Verif.Base Verif.Num Verif.FrameModel Verif.NetModel Verif.NetSpec Verif.NetRunSpec Verif.ReactModel Verif.RelaySpec Verif.RelayProofs
  Verif.ForwardSpec Verif.ForwardProofs Verif.MeasureModel Verif.MeasureSpec.
Import ListNotations.
Local Open Scope Z_scope.

(** ** Headers *)
Lemma be_length : forall n x, length (be n x) = n.
Proof. induction n as [|n IH]; intros x; cbn; [reflexivity|]. rewrite app_length, IH. cbn. lia. Qed.
Lemma unbe_app : forall l b, unbe (l ++ [b]) = unbe l * 256 + b.
Proof. intros l b. unfold unbe. rewrite fold_left_app. reflexivity. Qed.
Lemma unbe_be : forall n x, unbe (be n x) = x mod 256 ^ Z.of_nat n.
Proof.
  induction n as [|n IH]; intros x; [cbn; rewrite Z.mod_1_r; reflexivity|].
  change (be (S n) x) with (be n (x / 256) ++ [x mod 256]). rewrite unbe_app, IH, Nat2Z.inj_succ, Z.pow_succ_r by lia.
  rewrite Z.rem_mul_r by lia. ring.
Qed.
Lemma EchoRx_reads : forall now d seq ts rest, 0 <= ts < 2 ^ 63 ->
  EchoRx now d (seq_ts seq ts ++ rest) = Ok (mkEcho now d (seq mod 2 ^ 32) (now - ts)).
Proof.
  intros now d seq ts rest H. unfold EchoRx, seq_ts. rewrite !app_length, !be_length. cbn [Nat.add Nat.ltb Nat.leb].
  rewrite <- app_assoc. rewrite firstn_app, be_length, Nat.sub_diag, firstn_O, app_nil_r. rewrite (firstn_all2 (be 4 seq)) by (rewrite be_length; lia).
  rewrite skipn_app, be_length, Nat.sub_diag, skipn_O. rewrite (skipn_all2 (be 4 seq)) by (rewrite be_length; lia). cbn [app].
  rewrite firstn_app, be_length, Nat.sub_diag, firstn_O, app_nil_r. rewrite (firstn_all2 (be 8 ts)) by (rewrite be_length; lia).
  rewrite !unbe_be. change (256 ^ Z.of_nat 4) with (2 ^ 32). change (256 ^ Z.of_nat 8) with (2 ^ 64).
  rewrite (Z.mod_small ts) by lia. destruct (Z.ltb_spec ts (2 ^ 63)); [reflexivity|lia].
Qed.

(** ** Forwarding *)
Definition IpTouch (d : nat) (p : list Z) : option (list Z) := IpForward p.
Lemma IpForward_body : forall p p', IpForward p = Some p' -> skipn 28 p' = skipn 28 p.
Proof.
  intros p p' H. unfold IpForward in H. destruct (nth_error p 8) as [ttl|] eqn:E; [|discriminate]. destruct (ttl - 1 <=? 0); [discriminate|]. injection H as <-.
  do 9 (destruct p as [|? p]; [discriminate E|]). reflexivity.
Qed.
Lemma IpForward_ttl : forall p ttl, nth_error p 8 = Some ttl ->
  IpForward p = None /\ ttl <= 1 \/ exists p', IpForward p = Some p' /\ 1 < ttl /\ nth_error p' 8 = Some (ttl - 1).
Proof.
  intros p ttl E. unfold IpForward. rewrite E. destruct (Z.leb_spec (ttl - 1) 0) as [L|L]; [left; split; [reflexivity|lia]|right].
  eexists. split; [reflexivity|]. split; [lia|]. do 9 (destruct p as [|? p]; [discriminate E|]). reflexivity.
Qed.

Section Lines.
  Context {N : Num}.
  Variable crc : list Z -> Z.
  Variable fcs : bool.
  Variable tx_time : Z -> Z -> Z.
  Variable has_mob : nat -> bool.
  Variable next : nat -> option (nat * Z).
  Variable w : world N.
  Variables (q uid : Z).
  Notation stops := (stops crc fcs tx_time has_mob w IpTouch q uid).

  Lemma server_handed : forall server l, server_lines server l = server_lines server (handed l).
  Proof.
    intros server. induction l as [|[t o] l IH]; [reflexivity|]. change (handed ((t, o) :: l)) with (if match o with RxCallback _ _ _ _ _ _ _ => true | _ => false end then (t, o) :: handed l else handed l).
    unfold server_lines in *. destruct o; cbn [flat_map fst snd]; rewrite IH; reflexivity.
  Qed.
  Lemma server_app : forall server a b, server_lines server (a ++ b) = server_lines server a ++ server_lines server b.
  Proof. intros. unfold server_lines. apply flat_map_app. Qed.

  Lemma hop_delay_plain : forall payload t h,
    (forall n, node_of w (h_from h) = Some n \/ node_of w (h_to h) = Some n -> has_mob n = true) ->
    hop_delay crc fcs tx_time has_mob w payload q uid t h =
    match c_delay (w_chan w (h_over h)), node_of w (h_from h), node_of w (h_to h) with Some f, Some m, Some n => f m n t | _, _, _ => 0 end.
  Proof.
    intros payload t h M. unfold hop_delay, delay_to. change (node_of (set_now w t)) with (node_of w).
    destruct (node_of w (h_from h)) as [m|]; [|destruct (c_delay (w_chan w (h_over h))); reflexivity].
    destruct (node_of w (h_to h)) as [n|]; [|destruct (c_delay (w_chan w (h_over h))); reflexivity].
    unfold link_delay. rewrite (M m), (M n) by auto. cbn. destruct (c_delay (w_chan w (h_over h))); reflexivity.
  Qed.

  (** The line of a packet at the end of the path, if its TTL gets it there. *)
  Lemma lines_of_stops : forall rest h payload t ttl now0 seq body,
    (forall x n, In x (h :: rest) -> node_of w (h_from x) = Some n \/ node_of w (h_to x) = Some n -> has_mob n = true) ->
    routed w next (h :: rest) -> nth_error payload 8 = Some ttl -> 1 <= ttl ->
    skipn 28 payload = seq_ts seq now0 ++ body -> 0 <= now0 < 2 ^ 63 ->
    server_lines (h_to (last rest h)) (stops payload t (h :: rest)) =
    if Z.of_nat (length (h :: rest)) <=? ttl
    then [Ok (mkEcho (arrival_at w t (h :: rest)) (h_to (last rest h)) (seq mod 2 ^ 32) (arrival_at w t (h :: rest) - now0))] else [].
  Proof.
    induction rest as [|h2 rest IH]; intros h payload t ttl now0 seq body M RT T T1 B H0.
    - cbn [last stops ForwardSpec.stops arrival_at length]. rewrite <- hop_delay_plain with (payload := payload) by (intros n; apply M; left; reflexivity).
      cbv zeta. destruct (Z.leb_spec (Z.of_nat 1) ttl); [|lia].
      unfold server_lines. cbn [flat_map fst snd]. rewrite Nat.eqb_refl, B, EchoRx_reads by exact H0.
      unfold IpTouch. destruct (IpForward payload); reflexivity.
    - change (last (h2 :: rest) h) with (last (h2 :: rest) h). 
      assert (EL : last (h2 :: rest) h = last rest h2).
      { clear. revert h h2. induction rest as [|x r IHr]; intros h h2; [reflexivity|]. change (last (h2 :: x :: r) h) with (last (x :: r) h). rewrite !IHr. reflexivity. }
      rewrite EL. destruct RT as [R1 R2].
      assert (ND : h_to h <> h_to (last rest h2)).
      { assert (Z0 : next (h_to (last rest h2)) = None).
        { clear - R2. revert h2 R2. induction rest as [|x r IHr]; intros h2 R2; [exact (proj1 R2)|].
          replace (last (x :: r) h2) with (last r x); [apply IHr; exact (proj2 R2)|].
          clear. revert h2 x. induction r as [|y r IHr]; intros; [reflexivity|]. change (last (x :: y :: r) h2) with (last (y :: r) h2). rewrite <- !IHr. reflexivity. }
        intros E. rewrite <- E, R1 in Z0. discriminate. }
      set (t' := t + hop_delay crc fcs tx_time has_mob w payload q uid t h).
      assert (ST : server_lines (h_to (last rest h2)) (stops payload t (h :: h2 :: rest)) =
        (if Nat.eqb (h_to h) (h_to (last rest h2)) then [EchoRx t' (h_to h) (skipn 28 payload)] else []) ++
        server_lines (h_to (last rest h2)) (match IpForward payload with Some p => stops p t' (h2 :: rest) | None => [] end)) by reflexivity.
      rewrite ST. destruct (Nat.eqb_spec (h_to h) (h_to (last rest h2))); [contradiction|]. cbn [app].
      destruct (IpForward_ttl payload ttl T) as [(E & L)|(p' & E & L & T')]; rewrite E.
      + destruct (Z.leb_spec (Z.of_nat (length (h :: h2 :: rest))) ttl); [cbn [length] in *; lia|reflexivity].
      + assert (AT : arrival_at w t (h :: h2 :: rest) = arrival_at w t' (h2 :: rest)).
        { unfold t'. rewrite hop_delay_plain by (intros n0; apply M; left; reflexivity). reflexivity. }
        rewrite AT.
        rewrite (IH h2 p' t' (ttl - 1) now0 seq body); [|intros x n0 Hx; apply M; right; exact Hx|exact R2|exact T'|lia|rewrite (IpForward_body _ _ E); exact B|exact H0].
        replace (Z.of_nat (length (h2 :: rest)) <=? ttl - 1) with (Z.of_nat (length (h :: h2 :: rest)) <=? ttl); [reflexivity|].
        cbn [length]. destruct (Z.leb_spec (Z.of_nat (S (S (length rest)))) ttl), (Z.leb_spec (Z.of_nat (S (length rest))) (ttl - 1)); (reflexivity || lia).
  Qed.
End Lines.

(** ** Numbers of packets *)
Section Packets.
  Variable rnd : R -> R.
  Hypothesis good : divides_well rnd.
  Local Open Scope R_scope.

  Lemma rnd_pos : forall x, 0 <= x -> 0 <= rnd x.
  Proof. intros x H. destruct good as (G1 & G2 & _). pose proof (G1 0 x H) as L. change 0 with (IZR 0) in L at 1. rewrite (G2 0%Z) in L by lia. exact L. Qed.
  Lemma count_bounds : forall x n, 0 <= x -> Ztrunc (rnd x) = n -> (n < 2 ^ 32)%Z ->
    (0 <= n)%Z /\ IZR n - 1 < x < IZR n + 1 /\ ((1 <= n)%Z -> IZR n <= x * (1 + / 2 ^ 40)).
  Proof.
    intros x n H E L. destruct good as (G1 & G2 & G3). pose proof (rnd_pos x H) as P. rewrite Ztrunc_floor in E by exact P.
    pose proof (Zfloor_lb (rnd x)) as B1. pose proof (Zfloor_ub (rnd x)) as B2. rewrite E in B1, B2.
    assert (N0 : (0 <= n)%Z) by (rewrite <- E; apply Zfloor_lub; exact P). split; [exact N0|].
    assert (N1 : (1 <= n)%Z -> IZR n - 1 < x).
    { intros N1. apply Rnot_le_lt. intros C. rewrite <- minus_IZR in C. apply G1 in C. rewrite G2 in C by lia. rewrite minus_IZR in C. lra. }
    split.
    - split.
      + destruct (Z.eq_dec n 0) as [->|]; [lra|apply N1; lia].
      + apply Rnot_le_lt. intros C. rewrite <- plus_IZR in C. apply G1 in C. rewrite G2 in C by lia. rewrite plus_IZR in C. lra.
    - intros K. apply IZR_le in K as K'. destruct (Rle_or_lt (/ 2) x) as [X|X]; [apply Rle_trans with (1 := B1), G3, X|].
      exfalso. pose proof (G1 x (/ 2) ltac:(lra)) as C. pose proof (G3 (/ 2) ltac:(lra)) as D. lra.
  Qed.

  (** All packets are sent before the program stops. *)
  Lemma sent_in_time : forall seconds d i n k, truncates seconds -> 0 <= d -> 2 / 10 ^ 9 <= i -> Ztrunc (rnd (d / i)) = n -> (n < 2 ^ 32)%Z ->
    (0 <= k < n)%Z -> (send_time seconds i k < stop_time seconds d)%Z.
  Proof.
    intros seconds d i n k S D I E L K. assert (IP : 0 < i) by lra.
    assert (Q : 0 <= d / i) by (apply Rmult_le_pos; [exact D|left; apply Rinv_0_lt_compat; exact IP]).
    destruct (count_bounds (d / i) n Q E L) as (_ & _ & B). specialize (B ltac:(lia)).
    assert (DI : d / i * i = d) by (field; lra).
    destruct (S i ltac:(lra)) as [SI _]. destruct (S d D) as [_ SD].
    unfold send_time, stop_time. apply lt_IZR. rewrite mult_IZR.
    assert (KN : IZR k <= IZR n - 1) by (rewrite <- minus_IZR; apply IZR_le; lia). assert (K0 : 0 <= IZR k) by (apply IZR_le; lia).
    assert (NB : IZR n <= 2 ^ 32). { apply Rle_trans with (IZR (2 ^ 32)); [apply IZR_le; lia|]. right. rewrite pow_IZR. reflexivity. }
    assert (A1 : IZR k * IZR (seconds i) <= (IZR n - 1) * (i * 10 ^ 9)).
    { apply Rle_trans with (IZR k * (i * 10 ^ 9)); [apply Rmult_le_compat_l; assumption|apply Rmult_le_compat_r; lra]. }
    set (x := d / i) in *. clearbody x.
    assert (A2 : IZR n - / 2 <= x).
    { assert (X : x <= IZR n + 1). { clear - E L good Q. destruct (count_bounds x n Q E L) as (_ & [_ X] & _). lra. }
      assert (x * / 2 ^ 40 <= / 2). { apply Rle_trans with ((2 ^ 32 + 1) * / 2 ^ 40); [apply Rmult_le_compat_r; lra|lra]. } lra. }
    assert (A3 : (IZR n - / 2) * i <= d). { rewrite <- DI. apply Rmult_le_compat_r; lra. }
    assert (A4 : (IZR n - 1) * (i * 10 ^ 9) <= d * 10 ^ 9 - 1).
    { replace ((IZR n - 1) * (i * 10 ^ 9)) with ((IZR n - / 2) * i * 10 ^ 9 - i * 10 ^ 9 / 2) by field.
      assert ((IZR n - / 2) * i * 10 ^ 9 <= d * 10 ^ 9) by (apply Rmult_le_compat_r; lra). lra. }
    lra.
  Qed.
End Packets.
