(** Captures: what the streams of a file make of the firings. *)
Require Import ZArith List Bool String Lia.
Require Import Verif.Base Verif.Num Verif.FrameModel Verif.NetModel Verif.NetSpec Verif.NetSteps Verif.NetInv
  Verif.TraceModel Verif.TraceSpec Verif.TraceProofs.
Import ListNotations.
Local Open Scope Z_scope.

Definition mem (j : nat) (W : list nat) : bool := existsb (Nat.eqb j) W.
Lemma mem_In : forall j W, mem j W = true <-> In j W.
Proof.
  intros. unfold mem. rewrite existsb_exists. split.
  - intros (x & I & E). apply Nat.eqb_eq in E as ->. exact I.
  - intros I. exists j. split; [exact I|apply Nat.eqb_refl].
Qed.

Lemma overwrite_end : forall c data, overwrite c (List.length c) data = c ++ data.
Proof.
  intros. unfold overwrite. rewrite Nat.sub_diag. cbn [repeat]. rewrite app_nil_r, firstn_all, skipn_all2 by lia.
  rewrite app_nil_r. reflexivity.
Qed.
Lemma overwrite_again : forall c data, overwrite (c ++ data) (List.length c) data = c ++ data.
Proof.
  intros. unfold overwrite. rewrite app_length. replace (_ - _)%nat with O by lia. cbn [repeat].
  rewrite app_nil_r, firstn_app, Nat.sub_diag, firstn_all, app_nil_r. cbn [firstn].
  rewrite skipn_all2 by (rewrite app_length; lia). rewrite app_nil_r. reflexivity.
Qed.

(** ** Who writes to file f: the streams in W, and of the program's streams at most
    the [kx]-th is one of them. *)
Record writers (f : string) (W : list nat) (kx : option nat) (tr : tracing) : Prop := mkWriters {
  wr_own : forall j, In j W -> (j < t_count tr)%nat /\ fst (t_stream tr j) = f;
  wr_other : forall j, (j < t_count tr)%nat -> ~ In j W -> fst (t_stream tr j) <> f;
  wr_sinks : forall k, In k (t_sinks tr) -> (k_stream k < t_count tr)%nat;
  wr_user : forall k i, nth_error (t_user tr) k = Some i -> (i < t_count tr)%nat /\ (In i W -> Some k = kx)
}.

(** Changes that do not concern the file. *)
Inductive elsewhere (f : string) (W : list nat) : tracing -> tracing -> Prop :=
| e_refl : forall tr, elsewhere f W tr tr
| e_open : forall tr g, g <> f -> elsewhere f W tr (open_file tr g)
| e_write : forall tr i data, (i < t_count tr)%nat -> ~ In i W -> elsewhere f W tr (write tr i data)
| e_connect : forall tr k, (k_stream k < t_count tr)%nat -> ~ In (k_stream k) W -> elsewhere f W tr (connect tr k)
| e_user : forall tr i, (i < t_count tr)%nat -> ~ In i W ->
    elsewhere f W tr (mkTracing (t_file tr) (t_stream tr) (t_count tr) (t_sinks tr) (t_user tr ++ [i]))
| e_trans : forall a b c, elsewhere f W a b -> elsewhere f W b c -> elsewhere f W a c.

(** The streams in W, the file's contents, and the sinks of W by device and source. *)
Definition script (W : list nat) (tr : tracing) (d : nat) (s : source) : list (nat * (Z -> pkt -> list Z)) :=
  map (fun k => (k_stream k, k_text k))
      (filter (fun k => Nat.eqb (k_dev k) d && source_eqb (k_source k) s && mem (k_stream k) W) (t_sinks tr)).

Lemma write_count : forall tr i data, t_count (write tr i data) = t_count tr.
Proof. intros. unfold write. destruct (t_stream tr i). reflexivity. Qed.
Lemma write_sinks : forall tr i data, t_sinks (write tr i data) = t_sinks tr.
Proof. intros. unfold write. destruct (t_stream tr i). reflexivity. Qed.
Lemma write_user : forall tr i data, t_user (write tr i data) = t_user tr.
Proof. intros. unfold write. destruct (t_stream tr i). reflexivity. Qed.
Lemma write_name : forall tr i data j, fst (t_stream (write tr i data) j) = fst (t_stream tr j).
Proof.
  intros. unfold write. destruct (t_stream tr i) as [g pos] eqn:E. cbn. unfold upd.
  destruct (Nat.eqb_spec j i) as [->|]; [rewrite E|]; reflexivity.
Qed.
Lemma write_stream_other : forall tr i data j, j <> i -> t_stream (write tr i data) j = t_stream tr j.
Proof. intros. unfold write. destruct (t_stream tr i). cbn. apply upd_other. assumption. Qed.
Lemma write_file_other : forall tr i data f, fst (t_stream tr i) <> f -> t_file (write tr i data) f = t_file tr f.
Proof.
  intros tr i data f H. unfold write. destruct (t_stream tr i) as [g pos]. cbn in *. unfold upd_file.
  destruct (String.eqb_spec f g); [congruence|reflexivity].
Qed.
Lemma write_own : forall tr i data f pos old, t_stream tr i = (f, pos) -> t_file tr f = Some old ->
  t_file (write tr i data) f = Some (overwrite old pos data) /\ t_stream (write tr i data) i = (f, (pos + List.length data)%nat).
Proof.
  intros tr i data f pos old S F. unfold write. rewrite S, F. cbn. unfold upd_file, upd.
  rewrite String.eqb_refl, Nat.eqb_refl. auto.
Qed.

Lemma write_writers : forall f W kx tr i data, writers f W kx tr -> writers f W kx (write tr i data).
Proof.
  intros f W kx tr i data [A B C D]. split.
  - intros j I. rewrite write_count, write_name. auto.
  - intros j. rewrite write_count, write_name. auto.
  - intros k. rewrite write_count, write_sinks. auto.
  - intros k j. rewrite write_count, write_user. auto.
Qed.

Lemma elsewhere_keeps : forall f W tr tr', elsewhere f W tr tr' -> forall kx, writers f W kx tr ->
  writers f W kx tr' /\ t_file tr' f = t_file tr f /\ (forall j, In j W -> t_stream tr' j = t_stream tr j) /\
  (forall d s, script W tr' d s = script W tr d s) /\ (t_count tr <= t_count tr')%nat.
Proof.
  induction 1; intros kx Hw.
  - auto 10.
  - destruct Hw as [A B C D]. split; [split|split; [|split; [|split]]]; cbn.
    + intros j I. destruct (A j I) as [L E]. split; [lia|]. rewrite upd_other by lia. exact E.
    + intros j L I. unfold upd. destruct (Nat.eqb_spec j (t_count tr)); [exact H|]. apply B; [lia|exact I].
    + intros k I. specialize (C k I). lia.
    + intros k i E. destruct (D k i E) as [L I]. split; [lia|exact I].
    + unfold upd_file. destruct (String.eqb_spec f g); [congruence|reflexivity].
    + intros j I. apply upd_other. destruct (A j I). lia.
    + reflexivity.
    + lia.
  - split; [apply write_writers; exact Hw|]. split; [apply write_file_other, (wr_other _ _ _ _ Hw); assumption|].
    split; [intros j I; apply write_stream_other; intros ->; contradiction|].
    split; [intros d s; unfold script; rewrite write_sinks; reflexivity|rewrite write_count; lia].
  - destruct Hw as [A B C D]. split; [split; [exact A|exact B| |exact D]|].
    + intros k'. cbn. rewrite in_app_iff. intros [I|[<-|[]]]; [auto|assumption].
    + split; [reflexivity|]. split; [reflexivity|]. split; [|cbn; lia]. intros d s. unfold script. cbn.
      rewrite filter_app. cbn. destruct (mem (k_stream k) W) eqn:M; [apply mem_In in M; contradiction|].
      rewrite andb_false_r, app_nil_r. reflexivity.
  - destruct Hw as [A B C D]. split; [split; [exact A|exact B|exact C|]|auto].
    cbn. intros k j E. destruct (Nat.lt_ge_cases k (List.length (t_user tr))) as [L|L].
    + rewrite nth_error_app1 in E by assumption. auto.
    + rewrite nth_error_app2 in E by assumption. destruct (k - _)%nat as [|[|m]]; cbn in E; try discriminate.
      injection E as <-. split; [assumption|contradiction].
  - destruct (IHelsewhere1 kx Hw) as (W1 & F1 & S1 & K1 & C1). destruct (IHelsewhere2 kx W1) as (W2 & F2 & S2 & K2 & C2).
    split; [exact W2|]. split; [congruence|]. split; [intros j I; rewrite S2, S1 by assumption; reflexivity|].
    split; [intros; rewrite K2, K1; reflexivity|lia].
Qed.

(** ** Dispatching *)
Section Dispatch.
  Variable f : string.
  Variable W : list nat.
  Variable kx : option nat.

  (** Sinks that do not write to the file. *)
  Definition call (x : Z * (nat * source * pkt)) (tr : tracing) (k : sink) : tracing :=
    if hears_firing k (snd x) then write tr (k_stream k) (k_text k (fst x) (snd (snd x))) else tr.

  Lemma call_writers : forall x tr k, writers f W kx tr -> writers f W kx (call x tr k) /\ t_sinks (call x tr k) = t_sinks tr.
  Proof.
    intros x tr k H. unfold call. destruct (hears_firing k (snd x)); [|auto].
    split; [apply write_writers; exact H|apply write_sinks].
  Qed.

  Definition relevant (x : Z * (nat * source * pkt)) (k : sink) : bool := hears_firing k (snd x) && mem (k_stream k) W.

  Lemma call_irrelevant : forall x tr k, writers f W kx tr -> (k_stream k < t_count tr)%nat -> relevant x k = false ->
    t_file (call x tr k) f = t_file tr f /\ (forall j, In j W -> t_stream (call x tr k) j = t_stream tr j).
  Proof.
    intros x tr k H L R. unfold call. unfold relevant in R. destruct (hears_firing k (snd x)); [|auto].
    cbn in R. assert (M : ~ In (k_stream k) W) by (rewrite <- mem_In, R; discriminate).
    split; [apply write_file_other, (wr_other _ _ _ _ H); assumption|].
    intros j I. apply write_stream_other. intros ->. contradiction.
  Qed.

  (** Each stream of the file writes the same data once. *)
  Definition midway (c data : list Z) (rem : list nat) (tr : tracing) : Prop :=
    (forall j, In j rem -> t_stream tr j = (f, List.length c)) /\
    (forall j, In j W -> ~ In j rem -> t_stream tr j = (f, List.length (c ++ data))) /\
    ((t_file tr f = Some c /\ incl W rem) \/ t_file tr f = Some (c ++ data)).

  Lemma calls_same : forall x c data sinks tr,
    writers f W kx tr -> (forall k, In k sinks -> (k_stream k < t_count tr)%nat) ->
    (forall k, In k sinks -> relevant x k = true -> k_text k (fst x) (snd (snd x)) = data) ->
    NoDup (map k_stream (filter (relevant x) sinks)) ->
    midway c data (map k_stream (filter (relevant x) sinks)) tr ->
    midway c data [] (fold_left (call x) sinks tr) /\ writers f W kx (fold_left (call x) sinks tr).
  Proof.
    intros x c data. induction sinks as [|k r IH]; intros tr Hw L T ND M; [auto|]. cbn [fold_left filter] in *.
    destruct (call_writers x tr k Hw) as [Hw1 _].
    assert (C1 : t_count (call x tr k) = t_count tr).
    { unfold call. destruct (hears_firing _ _); [apply write_count|reflexivity]. }
    apply IH; [exact Hw1|intros k' I; rewrite C1; apply L; right; exact I|intros k' I; apply T; right; exact I| |].
    - destruct (relevant x k); [inversion ND; assumption|exact ND].
    - destruct (relevant x k) eqn:R.
      + cbn [map] in M, ND. inversion ND as [|? ? NI ND']. subst. destruct M as (A & B & F).
        unfold relevant in R. apply andb_true_iff in R as [Rh Rw].
        assert (S := A (k_stream k) (or_introl eq_refl)).
        assert (Tx := T k (or_introl eq_refl)). unfold relevant in Tx. rewrite Rh, Rw in Tx. specialize (Tx eq_refl).
        unfold call. rewrite Rh, Tx.
        assert (X : exists old, t_file tr f = Some old /\ overwrite old (List.length c) data = c ++ data).
        { destruct F as [[F _]|F]; rewrite F; eexists; (split; [reflexivity|]); [apply overwrite_end|apply overwrite_again]. }
        destruct X as (old & Fo & Eo). destruct (write_own tr (k_stream k) data f _ old S Fo) as [F2 S2]. rewrite Eo in F2.
        split; [|split].
        * intros j I. rewrite write_stream_other; [apply A; right; exact I|]. intros ->. contradiction.
        * intros j I NJ. destruct (Nat.eq_dec j (k_stream k)) as [->|n]; [rewrite S2, app_length; reflexivity|].
          rewrite write_stream_other by exact n. apply B; [exact I|]. intros [E|E]; [congruence|contradiction].
        * right. exact F2.
      + destruct M as (A & B & F).
        destruct (call_irrelevant x tr k Hw (L k (or_introl eq_refl)) R) as [F1 S1].
        assert (In_W : forall j, In j (map k_stream (filter (relevant x) r)) -> In j W).
        { intros j I. apply in_map_iff in I as (k' & <- & I). apply filter_In in I as [_ I].
          unfold relevant in I. apply andb_true_iff in I as [_ I]. apply mem_In. exact I. }
        split; [|split].
        * intros j I. rewrite S1 by auto. apply A. exact I.
        * intros j I NJ. rewrite S1 by exact I. auto.
        * rewrite F1. exact F.
  Qed.

  Lemma calls_none : forall x sinks tr,
    writers f W kx tr -> (forall k, In k sinks -> (k_stream k < t_count tr)%nat) ->
    filter (relevant x) sinks = [] ->
    writers f W kx (fold_left (call x) sinks tr) /\ t_file (fold_left (call x) sinks tr) f = t_file tr f /\
    (forall j, In j W -> t_stream (fold_left (call x) sinks tr) j = t_stream tr j).
  Proof.
    intros x. induction sinks as [|k r IH]; intros tr Hw L E; [auto|]. cbn [fold_left filter] in *.
    destruct (relevant x k) eqn:R; [discriminate|].
    destruct (call_writers x tr k Hw) as [Hw1 _].
    assert (C1 : t_count (call x tr k) = t_count tr).
    { unfold call. destruct (hears_firing _ _); [apply write_count|reflexivity]. }
    destruct (call_irrelevant x tr k Hw (L k (or_introl eq_refl)) R) as [F1 S1].
    destruct (IH (call x tr k) Hw1) as (A & B & C); [intros k' I; rewrite C1; apply L; right; exact I|exact E|].
    split; [exact A|]. split; [congruence|]. intros j I. rewrite C, S1 by exact I. reflexivity.
  Qed.

  (** A single stream writes everything it is told to. *)
  Lemma calls_single : forall x i, W = [i] -> forall sinks tr c,
    writers f W kx tr -> (forall k, In k sinks -> (k_stream k < t_count tr)%nat) ->
    t_stream tr i = (f, List.length c) -> t_file tr f = Some c ->
    let out := flat_map (fun k => k_text k (fst x) (snd (snd x))) (filter (relevant x) sinks) in
    writers f W kx (fold_left (call x) sinks tr) /\ t_file (fold_left (call x) sinks tr) f = Some (c ++ out) /\
    t_stream (fold_left (call x) sinks tr) i = (f, List.length (c ++ out)).
  Proof.
    intros x i EW. induction sinks as [|k r IH]; intros tr c Hw L S F; [cbn; rewrite app_nil_r; auto|]. cbn [fold_left filter].
    destruct (call_writers x tr k Hw) as [Hw1 _].
    assert (C1 : t_count (call x tr k) = t_count tr).
    { unfold call. destruct (hears_firing _ _); [apply write_count|reflexivity]. }
    assert (L1 : forall k', In k' r -> (k_stream k' < t_count (call x tr k))%nat) by (intros k' I; rewrite C1; apply L; right; exact I).
    destruct (relevant x k) eqn:R.
    - unfold relevant in R. apply andb_true_iff in R as [Rh Rw]. apply mem_In in Rw. rewrite EW in Rw. destruct Rw as [Rw|[]].
      assert (X : call x tr k = write tr i (k_text k (fst x) (snd (snd x)))) by (unfold call; rewrite Rh, Rw; reflexivity).
      destruct (write_own tr i (k_text k (fst x) (snd (snd x))) f _ c S F) as [F2 S2]. rewrite overwrite_end in F2. rewrite <- X in F2, S2.
      rewrite <- app_length in S2. destruct (IH _ _ Hw1 L1 S2 F2) as (A & B & C).
      cbn [flat_map]. rewrite app_assoc. auto.
    - destruct (call_irrelevant x tr k Hw (L k (or_introl eq_refl)) R) as [F1 S1].
      apply IH; [exact Hw1|exact L1| |rewrite F1; exact F]. rewrite S1 by (rewrite EW; left; reflexivity). exact S.
  Qed.

  Lemma script_relevant : forall tr t d s p,
    filter (relevant (t, (d, s, p))) (t_sinks tr) =
    filter (fun k => Nat.eqb (k_dev k) d && source_eqb (k_source k) s && mem (k_stream k) W) (t_sinks tr).
  Proof. reflexivity. Qed.

  Lemma dispatch_calls : forall tr x, dispatch tr x = fold_left (call x) (t_sinks tr) tr.
  Proof. reflexivity. Qed.
  Lemma calls_sinks : forall x sinks tr, t_sinks (fold_left (call x) sinks tr) = t_sinks tr.
  Proof.
    intros x. induction sinks as [|k r IH]; intros tr; [reflexivity|]. cbn. rewrite IH. unfold call.
    destruct (hears_firing _ _); [apply write_sinks|reflexivity].
  Qed.
  Lemma dispatch_script : forall tr x d s, script W (dispatch tr x) d s = script W tr d s.
  Proof. intros. unfold script. rewrite dispatch_calls, calls_sinks. reflexivity. Qed.
End Dispatch.

(** ** Two kinds of captures: several streams that all write the same, and one stream
    that is given everything. *)
Section Kinds.
  Variable f : string.
  Definition texts (K : nat -> source -> option (Z -> pkt -> list Z)) (hooked : nat -> bool) (d : nat) (s : source) :=
    if of_queue s && negb (hooked d) then None else K d s.
  Definition same_out K hooked (x : Z * (nat * source * pkt)) : list Z :=
    let '(t, (d, s, p)) := x in match texts K hooked d s with Some g => g t p | None => [] end.
  Definition same (W : list nat) K (hooked : nat -> bool) (tr : tracing) (c : list Z) : Prop :=
    W <> [] /\ NoDup W /\ writers f W None tr /\ t_file tr f = Some c /\
    (forall j, In j W -> t_stream tr j = (f, List.length c)) /\
    (forall d s, script W tr d s = match texts K hooked d s with Some g => map (fun j => (j, g)) W | None => [] end).

  Lemma same_dispatch : forall W K h tr c x, same W K h tr c -> same W K h (dispatch tr x) (c ++ same_out K h x).
  Proof.
    intros W K h tr c [t [[d s] p]] (NE & ND & Hw & F & S & SC). assert (X := SC d s). unfold script in X.
    assert (SC' : forall d0 s0, script W (dispatch tr (t, (d, s, p))) d0 s0 =
              match texts K h d0 s0 with Some g => map (fun j => (j, g)) W | None => [] end)
      by (intros; rewrite dispatch_script; apply SC).
    unfold same. cbn [same_out]. rewrite dispatch_calls in *. destruct (texts K h d s) as [g|].
    - assert (RS : map k_stream (filter (relevant W (t, (d, s, p))) (t_sinks tr)) = W).
      { rewrite script_relevant. apply (f_equal (map fst)) in X. rewrite !map_map in X. cbn in X.
        rewrite map_id in X. exact X. }
      destruct (calls_same f W None (t, (d, s, p)) c (g t p) (t_sinks tr) tr Hw (wr_sinks _ _ _ _ Hw)) as [M Hw1].
      + intros k I R. assert (I2 : In (k_stream k, k_text k) (map (fun j => (j, g)) W)).
        { rewrite <- X. apply in_map_iff. exists k. split; [reflexivity|]. apply filter_In. split; [exact I|exact R]. }
        apply in_map_iff in I2 as (j & E & _). injection E as _ <-. reflexivity.
      + rewrite RS. exact ND.
      + rewrite RS. split; [exact S|]. split; [intros; contradiction|]. left. split; [exact F|]. apply incl_refl.
      + destruct M as (_ & B & [[_ I]|F1]).
        { destruct W as [|j0 W0]; [contradiction|]. destruct (I j0 (or_introl eq_refl)). }
        split; [exact NE|]. split; [exact ND|]. split; [exact Hw1|]. split; [exact F1|].
        split; [intros j I; apply B; [exact I|intros []]|]. exact SC'.
    - apply map_eq_nil in X. rewrite app_nil_r.
      destruct (calls_none f W None (t, (d, s, p)) (t_sinks tr) tr Hw (wr_sinks _ _ _ _ Hw) X) as (Hw1 & F1 & S1).
      split; [exact NE|]. split; [exact ND|]. split; [exact Hw1|]. split; [congruence|].
      split; [intros j I; rewrite S1 by exact I; auto|exact SC'].
  Qed.

  Definition all_texts (L : nat -> source -> list (Z -> pkt -> list Z)) (hooked : nat -> bool) (d : nat) (s : source) :=
    if of_queue s && negb (hooked d) then [] else L d s.
  Definition all_out L hooked (x : Z * (nat * source * pkt)) : list Z :=
    let '(t, (d, s, p)) := x in flat_map (fun g => g t p) (all_texts L hooked d s).
  Definition all (i : nat) (k : nat) L (hooked : nat -> bool) (tr : tracing) (c : list Z) : Prop :=
    writers f [i] (Some k) tr /\ t_file tr f = Some c /\ t_stream tr i = (f, List.length c) /\
    (forall d s, script [i] tr d s = map (pair i) (all_texts L hooked d s)).

  Lemma all_dispatch : forall i k L h tr c x, all i k L h tr c -> all i k L h (dispatch tr x) (c ++ all_out L h x).
  Proof.
    intros i k L h tr c [t [[d s] p]] (Hw & F & S & SC). assert (X := SC d s). unfold script in X.
    assert (SC' : forall d0 s0, script [i] (dispatch tr (t, (d, s, p))) d0 s0 = map (pair i) (all_texts L h d0 s0))
      by (intros; rewrite dispatch_script; apply SC).
    unfold all. cbn [all_out]. rewrite dispatch_calls in *.
    destruct (calls_single f [i] (Some k) (t, (d, s, p)) i eq_refl (t_sinks tr) tr c Hw (wr_sinks _ _ _ _ Hw) S F) as (Hw1 & F1 & S1).
    cbn [fst snd] in F1, S1. rewrite script_relevant in F1, S1.
    assert (E : flat_map (fun k0 : sink => k_text k0 t p)
       (filter (fun k0 : sink => Nat.eqb (k_dev k0) d && source_eqb (k_source k0) s && mem (k_stream k0) [i]) (t_sinks tr)) =
       flat_map (fun g => g t p) (all_texts L h d s)).
    { apply (f_equal (map snd)) in X. rewrite !map_map in X. cbn in X. rewrite map_id in X. rewrite <- X.
      rewrite !flat_map_concat_map, map_map. reflexivity. }
    rewrite E in F1, S1. auto.
  Qed.

  (** A new queue. *)
  Lemma filter_filter : forall A (P Q : A -> bool) l, filter P (filter Q l) = filter (fun x => Q x && P x) l.
  Proof.
    intros A P Q. induction l as [|a l IH]; [reflexivity|]. cbn. destruct (Q a); cbn; [destruct (P a); rewrite IH; reflexivity|exact IH].
  Qed.
  Lemma forget_writers : forall (N : Num) W kx (o : op N) tr, writers f W kx tr -> writers f W kx (forget_queue o tr).
  Proof.
    intros N W kx o tr [A B C D]. destruct o; try (split; assumption). split; try assumption.
    cbn. intros k I. apply filter_In in I as [I _]. auto.
  Qed.
  Lemma forget_script : forall (N : Num) W (o : op N) tr d s, script W (forget_queue o tr) d s =
    match o with OSetQueue d' _ => if Nat.eqb d d' && of_queue s then [] else script W tr d s | _ => script W tr d s end.
  Proof.
    intros N W o tr d s. destruct o; try reflexivity. unfold script. cbn. rewrite filter_filter.
    destruct (Nat.eqb d d0 && of_queue s) eqn:E.
    - apply andb_true_iff in E as [E1 E2]. apply Nat.eqb_eq in E1 as <-.
      replace (filter _ (t_sinks tr)) with (@nil sink); [reflexivity|]. symmetry.
      induction (t_sinks tr) as [|k r IH]; [reflexivity|]. cbn. rewrite IH.
      destruct (Nat.eqb_spec (k_dev k) d) as [Ed|]; [|rewrite andb_false_r; reflexivity].
      destruct (k_source k) eqn:Ek; destruct s; try discriminate; cbn; reflexivity.
    - f_equal. apply filter_ext. intros k.
      destruct (Nat.eqb_spec (k_dev k) d) as [Ed|]; [|cbn; rewrite andb_false_r; reflexivity]. rewrite Ed.
      destruct (source_eqb (k_source k) s) eqn:Es; [|cbn; rewrite andb_false_r; reflexivity].
      assert (Ek : k_source k = s) by (destruct (k_source k), s; try discriminate; reflexivity).
      rewrite Ek, E. reflexivity.
  Qed.
  Lemma same_forget : forall (N : Num) W K h (o : op N) tr c, same W K h tr c -> same W K (hooked_after o h) (forget_queue o tr) c.
  Proof.
    intros N W K h o tr c (NE & ND & Hw & F & S & SC). split; [exact NE|]. split; [exact ND|].
    split; [apply forget_writers; exact Hw|]. split; [destruct o; exact F|]. split; [destruct o; exact S|].
    intros d s. rewrite forget_script. destruct o; try apply SC. cbn [hooked_after]. rewrite SC. unfold texts, upd.
    destruct (Nat.eqb d d0); [|reflexivity]. destruct (of_queue s); cbn [andb negb]; [|reflexivity]. reflexivity.
  Qed.
  Lemma all_forget : forall (N : Num) i k L h (o : op N) tr c, all i k L h tr c -> all i k L (hooked_after o h) (forget_queue o tr) c.
  Proof.
    intros N i k L h o tr c (Hw & F & S & SC). split; [apply forget_writers; exact Hw|]. split; [destruct o; exact F|].
    split; [destruct o; exact S|]. intros d s. rewrite forget_script. destruct o; try apply SC. cbn [hooked_after]. rewrite SC.
    unfold all_texts, upd. destruct (Nat.eqb d d0); [|reflexivity]. destruct (of_queue s); cbn [andb negb]; [|reflexivity]. reflexivity.
  Qed.

  Lemma same_elsewhere : forall W K h tr tr' c, same W K h tr c -> elsewhere f W tr tr' -> same W K h tr' c.
  Proof.
    intros W K h tr tr' c (NE & ND & Hw & F & S & SC) E. destruct (elsewhere_keeps _ _ _ _ E _ Hw) as (Hw1 & F1 & S1 & K1 & _).
    split; [exact NE|]. split; [exact ND|]. split; [exact Hw1|]. split; [congruence|].
    split; [intros j I; rewrite S1 by exact I; auto|]. intros. rewrite K1. apply SC.
  Qed.
  Lemma all_elsewhere : forall i k L h tr tr' c, all i k L h tr c -> elsewhere f [i] tr tr' -> all i k L h tr' c.
  Proof.
    intros i k L h tr tr' c (Hw & F & S & SC) E. destruct (elsewhere_keeps _ _ _ _ E _ Hw) as (Hw1 & F1 & S1 & K1 & _).
    split; [exact Hw1|]. split; [congruence|]. split; [rewrite S1 by (left; reflexivity); exact S|]. intros. rewrite K1. apply SC.
  Qed.
End Kinds.
