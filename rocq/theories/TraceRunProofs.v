(** Captures: executions with tracing. *)
Require Import ZArith List Bool String Lia.
Require Import Verif.Base Verif.Num Verif.FrameModel Verif.NetModel Verif.NetSpec Verif.NetSteps Verif.NetInv
  Verif.TraceModel Verif.TraceSpec Verif.TraceProofs Verif.TraceFileProofs.
Import ListNotations.
Local Open Scope Z_scope.

Section Runs.
  Context {N : Num}.
  Variable crc : list Z -> Z.
  Variable fcs : bool.
  Variable tx_time : Z -> Z -> Z.
  Variable has_mob : nat -> bool.
  Variable pcap_header : list Z.
  Variable pcap_record : Z -> pkt -> list Z.
  Variable ascii_line : mark -> option path -> Z -> pkt -> list Z.
  Variable pcap_name ascii_name : string -> nat -> nat -> string.
  Notation trace_step := (@trace_step N crc fcs tx_time has_mob pcap_header pcap_record ascii_line pcap_name ascii_name).
  Notation trace_run := (@trace_run N crc fcs tx_time has_mob pcap_header pcap_record ascii_line pcap_name ascii_name).
  Notation EnablePcap := (@EnablePcap N pcap_header pcap_record pcap_name).
  Notation EnableAscii := (@EnableAscii N ascii_line ascii_name).
  Notation avoids := (@avoids N pcap_name ascii_name).
  Notation history := (history crc fcs).
  Implicit Type w : world N.

  (** ** Operations on other files *)
  Lemma fresh_stream : forall (f : string) W kx tr, writers f W kx tr -> ~ In (t_count tr) W.
  Proof. intros f W kx tr H I. apply (wr_own _ _ _ _ H) in I as [I _]. lia. Qed.

  Lemma pcap_elsewhere : forall f W kx w tr prefix d (explicit : bool) tr', writers f W kx tr ->
    (if explicit then prefix <> f else forall n, pcap_name prefix n d <> f) ->
    pcap_hook pcap_header pcap_record pcap_name w tr prefix d explicit = Ok tr' -> elsewhere f W tr tr'.
  Proof.
    intros f W kx w tr prefix d explicit tr' Hw A H. unfold pcap_hook in H. apply bind_ok in H as (g & G & H).
    assert (g <> f).
    { unfold file_name in G. destruct explicit; [injection G as <-; exact A|].
      destruct (String.eqb _ _); [discriminate|]. destruct (node_of w d); [|discriminate]. injection G as <-. apply A. }
    injection H as <-. assert (FR := fresh_stream _ _ _ _ Hw).
    eapply e_trans; [apply (e_open f W tr g); assumption|].
    eapply e_trans; [apply e_write; [|exact FR]; cbn; lia|].
    apply e_connect; [rewrite write_count; cbn; lia|exact FR].
  Qed.

  Lemma ascii_file_elsewhere : forall f W kx w tr prefix d (explicit : bool) tr', writers f W kx tr ->
    (if explicit then prefix <> f else forall n, ascii_name prefix n d <> f) ->
    ascii_hook_file ascii_line ascii_name w tr prefix d explicit = Ok tr' -> elsewhere f W tr tr'.
  Proof.
    intros f W kx w tr prefix d explicit tr' Hw A H. unfold ascii_hook_file in H. apply bind_ok in H as (g & G & H).
    assert (g <> f).
    { unfold file_name in G. destruct explicit; [injection G as <-; exact A|].
      destruct (String.eqb _ _); [discriminate|]. destruct (node_of w d); [|discriminate]. injection G as <-. apply A. }
    destruct (d_queue _); [|discriminate]. injection H as <-. assert (FR := fresh_stream _ _ _ _ Hw).
    do 5 (eapply e_trans; [|apply e_connect; [cbn; lia|exact FR]]). apply e_open. assumption.
  Qed.
  Lemma ascii_stream_elsewhere : forall f W w tr i d leo tr', (i < t_count tr)%nat -> ~ In i W ->
    ascii_hook_stream ascii_line w tr i d leo = Ok tr' -> elsewhere f W tr tr'.
  Proof.
    intros f W w tr i d leo tr' L I H. unfold ascii_hook_stream in H. destruct (node_of w d); [|discriminate].
    destruct (d_queue _); [|discriminate]. injection H as <-.
    do 5 (eapply e_trans; [|apply e_connect; [cbn; lia|exact I]]). apply e_refl.
  Qed.

  Lemma op_elsewhere : forall f W kx w tr o w' tr', writers f W kx tr -> avoids f o ->
    (forall k, kx = Some k -> leaves k o) -> (forall n, o <> TNet n) ->
    trace_step (w, tr) o = Ok (w', tr') -> w' = w /\ elsewhere f W tr tr'.
  Proof.
    intros f W kx w tr o w' tr' Hw A LV NN H. destruct o as [n|h prefix nd pr ex|g|h stream prefix nd ex]; [destruct (NN n eq_refl)| | |].
    - cbn in H. apply bind_ok in H as (tr1 & H & E). injection E as <- <-. split; [reflexivity|].
      destruct nd as [d|]; [|destruct h; cbn in H; injection H as <-; apply e_refl].
      cbn in A. specialize (A d eq_refl).
      destruct h; cbn in H; unfold LeoEnablePcap, IslEnablePcap, LeoChannelEnablePcap in H; cbn in H.
      + eapply pcap_elsewhere; eassumption.
      + destruct (is_leo w d); [eapply pcap_elsewhere; eassumption|injection H as <-; apply e_refl].
      + apply bind_ok in H as (a & Ha & H). apply bind_ok in H as (b & Hb & H).
        assert (E1 : elsewhere f W tr a) by (eapply pcap_elsewhere; eassumption).
        destruct (elsewhere_keeps _ _ _ _ E1 _ Hw) as (Hw1 & _).
        destruct (is_leo w d); [|injection Hb as <-; injection H as <-; exact E1].
        assert (E2 : elsewhere f W a b) by (eapply pcap_elsewhere; eassumption).
        destruct (elsewhere_keeps _ _ _ _ E2 _ Hw1) as (Hw2 & _).
        eapply e_trans; [exact E1|]. eapply e_trans; [exact E2|]. eapply pcap_elsewhere; eassumption.
    - cbn in H. injection H as <- <-. split; [reflexivity|]. assert (FR := fresh_stream _ _ _ _ Hw).
      eapply e_trans; [apply (e_open f W tr g); exact A|].
      apply (e_user f W (open_file tr g) (t_count tr)); [cbn; lia|exact FR].
    - cbn in H. destruct stream as [k|].
      + destruct (nth_error (t_user tr) k) as [i|] eqn:EU; [|discriminate].
        apply bind_ok in H as (tr1 & H & E). injection E as <- <-. split; [reflexivity|].
        destruct (wr_user _ _ _ _ Hw k i EU) as [Li Wi].
        assert (NI : ~ In i W). { intros I. specialize (Wi I). symmetry in Wi. apply (LV k Wi). reflexivity. }
        assert (ST : forall a leo b d, (t_count tr <= t_count a)%nat -> ascii_hook_stream ascii_line w a i d leo = Ok b ->
                       elsewhere f W a b) by (intros; eapply ascii_stream_elsewhere; [|exact NI|eassumption]; lia).
        destruct nd as [d|]; [|destruct h; cbn in H; injection H as <-; apply e_refl].
        destruct h; cbn in H; unfold LeoEnableAscii, IslEnableAscii, LeoChannelEnableAscii in H; cbn in H.
        * eapply ST; [|exact H]; lia.
        * destruct (is_leo w d); [eapply ST; [|exact H]; lia|injection H as <-; apply e_refl].
        * apply bind_ok in H as (a & Ha & H). apply bind_ok in H as (b & Hb & H).
          assert (E1 : elsewhere f W tr a) by (eapply ST; [|exact Ha]; lia).
          destruct (elsewhere_keeps _ _ _ _ E1 _ Hw) as (Hw1 & _ & _ & _ & C1).
          destruct (is_leo w d); [|injection Hb as <-; injection H as <-; exact E1].
          assert (E2 : elsewhere f W a b) by (eapply ST; [|exact Hb]; lia).
          destruct (elsewhere_keeps _ _ _ _ E2 _ Hw1) as (Hw2 & _ & _ & _ & C2).
          eapply e_trans; [exact E1|]. eapply e_trans; [exact E2|]. eapply ST; [|exact H]; lia.
      + apply bind_ok in H as (tr1 & H & E). injection E as <- <-. split; [reflexivity|].
        destruct nd as [d|]; [|destruct h; cbn in H; injection H as <-; apply e_refl].
        cbn in A. specialize (A d eq_refl).
        destruct h; cbn in H; unfold LeoEnableAscii, IslEnableAscii, LeoChannelEnableAscii in H; cbn in H.
        * eapply ascii_file_elsewhere; eassumption.
        * destruct (is_leo w d); [eapply ascii_file_elsewhere; eassumption|injection H as <-; apply e_refl].
        * apply bind_ok in H as (a & Ha & H). apply bind_ok in H as (b & Hb & H).
          assert (E1 : elsewhere f W tr a) by (eapply ascii_file_elsewhere; eassumption).
          destruct (elsewhere_keeps _ _ _ _ E1 _ Hw) as (Hw1 & _).
          destruct (is_leo w d); [|injection Hb as <-; injection H as <-; exact E1].
          assert (E2 : elsewhere f W a b) by (eapply ascii_file_elsewhere; eassumption).
          destruct (elsewhere_keeps _ _ _ _ E2 _ Hw1) as (Hw2 & _).
          eapply e_trans; [exact E1|]. eapply e_trans; [exact E2|]. eapply ascii_file_elsewhere; eassumption.
  Qed.

  Lemma step_indexed : forall w o w', indexed_ok w -> step crc fcs tx_time has_mob w o = Ok w' -> indexed_ok w'.
  Proof.
    intros w o w' I H. eapply micros_indexed; [|exact I].
    eapply (step_micros crc fcs tx_time has_mob true (fun _ _ _ => True)); auto; exact H.
  Qed.

  Lemma since_app : forall w w' l, w_log w' = w_log w ++ l -> skipn (List.length (w_log w)) (w_log w') = l.
  Proof. intros w w' l ->. rewrite skipn_app, skipn_all, Nat.sub_diag. reflexivity. Qed.

  (** ** A capture over an execution *)
  Section Capture.
    Variable f : string.
    Variable W : list nat.
    Variable kx : option nat.
    Variable J : (nat -> bool) -> tracing -> list Z -> Prop.
    Variable out : (nat -> bool) -> Z * (nat * source * pkt) -> list Z.
    Variable R : (nat -> bool) -> (nat -> bool) -> trace -> list Z.
    Hypothesis J_writers : forall h tr c, J h tr c -> writers f W kx tr.
    Hypothesis J_elsewhere : forall h tr tr' c, J h tr c -> elsewhere f W tr tr' -> J h tr' c.
    Hypothesis J_forget : forall h (o : op N) tr c, J h tr c -> J (hooked_after o h) (forget_queue o tr) c.
    Hypothesis J_dispatch : forall h tr c x, J h tr c -> J h (dispatch tr x) (c ++ out h x).
    Hypothesis R_nil : forall up h, R up h [] = [].
    Hypothesis R_app : forall up h l m, sealed l = true -> R up h (l ++ m) = R up h l ++ R (ups up l) (hooks h l) m.
    Hypothesis R_out : forall o w w' l up h, chunk crc fcs o w w' l -> agrees up w ->
      flat_map (out (hooks h l)) (fired l) = R up h l.

    Lemma J_dispatches : forall h l tr c, J h tr c -> J h (fold_left dispatch l tr) (c ++ flat_map (out h) l).
    Proof.
      intros h. induction l as [|x l IH]; intros tr c H; [cbn; rewrite app_nil_r; exact H|].
      cbn. rewrite app_assoc. apply IH, J_dispatch, H.
    Qed.

    Lemma capture_run : forall ops w tr w' tr' up h c, indexed_ok w -> agrees up w -> J h tr c ->
      Forall (avoids f) ops -> (forall k, kx = Some k -> Forall (leaves k) ops) ->
      trace_run (w, tr) ops = Ok (w', tr') ->
      exists l h', w_log w' = w_log w ++ l /\ sealed l = true /\ J h' tr' (c ++ R up h l).
    Proof.
      induction ops as [|o ops IH]; intros w tr w' tr' up h c I A HJ AV LV H.
      - injection H as <- <-. exists [], h. rewrite R_nil, !app_nil_r. auto.
      - cbn in H. apply bind_ok in H as ([w1 tr1] & H1 & H). inversion AV as [|? ? AV1 AV2]. subst.
        assert (LV2 : forall k, kx = Some k -> Forall (leaves k) ops) by (intros k E; specialize (LV k E); inversion LV; assumption).
        assert (LV1 : forall k, kx = Some k -> leaves k o) by (intros k E; specialize (LV k E); inversion LV; assumption).
        assert (C : (exists n, o = TNet n) \/ (forall n, o <> TNet n)) by (destruct o; eauto; right; discriminate).
        destruct C as [[n ->]|NN].
        + cbn in H1. apply bind_ok in H1 as (x & Hs & E). injection E as <- <-.
          destruct (step_chunk crc fcs tx_time has_mob w n x I Hs) as (l & C). assert (C' := C).
          destruct C' as (L & S & Hk & _ & Hh). destruct (Hh up h A) as [A1 _].
          rewrite (since_app _ _ _ L) in H.
          apply (J_forget h n) in HJ. rewrite <- Hk in HJ.
          apply (J_dispatches _ (fired l)) in HJ. rewrite (R_out n w x l up h C A) in HJ.
          destruct (IH _ _ _ _ (ups up l) (hooks h l) _ (step_indexed _ _ _ I Hs) A1 HJ AV2 LV2 H) as (m & h' & M & Sm & HJ').
          exists (l ++ m), h'. rewrite M, L, app_assoc. split; [reflexivity|]. split; [apply sealed_app; assumption|].
          rewrite R_app by exact S. rewrite app_assoc. exact HJ'.
        + destruct (op_elsewhere f W kx w tr o w1 tr1 (J_writers _ _ _ HJ) AV1 LV1 NN H1) as [-> E].
          exact (IH _ _ _ _ up h c I A (J_elsewhere _ _ _ _ HJ E) AV2 LV2 H).
    Qed.
  End Capture.

  (** Nobody writes to the file. *)
  Definition untouched f (v : option (list Z)) (tr : tracing) : Prop := writers f [] None tr /\ t_file tr f = v.
  Lemma untouched_run : forall f v ops w tr w' tr', indexed_ok w -> untouched f v tr -> Forall (avoids f) ops ->
    trace_run (w, tr) ops = Ok (w', tr') -> indexed_ok w' /\ untouched f v tr'.
  Proof.
    intros f v. induction ops as [|o ops IH]; intros w tr w' tr' I U AV H.
    - injection H as <- <-. auto.
    - cbn in H. apply bind_ok in H as ([w1 tr1] & H1 & H). inversion AV as [|? ? AV1 AV2]. subst.
      assert (C : (exists n, o = TNet n) \/ (forall n, o <> TNet n)) by (destruct o; eauto; right; discriminate).
      destruct C as [[n ->]|NN].
      + cbn in H1. apply bind_ok in H1 as (x & Hs & E). injection E as <- <-.
        eapply IH; [eapply step_indexed; eassumption| |exact AV2|exact H].
        assert (U2 : untouched f v (forget_queue n tr)).
        { destruct U as [Hw F]. split; [apply forget_writers; exact Hw|]. destruct n; exact F. }
        revert U2. generalize (forget_queue n tr), (fired (skipn (List.length (w_log w)) (w_log x))).
        intros tr0 l. revert tr0. induction l as [|y l IHl]; intros tr0 U2; [exact U2|]. cbn. apply IHl.
        destruct U2 as [Hw F]. rewrite dispatch_calls.
        destruct (calls_none f [] None y (t_sinks tr0) tr0 Hw (wr_sinks _ _ _ _ Hw)) as (A & B & _).
        { clear. induction (t_sinks tr0) as [|k r IHr]; [reflexivity|]. cbn. unfold relevant at 1. cbn.
          rewrite andb_false_r. exact IHr. }
        split; [exact A|congruence].
      + destruct U as [Hw F].
        destruct (op_elsewhere f [] None w tr o w1 tr1 Hw AV1) as [-> E]; [discriminate|exact NN|exact H1|].
        destruct (elsewhere_keeps _ _ _ _ E _ Hw) as (Hw1 & F1 & _).
        eapply IH; [exact I| |exact AV2|exact H]. split; [exact Hw1|congruence].
  Qed.
  Lemma untouched_start : forall f, untouched f None no_tracing.
  Proof.
    intros f. split; [split|reflexivity]; cbn; try (intros; lia); try (intros; contradiction).
    intros [|k] i E; discriminate.
  Qed.

  (** ** Connecting the sinks: [hooked1] opens the file and connects sinks for [spec]. *)
  Definition sinks_for (d : nat) (spec : list (source * (Z -> pkt -> list Z))) (j : nat) : list sink :=
    map (fun x => mkSink d (fst x) j (snd x)) spec.
  Definition hooked1 (f : string) (c : list Z) d spec (tr tr' : tracing) : Prop :=
    t_count tr' = S (t_count tr) /\ t_sinks tr' = t_sinks tr ++ sinks_for d spec (t_count tr) /\ t_user tr' = t_user tr /\
    t_stream tr' (t_count tr) = (f, List.length c) /\
    (forall j, j <> t_count tr -> t_stream tr' j = t_stream tr j) /\ t_file tr' f = Some c.
  Inductive hooked_n f c d spec : nat -> tracing -> tracing -> Prop :=
  | hn_0 : forall tr, hooked_n f c d spec 0 tr tr
  | hn_S : forall n a b tr, hooked_n f c d spec n a b -> hooked1 f c d spec b tr -> hooked_n f c d spec (S n) a tr.

  Lemma hooked_n_spec : forall f c d spec n a b, hooked_n f c d spec n a b ->
    t_count b = (t_count a + n)%nat /\ t_sinks b = t_sinks a ++ flat_map (sinks_for d spec) (seq (t_count a) n) /\
    t_user b = t_user a /\ (forall j, (t_count a <= j < t_count a + n)%nat -> t_stream b j = (f, List.length c)) /\
    (forall j, (j < t_count a)%nat -> t_stream b j = t_stream a j) /\ (n <> O -> t_file b f = Some c).
  Proof.
    induction 1 as [|n a b tr _ (C & K & U & S & S' & _) (C1 & K1 & U1 & S1 & S1' & F1)].
    - rewrite Nat.add_0_r. cbn. rewrite app_nil_r. split; [reflexivity|]. split; [reflexivity|]. split; [reflexivity|].
      split; [intros; lia|]. split; [reflexivity|]. intros E. contradiction.
    - split; [rewrite C1, C; lia|]. split; [rewrite K1, K, C, seq_S, flat_map_app, app_assoc; cbn; rewrite app_nil_r; reflexivity|].
      split; [congruence|]. split; [|split].
      + intros j J. destruct (Nat.eq_dec j (t_count b)) as [->|n0]; [exact S1|]. rewrite S1' by exact n0. apply S. lia.
      + intros j J. rewrite S1' by lia. apply S'. exact J.
      + intros _. exact F1.
  Qed.

  Lemma hooked_same : forall f c d spec K n tr tr', untouched f None tr -> hooked_n f c d spec n tr tr' -> n <> O ->
    (forall d' s j, map (fun k => (k_stream k, k_text k))
         (filter (fun k => Nat.eqb (k_dev k) d' && source_eqb (k_source k) s) (sinks_for d spec j)) =
       match K d' s with Some g => [(j, g)] | None => [] end) ->
    same f (seq (t_count tr) n) K (fun _ => true) tr' c.
  Proof.
    intros f c d spec K n tr tr' [Hw _] H NZ HK. destruct (hooked_n_spec _ _ _ _ _ _ _ H) as (C & SK & U & S & S' & F).
    assert (IW : forall j, In j (seq (t_count tr) n) <-> (t_count tr <= j < t_count tr + n)%nat) by (intros; apply in_seq).
    split; [destruct n; [contradiction|discriminate]|]. split; [apply seq_NoDup|].
    split; [split|].
    - intros j I. apply IW in I. rewrite C, S by exact I. split; [lia|reflexivity].
    - intros j L NI. rewrite C in L. assert (j < t_count tr)%nat by (rewrite IW in NI; lia).
      rewrite S' by assumption. apply (wr_other _ _ _ _ Hw); [assumption|intros []].
    - intros k I. rewrite SK in I. rewrite C. apply in_app_iff in I as [I|I]; [apply (wr_sinks _ _ _ _ Hw) in I; lia|].
      apply in_flat_map in I as (j & J & I). apply IW in J. apply in_map_iff in I as (x & <- & _). cbn. lia.
    - intros k i E. rewrite U in E. destruct (wr_user _ _ _ _ Hw k i E) as [L _]. rewrite C. split; [lia|].
      intros I. apply IW in I. lia.
    - split; [apply F; exact NZ|]. split; [intros j I; apply S, IW, I|]. intros d' s. unfold texts. cbn [negb]. rewrite andb_false_r.
      unfold script. rewrite SK, filter_app.
      replace (filter _ (t_sinks tr)) with (@nil sink).
      2:{ symmetry. assert (X : forall k, In k (t_sinks tr) -> (k_stream k < t_count tr)%nat) by apply (wr_sinks _ _ _ _ Hw).
          revert X. generalize (t_sinks tr). induction l as [|k r IH]; intros X; [reflexivity|]. cbn [filter].
          destruct (mem (k_stream k) (seq (t_count tr) n)) eqn:M.
          - apply mem_In, IW in M. specialize (X k (or_introl eq_refl)). lia.
          - rewrite andb_false_r. apply IH. intros k' I. apply X. right. exact I. }
      cbn [app]. assert (G : forall l, incl l (seq (t_count tr) n) ->
        map (fun k => (k_stream k, k_text k)) (filter (fun k => Nat.eqb (k_dev k) d' && source_eqb (k_source k) s &&
          mem (k_stream k) (seq (t_count tr) n)) (flat_map (sinks_for d spec) l)) =
        match K d' s with Some g => map (fun j => (j, g)) l | None => [] end).
      { induction l as [|j l IH]; intros IL; [destruct (K d' s); reflexivity|]. cbn [flat_map].
        rewrite filter_app, map_app, IH by (intros x I; apply IL; right; exact I).
        rewrite (filter_ext_in _ (fun k => Nat.eqb (k_dev k) d' && source_eqb (k_source k) s)).
        - rewrite HK. destruct (K d' s); reflexivity.
        - intros k I. apply in_map_iff in I as (x & <- & _). cbn [k_stream].
          assert (M : mem j (seq (t_count tr) n) = true) by (apply mem_In, IL; left; reflexivity).
          rewrite M, andb_true_r. reflexivity. }
      apply G. apply incl_refl.
  Qed.

  (** ** Pcap *)
  Definition pcap_texts (d d' : nat) (s : source) : option (Z -> pkt -> list Z) :=
    match s with SPromiscSniffer => if Nat.eqb d' d then Some pcap_record else None | _ => None end.

  Lemma pcap_hook_1 : forall w tr prefix d explicit f tr', file_name pcap_name w prefix d explicit = Ok f ->
    pcap_hook pcap_header pcap_record pcap_name w tr prefix d explicit = Ok tr' ->
    hooked1 f pcap_header d [(SPromiscSniffer, pcap_record)] tr tr'.
  Proof.
    intros w tr prefix d explicit f tr' F H. unfold pcap_hook in H. rewrite F in H. cbn in H. injection H as <-.
    unfold hooked1, write, open_file, connect. cbn. unfold upd_file, upd. rewrite Nat.eqb_refl. cbn. rewrite String.eqb_refl, Nat.eqb_refl.
    repeat split; auto.
    - intros j J. destruct (Nat.eqb_spec j (t_count tr)); [contradiction|reflexivity].
    - f_equal. apply (overwrite_end []).
  Qed.
  Lemma pcap_hooks : forall h w tr prefix d pr explicit f tr', file_name pcap_name w prefix d explicit = Ok f ->
    EnablePcap h w tr prefix (Some d) pr explicit = Ok tr' ->
    hooked_n f pcap_header d [(SPromiscSniffer, pcap_record)] (List.length (classes h (is_leo w d))) tr tr'.
  Proof.
    intros h w tr prefix d pr explicit f tr' F H.
    assert (H1 := fun a b => pcap_hook_1 w a prefix d explicit f b F).
    destruct h; cbn in H; unfold LeoEnablePcap, IslEnablePcap, LeoChannelEnablePcap in H; cbn in H.
    - eapply hn_S; [apply hn_0|]. apply H1, H.
    - destruct (is_leo w d); [eapply hn_S; [apply hn_0|]; apply H1, H|injection H as <-; apply hn_0].
    - apply bind_ok in H as (a & Ha & H). apply bind_ok in H as (b & Hb & H).
      destruct (is_leo w d).
      + eapply hn_S; [eapply hn_S; [eapply hn_S; [apply hn_0|]|]|]; apply H1; eassumption.
      + injection Hb as <-. injection H as <-. eapply hn_S; [apply hn_0|]. apply H1, Ha.
  Qed.

  Lemma flat_map_sniff : forall d l h, flat_map (same_out (pcap_texts d) h) l =
    flat_map (fun x => pcap_record (fst x) (snd x)) (sniff d l).
  Proof.
    intros d l h. induction l as [|[t [[d' s] p]] l IH]; [reflexivity|]. unfold sniff. cbn [flat_map]. rewrite flat_map_app.
    fold (sniff d l). rewrite <- IH. f_equal. unfold same_out, texts, pcap_texts.
    destruct s; cbn; try reflexivity; try (destruct (h d'); reflexivity). destruct (Nat.eqb d' d); cbn; rewrite ?app_nil_r; reflexivity.
  Qed.

  Lemma pcap_capture : forall dk ck before w tr h prefix d pr explicit f tr1 rest w' tr',
    trace_run (initial dk ck, no_tracing) before = Ok (w, tr) -> Forall (avoids f) before ->
    file_name pcap_name w prefix d explicit = Ok f -> EnablePcap h w tr prefix (Some d) pr explicit = Ok tr1 ->
    Forall (avoids f) rest -> trace_run (w, tr1) rest = Ok (w', tr') ->
    t_file tr' f = match classes h (is_leo w d) with
                   | [] => None
                   | _ => Some (pcap_header ++ flat_map (fun x => pcap_record (fst x) (snd x)) (captured d (since w w')))
                   end.
  Proof.
    intros dk ck before w tr h prefix d pr explicit f tr1 rest w' tr' HB AB FN HE AR HR.
    destruct (untouched_run f None before _ _ _ _ (initial_indexed dk ck) (untouched_start f) AB HB) as [I U].
    assert (HN := pcap_hooks h w tr prefix d pr explicit f tr1 FN HE).
    destruct (classes h (is_leo w d)) as [|b l] eqn:EC.
    { inversion HN; subst. eapply untouched_run in HR as [_ [_ HR]]; [exact HR|exact I|exact U|exact AR]. }
    assert (HS : same f (seq (t_count tr) (List.length (b :: l))) (pcap_texts d) (fun _ => true) tr1 pcap_header).
    { eapply hooked_same; [exact U|exact HN|discriminate|]. intros d' s j. cbn. unfold pcap_texts. rewrite Nat.eqb_sym.
      destruct (Nat.eqb d' d), s; reflexivity. }
    destruct (capture_run f (seq (t_count tr) (List.length (b :: l))) None
      (fun h tr c => same f (seq (t_count tr1 - List.length (b :: l)) (List.length (b :: l))) (pcap_texts d) h tr c) (same_out (pcap_texts d))
      (fun _ _ l => flat_map (fun x => pcap_record (fst x) (snd x)) (captured d l)))
      with (ops := rest) (w := w) (tr := tr1) (w' := w') (tr' := tr') (up := fun d => d_up (w_dev w d)) (h := fun _ : nat => true) (c := pcap_header)
      as (m & h' & L & _ & HJ); try assumption.
    all: destruct (hooked_n_spec _ _ _ _ _ _ _ HN) as (CT & _);
         replace (t_count tr1 - List.length (b :: l))%nat with (t_count tr) in * by lia.
    - intros h0 tr0 c (_ & _ & X & _). exact X.
    - intros. eapply same_elsewhere; eassumption.
    - intros. apply same_forget. assumption.
    - intros. apply same_dispatch. assumption.
    - reflexivity.
    - intros up h0 l0 m S. rewrite captured_app by exact S. apply flat_map_app.
    - intros o w0 w1 l0 up h0 (_ & _ & _ & C & _) _. rewrite flat_map_sniff, C. reflexivity.
    - intros d0. reflexivity.
    - exact HS.
    - intros k E. discriminate.
    - unfold since. rewrite (since_app _ _ _ L). destruct HJ as (_ & _ & _ & F & _). exact F.
  Qed.

  (** ** Ascii, a file for the device *)
  Definition ascii_texts (d d' : nat) (s : source) : option (Z -> pkt -> list Z) :=
    match s with SPromiscSniffer => None | _ => if Nat.eqb d' d then Some (ascii_line (mark_of s) None) else None end.
  Definition ascii_spec : list (source * (Z -> pkt -> list Z)) :=
    [(SMacRx, ascii_line MarkReceive None); (SEnqueue, ascii_line MarkEnqueue None); (SDrop, ascii_line MarkDrop None);
     (SDequeue, ascii_line MarkDequeue None); (SPhyRxDrop, ascii_line MarkDrop None)].
  Notation own_line := (own_line ascii_line).

  Lemma ascii_hook_1 : forall w tr prefix d explicit f tr', file_name ascii_name w prefix d explicit = Ok f ->
    ascii_hook_file ascii_line ascii_name w tr prefix d explicit = Ok tr' -> hooked1 f [] d ascii_spec tr tr'.
  Proof.
    intros w tr prefix d explicit f tr' F H. unfold ascii_hook_file in H. rewrite F in H. cbn [bind] in H.
    destruct (d_queue _); [|discriminate]. injection H as <-.
    unfold hooked1, open_file, connect. cbn. unfold upd_file, upd. rewrite Nat.eqb_refl, String.eqb_refl, <- !app_assoc.
    repeat split; auto. intros j J. destruct (Nat.eqb_spec j (t_count tr)); [contradiction|reflexivity].
  Qed.
  Lemma ascii_hooks : forall h w tr prefix d explicit f tr', file_name ascii_name w prefix d explicit = Ok f ->
    EnableAscii h w tr None prefix (Some d) explicit = Ok tr' ->
    hooked_n f [] d ascii_spec (List.length (classes h (is_leo w d))) tr tr'.
  Proof.
    intros h w tr prefix d explicit f tr' F H.
    assert (H1 := fun a b => ascii_hook_1 w a prefix d explicit f b F).
    destruct h; cbn in H; unfold LeoEnableAscii, IslEnableAscii, LeoChannelEnableAscii, ascii_hook in H.
    - eapply hn_S; [apply hn_0|]. apply H1, H.
    - destruct (is_leo w d); [eapply hn_S; [apply hn_0|]; apply H1, H|injection H as <-; apply hn_0].
    - apply bind_ok in H as (a & Ha & H). apply bind_ok in H as (b & Hb & H).
      destruct (is_leo w d).
      + eapply hn_S; [eapply hn_S; [eapply hn_S; [apply hn_0|]|]|]; apply H1; eassumption.
      + injection Hb as <-. injection H as <-. eapply hn_S; [apply hn_0|]. apply H1, Ha.
  Qed.
  Lemma flat_map_own : forall d l h, flat_map (same_out (ascii_texts d) h) l = flat_map (own_line d) (hist h l).
  Proof.
    intros d l h. induction l as [|[t [[d' s] p]] l IH]; [reflexivity|]. unfold hist. cbn [flat_map]. rewrite flat_map_app.
    fold (hist h l). rewrite <- IH. f_equal. unfold same_out, texts, ascii_texts.
    destruct s; cbn; try reflexivity; try (destruct (h d'); cbn; [|reflexivity]); destruct (Nat.eqb d' d); cbn; rewrite ?app_nil_r; reflexivity.
  Qed.

  Lemma ascii_capture : forall dk ck before w tr h prefix d explicit f tr1 rest w' tr',
    trace_run (initial dk ck, no_tracing) before = Ok (w, tr) -> Forall (avoids f) before ->
    file_name ascii_name w prefix d explicit = Ok f -> EnableAscii h w tr None prefix (Some d) explicit = Ok tr1 ->
    Forall (avoids f) rest -> trace_run (w, tr1) rest = Ok (w', tr') ->
    t_file tr' f = match classes h (is_leo w d) with
                   | [] => None
                   | _ => Some (flat_map (own_line d) (history (fun x => d_up (w_dev w x)) (fun _ => true) (since w w')))
                   end.
  Proof.
    intros dk ck before w tr h prefix d explicit f tr1 rest w' tr' HB AB FN HE AR HR.
    destruct (untouched_run f None before _ _ _ _ (initial_indexed dk ck) (untouched_start f) AB HB) as [I U].
    assert (HN := ascii_hooks h w tr prefix d explicit f tr1 FN HE).
    destruct (classes h (is_leo w d)) as [|b l] eqn:EC.
    { inversion HN; subst. eapply untouched_run in HR as [_ [_ HR]]; [exact HR|exact I|exact U|exact AR]. }
    assert (HS : same f (seq (t_count tr) (List.length (b :: l))) (ascii_texts d) (fun _ => true) tr1 []).
    { eapply hooked_same; [exact U|exact HN|discriminate|]. intros d' s j. cbn. unfold ascii_texts. rewrite Nat.eqb_sym.
      destruct (Nat.eqb d' d), s; reflexivity. }
    destruct (capture_run f (seq (t_count tr) (List.length (b :: l))) None
      (fun h tr0 c => same f (seq (t_count tr) (List.length (b :: l))) (ascii_texts d) h tr0 c) (same_out (ascii_texts d))
      (fun up h l => flat_map (own_line d) (history up h l)))
      with (ops := rest) (w := w) (tr := tr1) (w' := w') (tr' := tr') (up := fun d => d_up (w_dev w d)) (h := fun _ : nat => true) (c := @nil Z)
      as (m & h' & L & _ & HJ); try assumption.
    - intros h0 tr0 c (_ & _ & X & _). exact X.
    - intros. eapply same_elsewhere; eassumption.
    - intros. apply same_forget. assumption.
    - intros. apply same_dispatch. assumption.
    - reflexivity.
    - intros up h0 l0 m S. rewrite history_app. apply flat_map_app.
    - intros o w0 w1 l0 up h0 (_ & _ & _ & _ & C) A. destruct (C up h0 A) as [_ X]. rewrite flat_map_own, X. reflexivity.
    - intros d0. reflexivity.
    - intros k E. discriminate.
    - unfold since. rewrite (since_app _ _ _ L). destruct HJ as (_ & _ & _ & F & _). exact F.
  Qed.

  (** ** Ascii, the program's stream *)
  Definition stream_texts w (h : tracer) (ds : list nat) (d : nat) (s : source) : list (Z -> pkt -> list Z) :=
    match s with
    | SPromiscSniffer => []
    | _ => flat_map (fun d' => if Nat.eqb d' d
             then match node_of w d with
                  | Some n => map (fun leo => ascii_line (mark_of s) (Some (n, d, leo, s))) (classes h (is_leo w d))
                  | None => [] end
             else []) ds
    end.
  Definition stream_lines w h ds (x : nat * source * Z * pkt) : list Z :=
    let '(d, s, t, p) := x in flat_map (fun g => g t p) (stream_texts w h ds d s).

  Lemma flat_map_stream : forall w h ds l hk, flat_map (all_out (stream_texts w h ds) hk) l = flat_map (stream_lines w h ds) (hist hk l).
  Proof.
    intros w h ds l hk. induction l as [|[t [[d' s] p]] l IH]; [reflexivity|]. unfold hist. cbn [flat_map]. rewrite flat_map_app.
    fold (hist hk l). rewrite <- IH. f_equal. unfold all_out, all_texts.
    destruct s; cbn [of_queue andb]; try (cbn; rewrite app_nil_r; reflexivity); try reflexivity;
      (destruct (hk d'); cbn; [rewrite app_nil_r|]; reflexivity).
  Qed.

  (** Connecting one more set of sinks to the stream. *)
  Definition one_more w (d : nat) (leo : bool) (L : nat -> source -> list (Z -> pkt -> list Z)) (d' : nat) (s : source) :=
    L d' s ++ match s with
              | SPromiscSniffer => []
              | _ => if Nat.eqb d d'
                     then match node_of w d with
                          | Some n => [ascii_line (mark_of s) (Some (n, d, leo, s))]
                          | None => [] end
                     else [] end.
  Lemma stream_hook_1 : forall f i k L w tr d leo tr', all f i k L (fun _ => true) tr [] ->
    ascii_hook_stream ascii_line w tr i d leo = Ok tr' ->
    all f i k (one_more w d leo L) (fun _ => true) tr' [] /\ t_user tr' = t_user tr.
  Proof.
    intros f i k L w tr d leo tr' (Hw & F & S & SC) H. unfold ascii_hook_stream in H.
    destruct (node_of w d) as [n|] eqn:EN; [|discriminate]. destruct (d_queue _); [|discriminate]. injection H as <-.
    split; [|reflexivity]. split; [|split; [exact F|split; [exact S|]]].
    - destruct Hw as [A B C D]. split; [exact A|exact B| |exact D]. cbn. intros x. rewrite !in_app_iff. cbn.
      assert (i < t_count tr)%nat by (apply A; left; reflexivity).
      intros [[[[[X|[<-|[]]]|[<-|[]]]|[<-|[]]]|[<-|[]]]|[<-|[]]]; cbn; auto.
    - intros d' s. unfold script. cbn [connect t_sinks]. rewrite <- !app_assoc, filter_app, map_app.
      fold (script [i] tr d' s). rewrite SC. unfold all_texts. cbn [negb]. rewrite andb_false_r. unfold one_more. rewrite map_app, EN.
      f_equal. cbn. rewrite Nat.eqb_refl. destruct (Nat.eqb d d'), s; reflexivity.
  Qed.

  Lemma all_ext : forall f i k L L' h tr c, (forall d s, L d s = L' d s) -> all f i k L h tr c -> all f i k L' h tr c.
  Proof.
    intros f i k L L' h tr c E (Hw & F & S & SC). split; [exact Hw|]. split; [exact F|]. split; [exact S|].
    intros d s. rewrite SC. unfold all_texts. rewrite E. reflexivity.
  Qed.

  Lemma stream_hooks : forall f i k h ds0 w tr prefix d explicit tr', all f i k (stream_texts w h ds0) (fun _ => true) tr [] ->
    EnableAscii h w tr (Some i) prefix (Some d) explicit = Ok tr' ->
    all f i k (stream_texts w h (ds0 ++ [d])) (fun _ => true) tr' [] /\ t_user tr' = t_user tr.
  Proof.
    intros f i k h ds0 w tr prefix d explicit tr' HA H.
    destruct h; cbn in H; unfold LeoEnableAscii, IslEnableAscii, LeoChannelEnableAscii, ascii_hook in H.
    - destruct (stream_hook_1 _ _ _ _ _ _ _ _ _ HA H) as [X U]. split; [|exact U]. eapply all_ext; [|exact X].
      intros d' s. unfold one_more. cbn [stream_texts classes]. destruct s; try reflexivity; unfold stream_texts; rewrite flat_map_app; cbn [flat_map map];
        rewrite app_nil_r; (destruct (Nat.eqb_spec d d') as [<-|]; [destruct (node_of w d)|]; reflexivity).
    - destruct (is_leo w d) eqn:EL.
      + destruct (stream_hook_1 _ _ _ _ _ _ _ _ _ HA H) as [X U]. split; [|exact U]. eapply all_ext; [|exact X].
        intros d' s. unfold one_more. destruct s; try reflexivity; unfold stream_texts; rewrite flat_map_app; cbn [flat_map map];
          rewrite app_nil_r; (destruct (Nat.eqb_spec d d') as [<-|]; [rewrite EL; destruct (node_of w d)|]; reflexivity).
      + injection H as <-. split; [|reflexivity]. eapply all_ext; [|exact HA].
        intros d' s. destruct s; try reflexivity; unfold stream_texts; rewrite flat_map_app; cbn [flat_map];
          rewrite app_nil_r; (destruct (Nat.eqb_spec d d') as [<-|]; [rewrite EL; destruct (node_of w d)|]; cbn; rewrite ?app_nil_r; reflexivity).
    - apply bind_ok in H as (a & Ha & H). apply bind_ok in H as (b & Hb & H).
      destruct (stream_hook_1 _ _ _ _ _ _ _ _ _ HA Ha) as [X1 U1]. destruct (is_leo w d) eqn:EL.
      + destruct (stream_hook_1 _ _ _ _ _ _ _ _ _ X1 Hb) as [X2 U2]. destruct (stream_hook_1 _ _ _ _ _ _ _ _ _ X2 H) as [X3 U3].
        split; [|congruence]. eapply all_ext; [|exact X3].
        intros d' s. unfold one_more. destruct s; try reflexivity; unfold stream_texts; rewrite flat_map_app; cbn [flat_map map];
          rewrite app_nil_r; (destruct (Nat.eqb_spec d d') as [<-|]; [rewrite EL; destruct (node_of w d)|]; cbn [map classes]; rewrite <- ?app_assoc; reflexivity).
      + injection Hb as <-. injection H as <-. split; [|exact U1]. eapply all_ext; [|exact X1].
        intros d' s. unfold one_more. destruct s; try reflexivity; unfold stream_texts; rewrite flat_map_app; cbn [flat_map map];
          rewrite app_nil_r; (destruct (Nat.eqb_spec d d') as [<-|]; [rewrite EL; destruct (node_of w d)|]; reflexivity).
  Qed.

  Lemma stream_hook_all : forall f i k h prefix explicit w ds ds0 tr w' tr',
    all f i k (stream_texts w h ds0) (fun _ => true) tr [] -> nth_error (t_user tr) k = Some i ->
    trace_run (w, tr) (map (fun d => TAscii h (Some k) prefix (Some d) explicit) ds) = Ok (w', tr') ->
    w' = w /\ all f i k (stream_texts w h (ds0 ++ ds)) (fun _ => true) tr' [].
  Proof.
    intros f i k h prefix explicit w. induction ds as [|d ds IH]; intros ds0 tr w' tr' HA EU H.
    - injection H as <- <-. rewrite app_nil_r. auto.
    - cbn in H. rewrite EU in H. apply bind_ok in H as ([w1 tr1] & H1 & H).
      apply bind_ok in H1 as (tr2 & H1 & E). injection E as <- <-.
      destruct (stream_hooks _ _ _ _ _ _ _ _ _ _ _ HA H1) as [HA1 U1].
      replace (ds0 ++ d :: ds) with ((ds0 ++ [d]) ++ ds) by (rewrite <- app_assoc; reflexivity).
      eapply IH; [exact HA1|congruence|exact H].
  Qed.

  Lemma history_sources : forall l up hk x, In x (history up hk l) -> snd (fst (fst x)) <> SPromiscSniffer.
  Proof.
    induction l as [|[t o] l IH]; intros up hk x I; [destruct I|].
    destruct o; cbn in I; try (apply in_app_iff in I as [I|I]); try (destruct I as [<-|I]); try (eapply IH; exact I);
      try (cbn; discriminate).
    - destruct (up d && hk d); [|destruct I]. destruct I as [<-|[]]. destruct ok; discriminate.
    - destruct (hk d); [|destruct I]. destruct I as [<-|[]]. discriminate.
  Qed.
  Lemma shared_stream : forall w h ds up hk l, flat_map (shared_lines ascii_line w h ds) (history up hk l) =
    flat_map (stream_lines w h ds) (history up hk l).
  Proof.
    intros w h ds up hk l. assert (X := history_sources l up hk). revert X. generalize (history up hk l).
    induction l0 as [|[[[d s] t] p] l0 IH]; intros X; [reflexivity|]. cbn [flat_map]. f_equal.
    - specialize (X _ (or_introl eq_refl)). cbn in X. cbn [shared_lines stream_lines].
      assert (E : stream_texts w h ds d s = flat_map (fun d' => if Nat.eqb d' d
             then match node_of w d with
                  | Some n => map (fun leo => ascii_line (mark_of s) (Some (n, d, leo, s))) (classes h (is_leo w d))
                  | None => [] end
             else []) ds) by (destruct s; [destruct (X eq_refl)|reflexivity..]).
      rewrite E. clear. induction ds as [|d' ds IH]; [reflexivity|]. cbn [flat_map]. rewrite flat_map_app, IH. f_equal.
      destruct (Nat.eqb d' d); [|reflexivity]. destruct (node_of w d).
      + rewrite !flat_map_concat_map, map_map. reflexivity.
      + destruct (classes h (is_leo w d)) as [|? [|? [|? [|]]]]; reflexivity || (induction l; auto).
    - apply IH. intros x I. apply X. right. exact I.
  Qed.

  Lemma stream_capture : forall dk ck before w tr h prefix explicit ds f w1 tr1 rest w' tr',
    trace_run (initial dk ck, no_tracing) before = Ok (w, tr) -> Forall (avoids f) before ->
    let k := List.length (t_user tr) in
    trace_run (w, tr) (TStream f :: map (fun d => TAscii h (Some k) prefix (Some d) explicit) ds) = Ok (w1, tr1) ->
    Forall (avoids f) rest -> Forall (leaves k) rest -> trace_run (w1, tr1) rest = Ok (w', tr') ->
    t_file tr' f = Some (flat_map (shared_lines ascii_line w h ds) (history (fun x => d_up (w_dev w x)) (fun _ => true) (since w w'))).
  Proof.
    intros dk ck before w tr h prefix explicit ds f w1 tr1 rest w' tr' HB AB k HE AR LR HR.
    destruct (untouched_run f None before _ _ _ _ (initial_indexed dk ck) (untouched_start f) AB HB) as [I [Hw F]].
    cbn [TraceModel.trace_run bind TraceModel.trace_step] in HE.
    set (i := t_count tr) in *.
    assert (HA : all f i k (stream_texts w h []) (fun _ => true)
                   (mkTracing (t_file (open_file tr f)) (t_stream (open_file tr f)) (t_count (open_file tr f)) (t_sinks (open_file tr f))
                              (t_user tr ++ [i])) []).
    { unfold all, open_file. cbn [t_file t_stream t_count t_sinks]. split; [split|].
      - intros j [<-|[]]. cbn. unfold upd. fold i. rewrite Nat.eqb_refl. split; [lia|reflexivity].
      - intros j L NI. cbn in L |- *. fold i. assert (j <> i) by (intros ->; apply NI; left; reflexivity).
        rewrite upd_other by assumption. apply (wr_other _ _ _ _ Hw); [fold i; lia|intros []].
      - intros x X. cbn in X |- *. apply (wr_sinks _ _ _ _ Hw) in X. fold i in X. lia.
      - intros m j E. cbn in E |- *. destruct (Nat.lt_ge_cases m k) as [L|L].
        + rewrite nth_error_app1 in E by exact L. destruct (wr_user _ _ _ _ Hw m j E) as [X _]. fold i in X. split; [lia|].
          intros [<-|[]]. lia.
        + rewrite nth_error_app2 in E by exact L. fold k in E. destruct (m - k)%nat as [|[|z]] eqn:EZ; cbn in E; try discriminate.
          injection E as <-. split; [lia|]. intros _. f_equal. lia.
      - split; [unfold upd_file; rewrite String.eqb_refl; reflexivity|].
        split; [unfold upd; fold i; rewrite Nat.eqb_refl; reflexivity|].
        intros d s. unfold all_texts. cbn [negb]. rewrite andb_false_r.
        replace (stream_texts w h [] d s) with (@nil (Z -> pkt -> list Z)) by (destruct s; reflexivity).
        unfold script. cbn [t_sinks]. replace (filter _ (t_sinks tr)) with (@nil sink); [reflexivity|]. symmetry.
        assert (X : forall y, In y (t_sinks tr) -> (k_stream y < i)%nat) by apply (wr_sinks _ _ _ _ Hw).
        revert X. generalize (t_sinks tr). induction l as [|y r IH]; intros X; [reflexivity|]. cbn [filter].
        unfold mem. cbn [existsb]. specialize (X y (or_introl eq_refl)) as Xy. destruct (Nat.eqb_spec (k_stream y) i); [lia|].
        cbn [orb]. rewrite andb_false_r. apply IH. intros z Z. apply X. right. exact Z. }
    assert (EU : nth_error (t_user tr ++ [i]) k = Some i).
    { rewrite nth_error_app2 by apply Nat.le_refl. unfold k. rewrite Nat.sub_diag. reflexivity. }
    destruct (stream_hook_all f i k h prefix explicit w ds [] _ _ _ HA EU HE) as [-> HA1].
    cbn [app] in HA1.
    destruct (capture_run f [i] (Some k) (fun hk tr0 c => all f i k (stream_texts w h ds) hk tr0 c) (all_out (stream_texts w h ds))
      (fun up hk l => flat_map (stream_lines w h ds) (history up hk l)))
      with (ops := rest) (w := w) (tr := tr1) (w' := w') (tr' := tr') (up := fun d => d_up (w_dev w d)) (h := fun _ : nat => true) (c := @nil Z)
      as (m & h' & L & _ & HJ); try assumption.
    - intros h0 tr0 c (X & _). exact X.
    - intros. eapply all_elsewhere; eassumption.
    - intros. apply all_forget. assumption.
    - intros. apply all_dispatch. assumption.
    - reflexivity.
    - intros up h0 l0 m S. rewrite history_app. apply flat_map_app.
    - intros o w0 w2 l0 up h0 (_ & _ & _ & _ & C) A. destruct (C up h0 A) as [_ X]. rewrite flat_map_stream, X. reflexivity.
    - intros d0. reflexivity.
    - intros k0 E. injection E as <-. exact LR.
    - unfold since. rewrite (since_app _ _ _ L). destruct HJ as (_ & F' & _). rewrite shared_stream. exact F'.
  Qed.
End Runs.
