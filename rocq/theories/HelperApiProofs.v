(** From the helper proofs to the statements of PropHelper.v. *)
Require Import ZArith List Bool String Lia ZifyBool.
Require Import Verif.Base Verif.Num Verif.Vec Verif.LossModel Verif.FrameModel Verif.NetModel Verif.NetSpec Verif.NetSafeProofs
  Verif.HelperModel Verif.HelperProofs Verif.HelperSafeProofs Verif.HelperSpec.
Import ListNotations.
Local Open Scope Z_scope.

Section Api.
  Context {N : Num}.
  Variable pos : nat -> Z -> vec N.
  Variable seconds : num N -> Z.

  Lemma SetConstellation_cases : forall h name,
    (exists p, In p published /\ ps_name p = name /\
       SetConstellation (N := N) h name =
         Ok (SetConstellationAttributes h (ndec N (ps_eirp p) 1) (nZ N (ps_elevation p)) (ndec N (ps_fspl p) 1)
               (ndec N (fst (ps_atmospheric p)) (snd (ps_atmospheric p))) (ndec N (ps_margin p) 2) (ps_rate p)
               (ndec N (ps_gain p) 1) (nZ N 0))) \/
    (~ In name (map ps_name published) /\ SetConstellation (N := N) h name = Abort AssertFailed).
  Proof.
    intros h name. unfold SetConstellation.
    destruct (String.eqb_spec name "StarlinkGateway") as [->|H1].
    { left. eexists. split; [left; reflexivity|]. split; reflexivity. }
    destruct (String.eqb_spec name "StarlinkUser") as [->|H2].
    { left. eexists. split; [right; left; reflexivity|]. split; reflexivity. }
    destruct (String.eqb_spec name "TelesatGateway") as [->|H3].
    { left. eexists. split; [right; right; left; reflexivity|]. split; reflexivity. }
    destruct (String.eqb_spec name "TelesatUser") as [->|H4].
    { left. eexists. split; [right; right; right; left; reflexivity|]. split; reflexivity. }
    right. split; [|reflexivity]. cbn. intros [H|[H|[H|[H|[]]]]]; congruence.
  Qed.
  Lemma published_names : forall p q, In p published -> In q published -> ps_name p = ps_name q -> p = q.
  Proof.
    intros p q HP HQ E. cbn in HP, HQ.
    destruct HP as [<-|[<-|[<-|[<-|[]]]]]; destruct HQ as [<-|[<-|[<-|[<-|[]]]]]; try reflexivity; discriminate.
  Qed.

  Lemma leo_calls_app : forall l1 l2 (h : leo_helper N), leo_helper_calls h (l1 ++ l2) = bind (leo_helper_calls h l1) (fun h1 => leo_helper_calls h1 l2).
  Proof.
    induction l1 as [|c r IH]; intros l2 h; [reflexivity|]. cbn. destruct (leo_helper_call h c); cbn; [apply IH|reflexivity|reflexivity].
  Qed.

  (** The loss and delay configuration is that of the presets. *)
  Lemma calls_loss : forall calls (h h' : leo_helper N), leo_helper_calls h calls = Ok h' ->
    lh_speed h' = lh_speed h /\
    match chosen calls with
    | None => leo_loss_of h' = leo_loss_of h
    | Some name => exists p, In p published /\ ps_name p = name /\ leo_loss_of h' = preset_loss p
    end.
  Proof.
    induction calls as [|c r IH]; intros h h' H; cbn in H; [injection H as ->; split; reflexivity|].
    destruct (leo_helper_call h c) as [h1| |] eqn:E; try discriminate. cbn in H. apply IH in H as [S C].
    destruct c; cbn in E; try (injection E as <-; cbn [chosen]; rewrite S; split; [reflexivity|exact C]).
    destruct (SetConstellation_cases h name) as [(p & P1 & P2 & P3)|[_ P]]; [|congruence]. rewrite P3 in E. injection E as <-.
    split; [rewrite S; reflexivity|]. cbn [chosen]. destruct (chosen r); [exact C|]. exists p. split; [assumption|]. split; [assumption|].
    rewrite C. reflexivity.
  Qed.

  (** Attribute lists of helpers. *)
  Lemma calls_attrs : forall (P : attr N -> Prop) calls h h', leo_helper_calls h calls = Ok h' ->
    Forall (fun c => match c with HGndAttribute a | HSatAttribute a => P a | _ => True end) calls ->
    (forall x, P (ATxPower x)) -> (forall x, P (ARxGain x)) -> (forall x, P (ARxLoss x)) ->
    (forall p, In p published -> P (ARate (ps_rate p))) ->
    exists s g, lh_sat h' = lh_sat h ++ s /\ lh_gnd h' = lh_gnd h ++ g /\ Forall P s /\ Forall P g.
  Proof.
    intros P calls. induction calls as [|c r IH]; intros h h' H F P1 P2 P3 P4; cbn in H.
    - injection H as ->. exists [], []. rewrite !app_nil_r. auto.
    - destruct (leo_helper_call h c) as [h1| |] eqn:E; try discriminate. cbn in H. inversion F as [|? ? F1 F2]; subst.
      destruct (IH _ _ H F2 P1 P2 P3 P4) as (s & g & S & G & FS & FG).
      destruct c; cbn in E; try (injection E as <-; cbn in S, G; eauto 7; fail).
      + destruct (SetConstellation_cases h name) as [(p & Q1 & Q2 & Q3)|[_ Q]]; [|congruence]. rewrite Q3 in E. injection E as <-.
        cbn in S, G. rewrite <- app_assoc in S, G. cbn in S, G. eexists _, _. split; [exact S|]. split; [exact G|].
        split; repeat (constructor; auto).
      + injection E as <-. cbn in S, G. rewrite <- app_assoc in G. exists s, ([a] ++ g). repeat split; auto. constructor; auto.
      + injection E as <-. cbn in S, G. rewrite <- app_assoc in S. exists ([a] ++ s), g. repeat split; auto. constructor; auto.
  Qed.

  Lemma kind_kept : forall l (g : cfg N), Forall (fun a => match a with AType _ => False | _ => True end) l -> g_kind (attrs_cfg g l) = g_kind g.
  Proof.
    induction l as [|a r IH]; intros g F; [reflexivity|]. inversion F as [|? ? F1 F2]; subst.
    change (attrs_cfg g (a :: r)) with (attrs_cfg (apply_setting g (setting_of a)) r). rewrite IH by assumption.
    destruct a; try reflexivity. contradiction.
  Qed.
  Lemma calls_kinds : forall calls h' sats i, leo_helper_calls (new_leo_helper pos seconds) calls = Ok h' -> Forall keeps_types calls ->
    leo_kind h' sats i = if (i <? List.length sats)%nat then Sat else Gnd.
  Proof.
    intros calls h' sats i H F.
    destruct (calls_attrs (fun a => match a with AType _ => False | _ => True end) calls _ _ H) as (s & g & S & G & FS & FG); auto.
    unfold leo_kind, leo_attrs. rewrite S, G. cbn [lh_sat lh_gnd new_leo_helper app].
    destruct (i <? List.length sats)%nat.
    - change (attrs_cfg (new_cfg true) (AType true :: s)) with (attrs_cfg (apply_setting (N := N) (new_cfg true) (CType true)) s).
      rewrite kind_kept by assumption. reflexivity.
    - change (attrs_cfg (new_cfg true) (AType false :: g)) with (attrs_cfg (apply_setting (N := N) (new_cfg true) (CType false)) g).
      rewrite kind_kept by assumption. reflexivity.
  Qed.

  Lemma isl_calls_spec : forall calls (h h' : isl_helper N), isl_helper_calls h calls = Ok h' ->
    ih_chan h' = ih_chan h ++ isl_channel_attributes calls /\
    ih_dev h' = ih_dev h ++ flat_map (fun c => match c with HDeviceAttribute a => [a] | _ => [] end) calls.
  Proof.
    induction calls as [|c r IH]; intros h h' H; cbn in H.
    - injection H as ->. cbn. rewrite !app_nil_r. auto.
    - destruct (isl_helper_call h c) as [h1| |] eqn:E; try discriminate. cbn in H. apply IH in H as [A B].
      destruct c; cbn in E; [| |]; try (destruct (leo_only a); [discriminate|]); injection E as <-; rewrite A, B; cbn;
        rewrite <- ?app_assoc; auto.
  Qed.
  Lemma last_loss_fold : forall l (ch : chan N), c_loss (fold_left chan_apply l ch) = last_loss l (c_loss ch) /\
    c_delay (fold_left chan_apply l ch) = last_delay l (c_delay ch).
  Proof. induction l as [|a r IH]; intros ch; [auto|]. cbn. destruct (IH (chan_apply ch a)) as [-> ->]. destruct a; auto. Qed.

  (** ** Safety *)
  Lemma sane_good : forall l,
    (forall v, v = 299702458 \/ v = 299792458 -> forall a b t, 0 <= constant_speed pos seconds (nZ N v) a b t) ->
    Forall (sane_act pos seconds) l -> Forall (good pos seconds) l.
  Proof.
    intros l V F. eapply Forall_impl; [|exact F]. intros a Ha. destruct a as [h sats gnds|h nodes|o]; cbn in Ha |- *.
    - destruct Ha as (calls & H & S).
      destruct (calls_attrs sane calls _ _ H) as (s & g & S1 & G1 & FS & FG); cbn; auto.
      { intros p Hp. cbn in Hp. destruct Hp as [<-|[<-|[<-|[<-|[]]]]]; cbn; lia. }
      destruct (calls_loss _ _ _ H) as [SP _]. cbn in S1, G1, SP. rewrite S1, G1, SP.
      rewrite Forall_forall in FS, FG. split; [|split].
      + intros a [<-|X]; [exact I|]. apply FS in X. exact X.
      + intros a [<-|X]; [exact I|]. apply FG in X. exact X.
      + intros a b t. apply V. auto.
    - destruct Ha as (calls & H & S). apply isl_calls_spec in H as [A B]. cbn in A, B. rewrite A, B.
      rewrite Forall_forall in S. split.
      + intros a X. apply in_flat_map in X as (c & X & Y). apply S in X. destruct c; cbn in Y; try contradiction.
        destruct Y as [<-|[]]. exact X.
      + intros f [X|[X|X]]; [injection X as <-; intros a b t; apply V; auto|discriminate|].
        unfold isl_channel_attributes in X. apply in_flat_map in X as (c & X & Y). apply S in X. destruct c; cbn in Y; try contradiction.
        destruct Y as [->|[]]. exact X.
    - exact Ha.
  Qed.
  Lemma devices_total : forall l, total (N := N) l = devices l.
  Proof.
    induction l as [|a r IH]; [reflexivity|]. cbn [total fold_right devices]. fold (total r). rewrite IH. destruct a; cbn [installed].
    - rewrite app_length. lia.
    - reflexivity.
    - reflexivity.
  Qed.
End Api.
