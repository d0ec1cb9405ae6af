(** C64: the addresses of the devices of a whole program of installations. *)
Require Import ZArith List Bool String Lia.
Require Import Verif.Base Verif.Num Verif.Vec Verif.FrameModel Verif.NetModel Verif.NetSpec Verif.LifeSpec Verif.LifeProofs Verif.NetExamples
  Verif.HelperModel Verif.HelperSpec Verif.HelperSafeProofs.
Import ListNotations.
Local Open Scope Z_scope.

(** The program itself does not set addresses. *)
Definition no_address {N : Num} (a : act N) : Prop :=
  match a with AOp (OSet _ (CAddress _)) => False | _ => True end.

Definition address {N : Num} (s : setting N) : option Z := match s with CAddress a => Some a | _ => None end.

Section Addresses.
  Context {N : Num}.
  Notation lg k := (@last_given N Z (given k address)).

  Lemma lg_app : forall k a b v, lg k (a ++ b) v = lg k b (lg k a v).
  Proof. intros. unfold last_given. apply fold_left_app. Qed.
  Lemma lg_none : forall k l v, Forall (fun o => given k (@address N) o = None) l -> lg k l v = v.
  Proof.
    intros k l v H. unfold last_given. revert v. induction H as [|o r HO H IH]; intros v; [reflexivity|]. cbn [fold_left]. rewrite HO. apply IH.
  Qed.
  Lemma lg_chan : forall k c l v, lg k (map (channel_op c) l) v = v.
  Proof. intros. apply lg_none. apply Forall_forall. intros o HO. apply in_map_iff in HO as (a & <- & _). destruct a; reflexivity. Qed.
  Lemma lg_device : forall k attrs q c d n id v,
    lg k (device_ops attrs q c d n id) v = if Nat.eqb d k then (id + 1) mod 2 ^ 48 else v.
  Proof.
    intros. unfold device_ops. rewrite lg_app. destruct (Nat.eqb d k) eqn:E.
    - unfold last_given. cbn [fold_left given]. rewrite E. reflexivity.
    - assert (X : lg k (map (fun a => OSet d (setting_of a)) attrs) v = v).
      { apply lg_none. apply Forall_forall. intros o HO. apply in_map_iff in HO as (a & <- & _). cbn. rewrite E. reflexivity. }
      rewrite X. unfold last_given. cbn [fold_left given]. rewrite E. reflexivity.
  Qed.
  Lemma lg_devices : forall k attrs q c nodes d id v,
    lg k (devices_ops attrs q c d nodes id) v =
    if andb (Nat.leb d k) (Nat.ltb k (d + List.length nodes)) then (id + (Z.of_nat k - Z.of_nat d) + 1) mod 2 ^ 48 else v.
  Proof.
    intros k attrs q c. induction nodes as [|n r IH]; intros d id v; cbn [devices_ops List.length].
    - destruct (Nat.leb_spec d k), (Nat.ltb_spec k (d + 0)); try reflexivity. lia.
    - rewrite lg_app, IH, lg_device.
      destruct (Nat.leb_spec (S d) k), (Nat.ltb_spec k (S d + List.length r)), (Nat.leb_spec d k), (Nat.ltb_spec k (d + S (List.length r))),
        (Nat.eqb_spec d k); cbn [andb]; try lia; try reflexivity; f_equal; lia.
  Qed.
  Lemma lg_leo : forall k pos seconds (h : leo_helper N) c sats gnds d id v,
    lg k (leo_install pos seconds h c d sats gnds id) v =
    if andb (Nat.leb d k) (Nat.ltb k (d + List.length (sats ++ gnds))) then (id + (Z.of_nat k - Z.of_nat d) + 1) mod 2 ^ 48 else v.
  Proof.
    intros. unfold leo_install. rewrite app_length, !lg_app, lg_chan, !lg_devices.
    change (lg k [OSetLoss c _; OSetDelay c _] v) with v.
    destruct (Nat.leb_spec d k), (Nat.ltb_spec k (d + List.length sats)), (Nat.leb_spec (d + List.length sats) k),
      (Nat.ltb_spec k (d + List.length sats + List.length gnds)), (Nat.ltb_spec k (d + (List.length sats + List.length gnds)));
      cbn [andb]; try lia; try reflexivity; f_equal; lia.
  Qed.
  Lemma lg_program : forall pos seconds k l c d id v, Forall no_address l ->
    lg k (program pos seconds c d id l) v =
    if andb (Nat.leb d k) (Z.of_nat k <? Z.of_nat d + devices l) then (id + (Z.of_nat k - Z.of_nat d) + 1) mod 2 ^ 48 else v.
  Proof.
    intros pos seconds k. induction l as [|a r IH]; intros c d id v H; cbn [program devices].
    - destruct (Nat.leb_spec d k), (Z.ltb_spec (Z.of_nat k) (Z.of_nat d + 0)); try reflexivity. lia.
    - assert (D : forall l : list (act N), 0 <= devices l).
      { clear. induction l as [|[]]; cbn; lia. }
      specialize (D r). inversion H as [|? ? HA HR]; subst. destruct a as [h sats gnds|h nodes|o].
      + rewrite lg_app, IH by assumption. rewrite lg_leo, app_length. clear IH H.
        destruct (Nat.leb_spec d k), (Nat.ltb_spec k (d + (List.length sats + List.length gnds))),
          (Nat.leb_spec (d + (List.length sats + List.length gnds)) k),
          (Z.ltb_spec (Z.of_nat k) (Z.of_nat (d + (List.length sats + List.length gnds)) + devices r)),
          (Z.ltb_spec (Z.of_nat k) (Z.of_nat d + (Z.of_nat (List.length sats) + Z.of_nat (List.length gnds) + devices r)));
          cbn [andb]; try lia; try reflexivity; f_equal; lia.
      + rewrite lg_app, IH by assumption. unfold isl_install. rewrite lg_app, lg_chan, lg_devices. clear IH H.
        destruct (Nat.leb_spec d k), (Nat.ltb_spec k (d + List.length nodes)), (Nat.leb_spec (d + List.length nodes) k),
          (Z.ltb_spec (Z.of_nat k) (Z.of_nat (d + List.length nodes) + devices r)),
          (Z.ltb_spec (Z.of_nat k) (Z.of_nat d + (Z.of_nat (List.length nodes) + devices r)));
          cbn [andb]; try lia; try reflexivity; f_equal; lia.
      + change (o :: program pos seconds c d id r) with ([o] ++ program pos seconds c d id r). rewrite lg_app, IH by assumption.
        replace (lg k [o] v) with v; [reflexivity|]. symmetry. apply lg_none. constructor; [|constructor].
        destruct o; try reflexivity. cbn. destruct (Nat.eqb _ k); [|reflexivity].
        match goal with s : setting N |- _ => destruct s end; try reflexivity. contradiction.
  Qed.
End Addresses.

(** In every program of installations and other operations that is carried out to
    its end, device k has the address k + 1 places after the counter's start,
    whichever channel it belongs to and whatever was given as attribute Address; so
    no two devices share one while there are fewer than 2^48. *)
Theorem C64_addresses : forall (N : Num) crc fcs tx_time has_mob pos seconds l (w : world N) id,
  Forall no_address l ->
  run crc fcs tx_time has_mob (initial_for l) (program pos seconds 0 0 id l) = Ok w ->
  (forall k, Z.of_nat k < devices l -> g_addr (d_cfg (w_dev w k)) = (id + Z.of_nat k + 1) mod 2 ^ 48) /\
  (devices l <= 2 ^ 48 -> forall j k, Z.of_nat j < devices l -> Z.of_nat k < devices l ->
     g_addr (d_cfg (w_dev w j)) = g_addr (d_cfg (w_dev w k)) -> j = k).
Proof.
  intros N crc fcs tx_time has_mob pos seconds l w id HL HR.
  assert (X : forall k, Z.of_nat k < devices l -> g_addr (d_cfg (w_dev w k)) = (id + Z.of_nat k + 1) mod 2 ^ 48).
  { intros k HK. rewrite (run_config crc fcs tx_time has_mob Z g_addr address (fun g s => match s with CAddress _ => eq_refl | _ => eq_refl end) _ _ _ k HR).
    rewrite lg_program by assumption. cbn [Nat.leb andb]. destruct (Z.ltb_spec (Z.of_nat k) (Z.of_nat 0 + devices l)); [|lia]. f_equal. lia. }
  split; [exact X|]. intros HD j k HJ HK E. rewrite (X j HJ), (X k HK) in E.
  pose proof (Z.div_mod (id + Z.of_nat j + 1) (2 ^ 48) ltac:(lia)). pose proof (Z.div_mod (id + Z.of_nat k + 1) (2 ^ 48) ltac:(lia)).
  assert (Q : Z.of_nat j - Z.of_nat k = 2 ^ 48 * ((id + Z.of_nat j + 1) / 2 ^ 48 - (id + Z.of_nat k + 1) / 2 ^ 48)) by lia.
  revert Q. generalize ((id + Z.of_nat j + 1) / 2 ^ 48 - (id + Z.of_nat k + 1) / 2 ^ 48). intros q Q. clear - Q HD HJ HK.
  assert (q = 0) by nia. nia.
Qed.
Print Assumptions C64_addresses.

Definition ad_pos (n : nat) (t : Z) : vec NumZ := @V NumZ (Z.of_nat n) 0 0.
Definition ad_seconds (x : num NumZ) : Z := Z.abs x.
(** Two ISL networks, a transmission, and a satellite network. *)
Example ex_C64_addresses :
  let l := [AIslInstall (new_isl_helper (N := NumZ) ad_pos ad_seconds) [10; 11]%nat; AOp (OAdvance 5);
            AIslInstall (new_isl_helper ad_pos ad_seconds) [12; 13; 14]%nat;
            ALeoInstall (new_leo_helper ad_pos ad_seconds) [10]%nat [20; 21]%nat] in
  Forall no_address l /\ devices l = 8 /\
  holds (fun w : world NumZ => map (fun d => g_addr (d_cfg (w_dev w d))) (seq 0 8) = [1; 2; 3; 4; 5; 6; 7; 8])
    (run ex_crc true ex_tx ex_mob (initial_for l) (program ad_pos ad_seconds 0 0 0 l)).
Proof. split; [repeat constructor|]. split; [reflexivity|]. vm_compute. reflexivity. Qed.
