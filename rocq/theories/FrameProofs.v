Require Import ZArith List Bool Lia ZifyBool.
Require Import Verif.Base Verif.FrameModel.
Import ListNotations.
Local Open Scope Z_scope.

Lemma len_app : forall A (a b : list A), len (a ++ b) = len a + len b.
Proof. intros. unfold len. rewrite app_length. lia. Qed.
Lemma len_cons : forall A (a : A) b, len (a :: b) = 1 + len b.
Proof. intros. unfold len. cbn [length]. lia. Qed.
Lemma len_nil : forall A, len (@nil A) = 0.
Proof. reflexivity. Qed.
Lemma len_pos : forall A (l : list A), 0 <= len l.
Proof. intros. unfold len. lia. Qed.

Lemma be16_read : forall x, 0 <= x < 65536 -> of_be (be16 x) = x.
Proof.
  intros x Hx. unfold of_be, be16. cbn [fold_left].
  pose proof (Z.div_mod x 256 ltac:(lia)). pose proof (Z.mod_pos_bound x 256 ltac:(lia)).
  rewrite (Z.mod_small (x / 256)); [lia|].
  split; [apply Z.div_pos; lia|apply Z.div_lt_upper_bound; lia].
Qed.

Ltac digit x d q :=
  pose proof (Z.div_mod x d ltac:(lia)); pose proof (Z.mod_pos_bound x d ltac:(lia)); set (q := x / d) in *.

Lemma mac_read : forall a, 0 <= a < 281474976710656 -> of_be (mac_bytes a) = a.
Proof.
  intros a Ha. unfold of_be, mac_bytes. cbn [fold_left].
  replace (a / 1099511627776) with (a / 256 / 256 / 256 / 256 / 256) by (rewrite !Z.div_div by lia; reflexivity).
  replace (a / 4294967296) with (a / 256 / 256 / 256 / 256) by (rewrite !Z.div_div by lia; reflexivity).
  replace (a / 16777216) with (a / 256 / 256 / 256) by (rewrite !Z.div_div by lia; reflexivity).
  replace (a / 65536) with (a / 256 / 256) by (rewrite !Z.div_div by lia; reflexivity).
  digit a 256 q1. digit q1 256 q2. digit q2 256 q3. digit q3 256 q4. digit q4 256 q5.
  rewrite (Z.mod_small q5) by lia. lia.
Qed.

Lemma le32_read : forall x, 0 <= x < 4294967296 -> of_le (le32 x) = x.
Proof.
  intros a Ha. unfold of_le, le32. cbn [fold_right].
  replace (a / 16777216) with (a / 256 / 256 / 256) by (rewrite !Z.div_div by lia; reflexivity).
  replace (a / 65536) with (a / 256 / 256) by (rewrite !Z.div_div by lia; reflexivity).
  digit a 256 q1. digit q1 256 q2. digit q2 256 q3.
  rewrite (Z.mod_small q3) by lia. lia.
Qed.

Lemma firstn_app_exact : forall A (a b : list A), firstn (length a) (a ++ b) = a.
Proof. intros. rewrite firstn_app, Nat.sub_diag, firstn_all. cbn. apply app_nil_r. Qed.
Lemma skipn_app_exact : forall A (a b : list A), skipn (length a) (a ++ b) = b.
Proof. intros. rewrite skipn_app, Nat.sub_diag, skipn_all. reflexivity. Qed.

Lemma len_llc : forall q p, len ([170; 170; 3; 0; 0; 0] ++ be16 q ++ p) = len p + 8.
Proof.
  intros. rewrite !len_app. change (len [170; 170; 3; 0; 0; 0]) with 6. change (len (be16 q)) with 2. lia.
Qed.

Section Frame.
  Variable crc : list Z -> Z.

  Lemma crc32_range : forall l, 0 <= crc32 crc l < 4294967296.
  Proof. intros. apply Z.mod_pos_bound. lia. Qed.

  (** The part between header and trailer. *)
  Definition body46 (q : Z) (p : list Z) : list Z :=
    let p1 := [170; 170; 3; 0; 0; 0] ++ be16 q ++ p in
    if len p1 <? 46 then p1 ++ repeat 0 (46 - length p1) else p1.

  Lemma body46_shape : forall q p, exists pad, body46 q p = ([170; 170; 3; 0; 0; 0] ++ be16 q ++ p) ++ pad /\
    len pad = Z.max 0 (38 - len p).
  Proof.
    intros q p. unfold body46.
    pose proof (len_llc q p) as E.
    destruct (Z.ltb_spec (len ([170; 170; 3; 0; 0; 0] ++ be16 q ++ p)) 46) as [L|L].
    - eexists. split; [reflexivity|]. unfold len at 1. rewrite repeat_length. unfold len in *. lia.
    - exists []. rewrite app_nil_r. split; [reflexivity|]. rewrite len_nil. lia.
  Qed.

  Lemma AddHeader_shape : forall fcs src dst q p,
    AddHeader crc fcs src dst q p =
    (mac_bytes dst ++ mac_bytes src ++ be16 ((len p + 8) mod 65536) ++ body46 q p) ++
    le32 (if fcs then crc32 crc (mac_bytes dst ++ mac_bytes src ++ be16 ((len p + 8) mod 65536) ++ body46 q p) else 0).
  Proof.
    intros. unfold AddHeader, body46.
    pose proof (len_llc q p) as E.
    rewrite E. reflexivity.
  Qed.

  Lemma AddHeader_len : forall fcs src dst q p,
    len (AddHeader crc fcs src dst q p) = Z.max 46 (len p + 8) + 18.
  Proof.
    intros. rewrite AddHeader_shape. destruct (body46_shape q p) as (pad & -> & Hp).
    rewrite (len_app _ _ (le32 _)). rewrite (len_app _ (mac_bytes dst)), (len_app _ (mac_bytes src)), (len_app _ (be16 _)).
    rewrite (len_app _ _ pad), len_llc, Hp.
    change (len (mac_bytes dst)) with 6. change (len (mac_bytes src)) with 6.
    change (len (be16 ((len p + 8) mod 65536))) with 2.
    match goal with |- context [len (le32 ?x)] => change (len (le32 x)) with 4 end. lia.
  Qed.

  (** What the receiver makes of a frame, by size. *)
  Lemma Decapsulate_AddHeader : forall f1 f2 src dst q p,
    0 <= src < 281474976710656 -> 0 <= dst < 281474976710656 -> 0 <= q < 65536 ->
    f2 = false \/ f1 = true ->
    Decapsulate crc f2 (AddHeader crc f1 src dst q p) =
      let lt := (len p + 8) mod 65536 in
      if lt <=? 1500
      then if len p + 8 <? 65536 then Ok (Frame p q src dst) else Abort AssertPadding
      else Ok (Frame ([170; 170; 3; 0; 0; 0] ++ be16 q ++ p) lt src dst).
  Proof.
    intros f1 f2 src dst q p Hs Hd Hq Hf. cbv zeta. rewrite AddHeader_shape.
    set (lt := (len p + 8) mod 65536).
    assert (Hlt : 0 <= lt < 65536) by (apply Z.mod_pos_bound; lia).
    pose proof (len_pos _ p) as Hp0.
    set (b := mac_bytes dst ++ mac_bytes src ++ be16 lt ++ body46 q p).
    set (t := le32 (if f1 then crc32 crc b else 0)).
    assert (Ht : length t = 4%nat) by reflexivity.
    unfold Decapsulate.
    assert (L4 : len (b ++ t) <? 4 = false).
    { apply Z.ltb_ge. rewrite len_app. unfold len at 2. rewrite Ht. pose proof (len_pos _ b). lia. }
    rewrite L4.
    assert (Ln : (length (b ++ t) - 4)%nat = length b) by (rewrite app_length, Ht; lia).
    rewrite Ln, firstn_app_exact, skipn_app_exact.
    assert (Hcrc : (f2 && negb (crc32 crc b =? of_le t)) = false).
    { destruct Hf as [->| ->]; [reflexivity|]. unfold t. rewrite le32_read by apply crc32_range.
      rewrite Z.eqb_refl. apply andb_false_r. }
    rewrite Hcrc.
    destruct (body46_shape q p) as (pad & Hb & Hpad).
    assert (L14 : len b <? 14 = false).
    { apply Z.ltb_ge. unfold b. rewrite (len_app _ (mac_bytes dst)), (len_app _ (mac_bytes src)), (len_app _ (be16 lt)).
      change (len (mac_bytes dst)) with 6. change (len (mac_bytes src)) with 6. change (len (be16 lt)) with 2.
      pose proof (len_pos _ (body46 q p)). lia. }
    rewrite L14.
    change (firstn 6 b) with (mac_bytes dst). change (firstn 6 (skipn 6 b)) with (mac_bytes src).
    change (firstn 2 (skipn 12 b)) with (be16 lt). change (skipn 14 b) with (body46 q p).
    rewrite !mac_read, be16_read by lia.
    assert (Hlenb : len (body46 q p) = Z.max 46 (len p + 8)).
    { rewrite Hb, len_app, len_llc, Hpad. lia. }
    destruct (Z.leb_spec lt 1500) as [Hle|Hgt].
    - destruct (Z.ltb_spec (len p + 8) 65536) as [Hsm|Hbig].
      + assert (E : lt = len p + 8) by (apply Z.mod_small; lia).
        destruct (Z.ltb_spec (len (body46 q p)) lt); [lia|].
        destruct (Z.ltb_spec 46 (len (body46 q p) - lt)); [lia|].
        assert (F : firstn (Z.to_nat lt) (body46 q p) = [170; 170; 3; 0; 0; 0] ++ be16 q ++ p).
        { rewrite Hb. replace (Z.to_nat lt) with (length ([170; 170; 3; 0; 0; 0] ++ be16 q ++ p)); [apply firstn_app_exact|].
          pose proof (len_llc q p) as X. rewrite <- E in X. rewrite <- X. unfold len. lia. }
        rewrite F.
        destruct (Z.ltb_spec (len ([170; 170; 3; 0; 0; 0] ++ be16 q ++ p)) 8) as [L|L].
        { rewrite len_llc in L. lia. }
        change (skipn 8 ([170; 170; 3; 0; 0; 0] ++ be16 q ++ p)) with p.
        change (firstn 2 (skipn 6 ([170; 170; 3; 0; 0; 0] ++ be16 q ++ p))) with (be16 q).
        rewrite be16_read by lia. reflexivity.
      + destruct (Z.ltb_spec (len (body46 q p)) lt); [reflexivity|].
        destruct (Z.ltb_spec 46 (len (body46 q p) - lt)); [reflexivity|lia].
    - assert (Hn : pad = []).
      { assert (len pad = 0); [|destruct pad; [reflexivity|unfold len in H; cbn in H; lia]].
        rewrite Hpad. assert (lt <= len p + 8) by (apply Z.mod_le; lia). lia. }
      rewrite Hb, Hn, app_nil_r. reflexivity.
  Qed.
End Frame.
