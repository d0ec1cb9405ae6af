(** Records and files of records. *)
Require Import ZArith QArith Qreduction Qpower List Bool Ascii Lia ZifyBool.
Require Import Verif.Base Verif.Num Verif.AllocModel Verif.ParseModel Verif.ParseSpec Verif.ParseProofs.
Import ListNotations.
Local Open Scope Z_scope.
Local Open Scope char_scope.
Local Open Scope list_scope.

Section Records.
  Variable N : Num.
  Variable to_double : bool -> Q -> option (num N).
  Variable failed_double : list ascii -> num N.
  Variable junk_char : ascii.
  Notation get_double := (get_double to_double failed_double).
  Notation read_latlong := (read_latlong to_double failed_double junk_char).
  Notation read_orbit := (read_orbit to_double failed_double junk_char).
  Notation location_text := (location_text (num N) to_double).
  Notation orbit_text := (orbit_text (num N) to_double).

  Lemma colon_space : ~ space ":".
  Proof. rewrite <- space_iff. discriminate. Qed.

  Lemma read_latlong_ok : forall t lat lon rest l, location_text t lat lon rest ->
    read_latlong (mkStream t false) l = (mkLatLong lat lon, mkStream rest false).
  Proof.
    intros t lat lon rest l (w1 & n1 & w2 & w3 & n2 & -> & W1 & W2 & W3 & R1 & R2 & E). unfold ParseModel.read_latlong.
    rewrite (get_double_ok _ to_double failed_double w1 n1 _ lat) by (try assumption; apply ends_number_sep; assumption).
    rewrite get_char_ok by (try assumption; exact colon_space).
    rewrite (get_double_ok _ to_double failed_double w3 n2 rest lon) by assumption. reflexivity.
  Qed.

  Lemma read_latlong_inv : forall t l l' s', read_latlong (mkStream t false) l = (l', s') -> st_failed s' = false ->
    exists rest, s' = mkStream rest false /\ location_text t (ll_lat l') (ll_lon l') rest.
  Proof.
    intros t l l' s' H F. unfold ParseModel.read_latlong in H.
    destruct (get_double (mkStream t false) (ll_lat l)) as [lat s1] eqn:E1.
    destruct (get_char s1 junk_char) as [c1 s2] eqn:E2. destruct (get_double s2 (ll_lon l)) as [lon s3] eqn:E3.
    destruct (Ascii.eqb_spec c1 ":") as [->|NC]; injection H as <- <-; [|discriminate].
    assert (F2 : st_failed s2 = false).
    { destruct (st_failed s2) eqn:X; [|reflexivity]. rewrite failed_double_stream in E3 by assumption. injection E3 as _ <-. congruence. }
    assert (F1 : st_failed s1 = false).
    { destruct (st_failed s1) eqn:X; [|reflexivity]. rewrite failed_char_stream in E2 by assumption. injection E2 as _ <-. congruence. }
    apply get_double_inv in E1 as (w1 & n1 & r1 & -> & -> & W1 & R1 & _); [|assumption].
    apply get_char_inv in E2 as (w2 & r2 & -> & -> & W2); [|assumption].
    apply get_double_inv in E3 as (w3 & n2 & r3 & -> & -> & W3 & R2 & E); [|assumption].
    exists r3. split; [reflexivity|]. exists w1, n1, w2, w3, n2. auto 10.
  Qed.

  Lemma read_orbit_ok : forall t alt inc p s rest o, orbit_text t alt inc p s rest ->
    read_orbit (mkStream t false) o = (mkLeoOrbit alt inc p s, mkStream rest false).
  Proof.
    intros t alt inc p s rest o (w1 & n1 & w2 & w3 & n2 & w4 & w5 & n3 & w6 & w7 & n4 & -> & W1 & W2 & W3 & W4 & W5 & W6 & W7 & R1 & R2 & U1 & U2 & E).
    unfold ParseModel.read_orbit.
    rewrite (get_double_ok _ to_double failed_double w1 n1 _ alt) by (try assumption; apply ends_number_sep; assumption).
    rewrite get_char_ok by (try assumption; exact colon_space).
    rewrite (get_double_ok _ to_double failed_double w3 n2 _ inc) by (try assumption; apply ends_number_sep; assumption).
    rewrite get_char_ok by (try assumption; exact colon_space).
    rewrite (get_u16_ok w5 n3 _ p) by (try assumption; apply ends_digits_sep; assumption).
    rewrite get_char_ok by (try assumption; exact colon_space).
    rewrite (get_u16_ok w7 n4 rest s) by assumption. reflexivity.
  Qed.

  Lemma read_orbit_inv : forall t o o' s', read_orbit (mkStream t false) o = (o', s') -> st_failed s' = false ->
    exists rest, s' = mkStream rest false /\ orbit_text t (lo_alt o') (lo_inc o') (lo_planes o') (lo_sats o') rest.
  Proof.
    intros t o o' s' H F. unfold ParseModel.read_orbit in H.
    destruct (get_double (mkStream t false) (lo_alt o)) as [alt s1] eqn:E1.
    destruct (get_char s1 junk_char) as [c1 s2] eqn:E2. destruct (get_double s2 (lo_inc o)) as [inc s3] eqn:E3.
    destruct (get_char s3 junk_char) as [c2 s4] eqn:E4. destruct (get_u16 s4 (lo_planes o)) as [p s5] eqn:E5.
    destruct (get_char s5 junk_char) as [c3 s6] eqn:E6. destruct (get_u16 s6 (lo_sats o)) as [q s7] eqn:E7.
    destruct (Ascii.eqb_spec c1 ":") as [->|NC]; [|injection H as <- <-; discriminate].
    destruct (Ascii.eqb_spec c2 ":") as [->|NC]; [|injection H as <- <-; discriminate].
    destruct (Ascii.eqb_spec c3 ":") as [->|NC]; injection H as <- <-; [|discriminate].
    assert (F6 : st_failed s6 = false).
    { destruct (st_failed s6) eqn:X; [|reflexivity]. rewrite failed_u16_stream in E7 by assumption. injection E7 as _ <-. congruence. }
    assert (F5 : st_failed s5 = false).
    { destruct (st_failed s5) eqn:X; [|reflexivity]. rewrite failed_char_stream in E6 by assumption. injection E6 as _ <-. congruence. }
    assert (F4 : st_failed s4 = false).
    { destruct (st_failed s4) eqn:X; [|reflexivity]. rewrite failed_u16_stream in E5 by assumption. injection E5 as _ <-. congruence. }
    assert (F3 : st_failed s3 = false).
    { destruct (st_failed s3) eqn:X; [|reflexivity]. rewrite failed_char_stream in E4 by assumption. injection E4 as _ <-. congruence. }
    assert (F2 : st_failed s2 = false).
    { destruct (st_failed s2) eqn:X; [|reflexivity]. rewrite failed_double_stream in E3 by assumption. injection E3 as _ <-. congruence. }
    assert (F1 : st_failed s1 = false).
    { destruct (st_failed s1) eqn:X; [|reflexivity]. rewrite failed_char_stream in E2 by assumption. injection E2 as _ <-. congruence. }
    apply get_double_inv in E1 as (w1 & n1 & r1 & -> & -> & W1 & R1 & _); [|assumption].
    apply get_char_inv in E2 as (w2 & r2 & -> & -> & W2); [|assumption].
    apply get_double_inv in E3 as (w3 & n2 & r3 & -> & -> & W3 & R2 & _); [|assumption].
    apply get_char_inv in E4 as (w4 & r4 & -> & -> & W4); [|assumption].
    apply get_u16_inv in E5 as (w5 & n3 & r5 & -> & -> & W5 & U1 & _); [|assumption].
    apply get_char_inv in E6 as (w6 & r6 & -> & -> & W6); [|assumption].
    apply get_u16_inv in E7 as (w7 & n4 & r7 & -> & -> & W7 & U2 & E); [|assumption].
    exists r7. split; [reflexivity|]. exists w1, n1, w2, w3, n2, w4, w5, n3, w6, w7, n4. auto 20.
  Qed.

  Lemma location_shorter : forall t lat lon rest, location_text t lat lon rest -> (length rest < length t)%nat.
  Proof.
    intros t lat lon rest (w1 & n1 & w2 & w3 & n2 & -> & _). rewrite !app_length. cbn. rewrite !app_length. lia.
  Qed.
  Lemma orbit_shorter : forall t alt inc p s rest, orbit_text t alt inc p s rest -> (length rest < length t)%nat.
  Proof.
    intros t alt inc p s rest (w1 & n1 & w2 & w3 & n2 & w4 & w5 & n3 & w6 & w7 & n4 & -> & _).
    rewrite !app_length. cbn. rewrite !app_length. cbn. rewrite !app_length. cbn. rewrite !app_length. lia.
  Qed.

  (** ** while (stream >> record) *)
  Lemma extracts_det : forall A (rd : stream -> A -> A * stream) s a l s', extracts rd s a l s' ->
    forall l2 s2, extracts rd s a l2 s2 -> l = l2 /\ s' = s2.
  Proof.
    induction 1 as [s a b s' H F|s a b s1 l s' H F E IH]; intros l2 s2 X; inversion X as [? ? b2 ? H2 F2|? ? b2 s3 l3 ? H2 F2 E2]; subst;
      rewrite H in H2; injection H2 as E1 E3; subst; try congruence; [auto|].
    destruct (IH _ _ E2) as [-> ->]. auto.
  Qed.

  Lemma location_file : forall n t l0, (length t <= n)%nat ->
    exists l s' rest, extracts read_latlong (mkStream t false) l0 l s' /\
      locations (num N) to_double t (map (fun l => (ll_lat l, ll_lon l)) l) rest.
  Proof.
    induction n as [|n IH]; intros t l0 L; destruct (read_latlong (mkStream t false) l0) as [l1 s1] eqn:E;
      (destruct (st_failed s1) eqn:F;
       [exists [], s1, t; split; [econstructor; eassumption|]; cbn; constructor; intros lat lon r T; rewrite (read_latlong_ok _ _ _ _ l0 T) in E;
        injection E as _ <-; discriminate|]);
      destruct (read_latlong_inv _ _ _ _ E F) as (r & -> & T); pose proof (location_shorter _ _ _ _ T) as SH; [lia|].
    destruct (IH r l1) as (l & s' & rest & X & Y); [lia|]. exists (l1 :: l), s', rest. split; [econstructor; eassumption|].
    cbn. econstructor; eassumption.
  Qed.
  Lemma orbit_file : forall n t o0, (length t <= n)%nat ->
    exists l s' rest, extracts read_orbit (mkStream t false) o0 l s' /\
      orbits (num N) to_double t (map (fun o => (lo_alt o, lo_inc o, lo_planes o, lo_sats o)) l) rest.
  Proof.
    induction n as [|n IH]; intros t l0 L; destruct (read_orbit (mkStream t false) l0) as [l1 s1] eqn:E;
      (destruct (st_failed s1) eqn:F;
       [exists [], s1, t; split; [econstructor; eassumption|]; cbn; constructor; intros alt inc p s r T; rewrite (read_orbit_ok _ _ _ _ _ _ l0 T) in E;
        injection E as _ <-; discriminate|]);
      destruct (read_orbit_inv _ _ _ _ E F) as (r & -> & T); pose proof (orbit_shorter _ _ _ _ _ _ T) as SH; [lia|].
    destruct (IH r l1) as (l & s' & rest & X & Y); [lia|]. exists (l1 :: l), s', rest. split; [econstructor; eassumption|].
    cbn. econstructor; eassumption.
  Qed.
End Records.

(** ** Output *)
Lemma value_app : forall a b, value (a ++ b) = value a * 10 ^ Z.of_nat (length b) + value b.
Proof.
  induction a as [|c a IH]; intros b; cbn [app value]; [lia|]. rewrite IH, app_length, Nat2Z.inj_add, Z.pow_add_r by lia. ring.
Qed.
Lemma digit_char_digit : forall d, 0 <= d < 10 -> digit (digit_char d) /\ Z.of_nat (nat_of_ascii (digit_char d)) - Z.of_nat (nat_of_ascii "0") = d.
Proof.
  intros d H. assert (d = 0 \/ d = 1 \/ d = 2 \/ d = 3 \/ d = 4 \/ d = 5 \/ d = 6 \/ d = 7 \/ d = 8 \/ d = 9) as X by lia.
  repeat (destruct X as [->|X]; [split; [apply digit_iff; reflexivity|reflexivity]|]). subst. split; [apply digit_iff; reflexivity|reflexivity].
Qed.
Lemma show_digits_spec : forall f n acc, 0 <= n < 2 ^ Z.of_nat f -> digits acc -> (0 < f)%nat ->
  exists ds, show_digits f n acc = ds ++ acc /\ digits ds /\ ds <> [] /\ value ds = n.
Proof.
  induction f as [|f IH]; intros n acc H D L; [lia|]. cbn [show_digits]. destruct (Z.ltb_spec n 10) as [A|A].
  - destruct (digit_char_digit n) as [P Q]; [lia|]. exists [digit_char n]. split; [reflexivity|]. split; [apply Forall_cons; [exact P|constructor]|].
    split; [discriminate|]. cbn [value length]. rewrite Q. cbn. lia.
  - assert (B : 0 <= n mod 10 < 10) by (apply Z.mod_pos_bound; lia). destruct (digit_char_digit (n mod 10) B) as [P Q].
    rewrite Nat2Z.inj_succ, Z.pow_succ_r in H by lia.
    assert (LF : (0 < f)%nat).
    { destruct f; [cbn in H; lia|lia]. }
    destruct (IH (n / 10) (digit_char (n mod 10) :: acc)) as (ds & E & DS & NE & V); [|constructor; assumption|exact LF|].
    + split; [apply Z.div_pos; lia|]. apply Z.div_lt_upper_bound; lia.
    + exists (ds ++ [digit_char (n mod 10)]). split; [rewrite E, <- app_assoc; reflexivity|]. split; [apply Forall_app; split; [assumption|apply Forall_cons; [exact P|constructor]]|].
      split; [destruct ds; discriminate|]. rewrite value_app, V. cbn [value length]. rewrite Q. cbn. pose proof (Z.div_mod n 10). lia.
Qed.
Lemma show_spec : forall n, 0 <= n -> digits (show n) /\ show n <> [] /\ value (show n) = n.
Proof.
  intros n H. unfold show. destruct (show_digits_spec (S (Z.to_nat (Z.log2 n))) n []) as (ds & -> & A & B & C); [|constructor|lia|].
  - rewrite Nat2Z.inj_succ, Z2Nat.id by apply Z.log2_nonneg. split; [assumption|].
    destruct (Z.eq_dec n 0) as [->|NZ]; [reflexivity|]. apply Z.log2_spec. lia.
  - rewrite app_nil_r. auto.
Qed.

Lemma zeros_digits : forall n, digits (repeat "0" n).
Proof. induction n; cbn; constructor; [apply digit_iff; reflexivity|assumption]. Qed.
Lemma zeros_value : forall n, value (repeat "0" n) = 0.
Proof. induction n as [|n IH]; [reflexivity|]. cbn [repeat value]. rewrite IH. lia. Qed.
Lemma digits_firstn : forall n l, digits l -> digits (firstn n l).
Proof. induction n as [|n IH]; intros l D; [constructor|]. destruct D; cbn; constructor; auto. apply IH. assumption. Qed.
Lemma digits_skipn : forall n l, digits l -> digits (skipn n l).
Proof. induction n as [|n IH]; intros l D; [assumption|]. destruct D; cbn; [constructor|]. apply IH. assumption. Qed.

Lemma decimal_zero : forall e, decimal 0 e = decimal 0 0.
Proof. intros e. unfold decimal. apply Qred_complete. unfold inject_Z. rewrite !Qmult_0_l. reflexivity. Qed.
Lemma decimal_shift : forall m e, 0 <= e -> decimal (m * 10 ^ e) 0 = decimal m e.
Proof.
  intros m e H. unfold decimal. apply Qred_complete. change (Qpower (10 # 1) 0) with 1%Q. rewrite Qmult_1_r, inject_Z_mult, Zpower_Qpower by assumption. reflexivity.
Qed.

Lemma minus_sign : forall neg : bool, sign (if neg then ["-"] else []) neg.
Proof. intros []; constructor. Qed.

(** Printed numbers denote the value they were printed from. *)
Lemma show_g_denotes : forall neg m e, 0 <= m -> exists m' e', denotes (show_g neg m e) neg m' e' /\ decimal m' e' = decimal m e.
Proof.
  intros neg m e H. unfold show_g. destruct (Z.eqb_spec m 0) as [->|NZ].
  - exists 0, 0. split; [|rewrite (decimal_zero e); reflexivity].
    pose proof (denotes_intro _ _ _ _ _ [] 0 (minus_sign neg) (mantissa_integer ["0"] ltac:(repeat constructor))) as X. rewrite !app_nil_r in X.
    apply X; [discriminate|constructor].
  - destruct (show_spec m H) as (D & NE & V). set (ds := show m) in *. cbv zeta. set (k := Z.of_nat (length ds)). set (x := e + k - 1).
    assert (K : 1 <= k) by (unfold k; destruct ds; [congruence|cbn; lia]).
    destruct ((-4 <=? x)%Z && (x <? 6)%Z)%bool.
    + destruct (Z.leb_spec 0 e) as [E|E].
      * exists (m * 10 ^ e), 0. split; [|apply decimal_shift; assumption].
        assert (DZ : digits (ds ++ repeat "0" (Z.to_nat e))) by (apply Forall_app; split; [assumption|apply zeros_digits]).
        pose proof (denotes_intro _ _ _ _ _ [] 0 (minus_sign neg) (mantissa_integer _ DZ)) as X. rewrite !app_nil_r in X.
        rewrite value_app, zeros_value, repeat_length, Z2Nat.id, V, Z.add_0_r in X by assumption. apply X; [|constructor]. destruct ds; [congruence|discriminate].
      * exists m, e. split; [|reflexivity]. destruct (Z.leb_spec 0 x) as [XP|XN].
        -- set (i := Z.to_nat (x + 1)).
           assert (LS : Z.of_nat (length (skipn i ds)) = - e) by (rewrite skipn_length; unfold i, x, k in *; lia).
           pose proof (denotes_intro _ _ _ _ _ [] 0 (minus_sign neg) (mantissa_point (firstn i ds) (skipn i ds) (digits_firstn _ _ D) (digits_skipn _ _ D))) as X.
           rewrite firstn_skipn, V, LS, app_nil_r in X. replace (0 - - e) with e in X by lia. apply X; [assumption|constructor].
        -- set (z := repeat "0" (Z.to_nat (- x - 1))).
           assert (DZ : digits (z ++ ds)) by (apply Forall_app; split; [apply zeros_digits|assumption]).
           assert (LS : Z.of_nat (length (z ++ ds)) = - e) by (rewrite app_length; unfold z; rewrite repeat_length; unfold x, k in *; lia).
           pose proof (denotes_intro _ _ _ _ _ [] 0 (minus_sign neg) (mantissa_point ["0"] (z ++ ds) ltac:(repeat constructor) DZ)) as X.
           assert (VZ : value (["0"] ++ z ++ ds) = m).
           { cbn [app value]. rewrite value_app. unfold z at 2. rewrite zeros_value, V.
             change (Z.of_nat (nat_of_ascii "0") - Z.of_nat (nat_of_ascii "0")) with 0. lia. }
           rewrite VZ, LS, app_nil_r in X. replace (0 - - e) with e in X by lia. apply X; [discriminate|constructor].
    + exists m, e. split; [|reflexivity].
      assert (EX : exponent ("e" :: (if (x <? 0)%Z then "-" else "+") :: (if (Z.abs x <? 10)%Z then "0" :: show (Z.abs x) else show (Z.abs x))) x).
      { destruct (show_spec (Z.abs x)) as (DX & NX & VX); [lia|].
        set (xs := if (Z.abs x <? 10)%Z then "0" :: show (Z.abs x) else show (Z.abs x)).
        assert (XS : digits xs /\ xs <> [] /\ value xs = Z.abs x).
        { unfold xs. destruct (Z.abs x <? 10)%Z; [|auto]. split; [constructor; [apply digit_iff; reflexivity|assumption]|]. split; [discriminate|].
          cbn [value]. rewrite VX. lia. }
        destruct XS as (X1 & X2 & X3). destruct (Z.ltb_spec x 0).
        - pose proof (exponent_some "e" ["-"] true xs (or_introl eq_refl) sign_minus X1 X2) as Y. cbv iota in Y.
          replace (- value xs) with x in Y by lia. exact Y.
        - pose proof (exponent_some "e" ["+"] false xs (or_introl eq_refl) sign_plus X1 X2) as Y. cbv iota in Y.
          replace (value xs) with x in Y by lia. exact Y. }
      destruct ds as [|d r] eqn:DS; [congruence|]. cbn [firstn skipn]. destruct (Z.ltb_spec 1 k) as [K1|K1].
      * pose proof (denotes_intro _ _ _ _ _ _ _ (minus_sign neg) (mantissa_point [d] r (digits_firstn 1 _ D) (digits_skipn 1 _ D)) ltac:(discriminate) EX) as X.
        cbn [app] in X. rewrite V in X. replace (x - Z.of_nat (length r)) with e in X by (unfold x, k; cbn [length]; lia). exact X.
      * assert (r = []) by (destruct r; [reflexivity|unfold k in K1; cbn in K1; lia]). subst r.
        pose proof (denotes_intro _ _ _ _ _ _ _ (minus_sign neg) (mantissa_integer [d] D) ltac:(discriminate) EX) as X.
        rewrite app_nil_r, V in X. cbn [length] in X. replace (x - Z.of_nat 0) with e in X by (unfold x, k; cbn [length]; lia). exact X.
Qed.

(** ** Printing and reading *)
Section RoundTrip.
  Variable N : Num.
  Variable to_double : bool -> Q -> option (num N).
  Variable failed_double : list ascii -> num N.
  Variable junk_char : ascii.
  Variable six_digits : num N -> bool * Z * Z.

  (** The decimal number that is printed is read as [x]. *)
  Definition printed_exactly (x : num N) : Prop :=
    exists neg m e, six_digits x = (neg, m, e) /\ 0 <= m < 1000000 /\ (m = 0 \/ m mod 10 <> 0) /\ to_double neg (decimal m e) = Some x.

  Lemma put_double_text : forall x, printed_exactly x -> real_text (num N) to_double (put_double six_digits x) x.
  Proof.
    intros x (neg & m & e & S & M & _ & T). unfold put_double. rewrite S. destruct (show_g_denotes neg m e) as (m' & e' & D & V); [lia|].
    exists neg, m', e'. split; [assumption|]. unfold decimal in V. rewrite V. exact T.
  Qed.
  Lemma show_text : forall n, 0 <= n <= 65535 -> u16_text (show n) n.
  Proof.
    intros n H. destruct (show_spec n) as (A & B & C); [lia|]. exists [], false, (show n). repeat split; auto; [constructor|lia].
  Qed.

  Definition blank (w : list ascii) : Prop := spaces w /\ w <> [].
  Lemma blank_ends_number : forall n w r, blank w -> ends_number n (w ++ r).
  Proof. intros n w r [W NE]. destruct w as [|c w]; [congruence|]. cbn. apply ends_number_at. inversion W; subst. apply space_stops. assumption. Qed.
  Lemma blank_ends_digits : forall w r, blank w -> ends_digits (w ++ r).
  Proof.
    intros w r [W NE] c r' H. destruct w as [|x w]; [congruence|]. cbn in H. injection H as <- _. inversion W; subst. rewrite <- digit_iff.
    apply space_stops in H1. destruct (is_digit x); [discriminate|congruence].
  Qed.

  Lemma latlong_text : forall v l w rest, spaces v -> printed_exactly (ll_lat l) -> printed_exactly (ll_lon l) -> blank w ->
    location_text (num N) to_double (v ++ print_latlong six_digits l ++ w ++ rest) (ll_lat l) (ll_lon l) (w ++ rest).
  Proof.
    intros v l w rest V A B W. exists v, (put_double six_digits (ll_lat l)), [], [], (put_double six_digits (ll_lon l)).
    split; [unfold print_latlong; rewrite <- app_assoc; reflexivity|]. split; [assumption|]. split; [constructor|]. split; [constructor|].
    split; [apply put_double_text; assumption|]. split; [apply put_double_text; assumption|apply blank_ends_number; assumption].
  Qed.
  Lemma orbit_text_printed : forall v o w rest, spaces v -> printed_exactly (lo_alt o) -> printed_exactly (lo_inc o) ->
    0 <= lo_planes o <= 65535 -> 0 <= lo_sats o <= 65535 -> blank w ->
    orbit_text (num N) to_double (v ++ print_orbit six_digits o ++ w ++ rest) (lo_alt o) (lo_inc o) (lo_planes o) (lo_sats o) (w ++ rest).
  Proof.
    intros v o w rest V A B P S W.
    exists v, (put_double six_digits (lo_alt o)), [], [], (put_double six_digits (lo_inc o)), [], [], (show (lo_planes o)), [], [], (show (lo_sats o)).
    split; [unfold print_orbit; rewrite <- app_assoc; cbn [app]; rewrite <- app_assoc; cbn [app]; rewrite <- app_assoc; reflexivity|].
    split; [assumption|]. do 6 (split; [constructor|]). split; [apply put_double_text; assumption|]. split; [apply put_double_text; assumption|].
    split; [apply show_text; assumption|]. split; [apply show_text; assumption|apply blank_ends_digits; assumption].
  Qed.

  (** Records with blanks after each of them *)
  Fixpoint lines {A : Type} (print : A -> list ascii) (l : list (A * list ascii)) : list ascii :=
    match l with
    | [] => []
    | (a, w) :: r => print a ++ w ++ lines print r
    end.

  Lemma latlong_round_trip : forall l v l0, spaces v ->
    Forall (fun p => printed_exactly (ll_lat (fst p)) /\ printed_exactly (ll_lon (fst p)) /\ blank (snd p)) l ->
    exists s', extracts (read_latlong to_double failed_double junk_char) (mkStream (v ++ lines (print_latlong six_digits) l) false) l0 (map fst l) s'.
  Proof.
    induction l as [|[a w] l IH]; intros v l0 V F.
    - cbn [lines]. rewrite app_nil_r. destruct (read_latlong to_double failed_double junk_char (mkStream v false) l0) as [b s'] eqn:E. exists s'.
      econstructor; [exact E|]. destruct (st_failed s') eqn:X; [reflexivity|exfalso].
      destruct (read_latlong_inv _ _ _ _ _ _ _ _ E X) as (rest & _ & (w1 & n1 & w2 & w3 & n2 & T & _)).
      subst v. apply Forall_app in V as [_ V]. apply Forall_app in V as [_ V]. apply Forall_app in V as [_ V]. inversion V; subst. exact (colon_space H1).
    - inversion F as [|? ? (A & B & W) F']; subst. cbn [fst snd lines map] in *. destruct (IH w a) as (s' & X); [apply W|assumption|].
      exists s'. pose proof (read_latlong_ok N to_double failed_double junk_char _ _ _ _ l0 (latlong_text v a w (lines (print_latlong six_digits) l) V A B W)) as R.
      destruct a as [x y]. eapply extracts_next; [exact R|reflexivity|exact X].
  Qed.
  Lemma orbit_round_trip : forall l v o0, spaces v ->
    Forall (fun p => printed_exactly (lo_alt (fst p)) /\ printed_exactly (lo_inc (fst p)) /\
                     0 <= lo_planes (fst p) <= 65535 /\ 0 <= lo_sats (fst p) <= 65535 /\ blank (snd p)) l ->
    exists s', extracts (read_orbit to_double failed_double junk_char) (mkStream (v ++ lines (print_orbit six_digits) l) false) o0 (map fst l) s'.
  Proof.
    induction l as [|[a w] l IH]; intros v l0 V F.
    - cbn [lines]. rewrite app_nil_r. destruct (read_orbit to_double failed_double junk_char (mkStream v false) l0) as [b s'] eqn:E. exists s'.
      econstructor; [exact E|]. destruct (st_failed s') eqn:X; [reflexivity|exfalso].
      destruct (read_orbit_inv _ _ _ _ _ _ _ _ E X) as (rest & _ & (w1 & n1 & w2 & w3 & n2 & w4 & w5 & n3 & w6 & w7 & n4 & T & _)).
      subst v. apply Forall_app in V as [_ V]. apply Forall_app in V as [_ V]. apply Forall_app in V as [_ V]. inversion V; subst. exact (colon_space H1).
    - inversion F as [|? ? (A & B & P & S & W) F']; subst. cbn [fst snd lines map] in *. destruct (IH w a) as (s' & X); [apply W|assumption|].
      exists s'. pose proof (read_orbit_ok N to_double failed_double junk_char _ _ _ _ _ _ l0 (orbit_text_printed v a w (lines (print_orbit six_digits) l) V A B P S W)) as R.
      destruct a as [x y p q]. eapply extracts_next; [exact R|reflexivity|exact X].
  Qed.
End RoundTrip.
