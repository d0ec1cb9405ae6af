(** Formatted input. *)
Require Import ZArith QArith Qreduction List Bool Ascii Lia ZifyBool.
Require Import Verif.Base Verif.ParseModel Verif.ParseSpec.
Import ListNotations.
Local Open Scope Z_scope.
Local Open Scope char_scope.
Local Open Scope list_scope.

(** ** Characters *)
Ltac all_chars c := destruct c as [[] [] [] [] [] [] [] []].

Lemma digit_iff : forall c, is_digit c = true <-> digit c.
Proof.
  intros c; split; intros H.
  - unfold digit. all_chars c; try discriminate H; cbn; tauto.
  - unfold digit in H. cbn in H. repeat (destruct H as [<-|H]; [reflexivity|]). contradiction.
Qed.
Lemma space_iff : forall c, is_space c = true <-> space c.
Proof.
  intros c; split; intros H.
  - unfold space. all_chars c; try discriminate H; cbn; tauto.
  - unfold space in H. cbn in H. repeat (destruct H as [<-|H]; [reflexivity|]). contradiction.
Qed.
Lemma digit_false : forall c, is_digit c = false <-> ~ digit c.
Proof. intros c. rewrite <- digit_iff. destruct (is_digit c); split; congruence. Qed.
Lemma space_false : forall c, is_space c = false <-> ~ space c.
Proof. intros c. rewrite <- space_iff. destruct (is_space c); split; congruence. Qed.
Lemma digit_value_range : forall c, digit c -> 0 <= digit_value c <= 9.
Proof. intros c H. apply digit_iff in H. unfold is_digit in H. unfold digit_value. lia. Qed.
Lemma exp_iff : forall c, is_exp c = true <-> c = "e" \/ c = "E".
Proof. intros c. unfold is_exp. rewrite orb_true_iff, !Ascii.eqb_eq. tauto. Qed.
Lemma sign_iff : forall c, is_sign c = true <-> c = "+" \/ c = "-".
Proof. intros c. unfold is_sign. rewrite orb_true_iff, !Ascii.eqb_eq. tauto. Qed.
Lemma digit_not : forall c, digit c -> is_sign c = false /\ Ascii.eqb c "." = false /\ is_exp c = false /\ is_space c = false /\ Ascii.eqb c "-" = false /\ Ascii.eqb c "+" = false.
Proof. intros c H. unfold digit in H. cbn in H. repeat (destruct H as [<-|H]; [repeat split|]). contradiction. Qed.

(** ** Blanks *)
Lemma skip_ws_spec : forall t, exists w, t = w ++ skip_ws t /\ spaces w /\ (forall c r, skip_ws t = c :: r -> ~ space c).
Proof.
  induction t as [|c r IH]; cbn.
  - exists []. repeat split; [constructor|discriminate].
  - destruct (is_space c) eqn:E.
    + destruct IH as (w & A & B & C). exists (c :: w). split; [cbn; congruence|]. split; [|exact C]. constructor; [apply space_iff; exact E|exact B].
    + exists []. split; [reflexivity|]. split; [constructor|]. intros c' r' X. injection X as <- <-. apply space_false. exact E.
Qed.
Lemma skip_ws_app : forall w t, spaces w -> (forall c r, t = c :: r -> ~ space c) -> skip_ws (w ++ t) = t.
Proof.
  induction w as [|c w IH]; intros t H N; cbn.
  - destruct t as [|c r]; [reflexivity|]. cbn. rewrite (proj2 (space_false c)); [reflexivity|]. exact (N c r eq_refl).
  - inversion H; subst. rewrite (proj2 (space_iff c)) by assumption. apply IH; assumption.
Qed.

(** ** Digits *)
Lemma take_digits_spec : forall t a b, take_digits t = (a, b) <-> t = a ++ b /\ digits a /\ ends_digits b.
Proof.
  induction t as [|c r IH]; intros a b; cbn.
  - split; [intros H; injection H as <- <-; repeat split; [constructor|discriminate]|].
    intros (H & _ & _). destruct a; [|discriminate]. cbn in H. subst. reflexivity.
  - destruct (is_digit c) eqn:E.
    + destruct (take_digits r) as [a' b'] eqn:T. split.
      * intros H. injection H as <- <-. destruct (proj1 (IH a' b') eq_refl) as (A & B & C). split; [cbn; congruence|]. split; [|exact C].
        constructor; [apply digit_iff; exact E|exact B].
      * intros (H & B & C). destruct a as [|x a].
        -- exfalso. cbn in H. apply (C c r); [congruence|]. apply digit_iff. exact E.
        -- cbn in H. injection H as <- H. inversion B; subst x l. assert (X : (a', b') = (a, b)) by (apply IH; auto). congruence.
    + split.
      * intros H. injection H as <- <-. split; [reflexivity|]. split; [constructor|]. intros c' r' X. injection X as <- <-.
        apply digit_false. exact E.
      * intros (H & B & C). destruct a as [|x a]; [cbn in H; congruence|]. cbn in H. injection H as <- ->. inversion B; subst.
        apply digit_false in E. contradiction.
Qed.
Lemma take_digits_app : forall a b, digits a -> ends_digits b -> take_digits (a ++ b) = (a, b).
Proof. intros a b A B. apply take_digits_spec. auto. Qed.

Lemma number_acc : forall ds acc, number acc ds = acc * 10 ^ Z.of_nat (length ds) + value ds.
Proof.
  induction ds as [|c r IH]; intros acc.
  - cbn. lia.
  - change (number acc (c :: r)) with (number (10 * acc + digit_value c) r). rewrite IH. cbn [value length].
    rewrite Nat2Z.inj_succ, Z.pow_succ_r by lia. unfold digit_value. change (Z.of_nat (nat_of_ascii "0")) with 48. ring.
Qed.
Lemma number_value : forall ds, number 0 ds = value ds.
Proof. intros. rewrite number_acc. lia. Qed.

(** ** Signs *)
Lemma take_sign_spec : forall t neg u, take_sign t = (neg, u) ->
  exists s, t = s ++ u /\ sign s neg /\ (s = [] -> forall c r, u = c :: r -> is_sign c = false).
Proof.
  intros t neg u H. unfold take_sign in H. destruct t as [|c r].
  - injection H as <- <-. exists []. repeat split; [constructor|discriminate].
  - destruct (Ascii.eqb_spec c "-") as [->|N1]; [|destruct (Ascii.eqb_spec c "+") as [->|N2]]; injection H as <- <-.
    + exists ["-"]. split; [reflexivity|]. split; [constructor|discriminate].
    + exists ["+"]. split; [reflexivity|]. split; [constructor|discriminate].
    + exists []. split; [reflexivity|]. split; [constructor|]. intros _ c' r' X. injection X as <- <-.
      destruct (is_sign c) eqn:E; [|reflexivity]. apply sign_iff in E. tauto.
Qed.
Lemma take_sign_app : forall s neg u, sign s neg -> (forall c r, u = c :: r -> is_sign c = false) -> take_sign (s ++ u) = (neg, u).
Proof.
  intros s neg u H N. inversion H; subst; [|reflexivity|reflexivity]. cbn. destruct u as [|c r]; [reflexivity|]. cbn.
  specialize (N c r eq_refl). unfold is_sign in N. apply orb_false_elim in N as [-> ->]. reflexivity.
Qed.

(** ** Scanning *)
Ltac body c r :=
  destruct (is_digit c) eqn:?; [|destruct (Ascii.eqb c "." && negb _ && negb _)%bool eqn:?;
    [|destruct (is_exp c && negb _ && _)%bool eqn:?; [|destruct (is_sign c && _)%bool eqn:?]]].

Lemma scan_body_app : forall t m d s g u v, scan_body m d s g t = (u, v) -> t = u ++ v.
Proof.
  induction t as [|c r IH]; intros m d s g u v H; cbn in H; [injection H as <- <-; reflexivity|].
  destruct (is_digit c); [|destruct (Ascii.eqb c "." && negb d && negb s)%bool; [|destruct (is_exp c && negb s && m)%bool; [|destruct (is_sign c && g)%bool]]];
    try (destruct (scan_body _ _ _ _ r) as [a b] eqn:E; injection H as <- <-; apply IH in E; cbn; congruence).
  injection H as <- <-. reflexivity.
Qed.
Lemma scan_body_idem : forall t m d s g u v, scan_body m d s g t = (u, v) -> scan_body m d s g u = (u, []).
Proof.
  induction t as [|c r IH]; intros m d s g u v H; cbn in H; [injection H as <- <-; reflexivity|].
  destruct (is_digit c) eqn:E1; [|destruct (Ascii.eqb c "." && negb d && negb s)%bool eqn:E2; [|destruct (is_exp c && negb s && m)%bool eqn:E3; [|destruct (is_sign c && g)%bool eqn:E4]]];
    try (destruct (scan_body _ _ _ _ r) as [a b] eqn:E; injection H as <- <-; apply IH in E; cbn; rewrite ?E1, ?E2, ?E3, ?E4, E; reflexivity).
  injection H as <- <-. reflexivity.
Qed.
Lemma scan_body_stop : forall t m d s g u c r, scan_body m d s g t = (u, c :: r) -> scan_body m d s g (u ++ [c]) = (u, [c]).
Proof.
  induction t as [|x t IH]; intros m d s g u c r H; cbn in H; [discriminate|].
  destruct (is_digit x) eqn:E1; [|destruct (Ascii.eqb x "." && negb d && negb s)%bool eqn:E2; [|destruct (is_exp x && negb s && m)%bool eqn:E3; [|destruct (is_sign x && g)%bool eqn:E4]]];
    try (destruct (scan_body _ _ _ _ t) as [a b] eqn:E; injection H as <- ->; apply IH in E; cbn; rewrite ?E1, ?E2, ?E3, ?E4, E; reflexivity).
  injection H as <- <- <-. cbn. rewrite E1, E2, E3, E4. reflexivity.
Qed.
Lemma scan_body_stuck : forall u m d s g c r, scan_body m d s g u = (u, []) -> scan_body m d s g (u ++ [c]) <> (u ++ [c], []) ->
  scan_body m d s g (u ++ c :: r) = (u, c :: r).
Proof.
  induction u as [|x u IH]; intros m d s g c r H N.
  - cbn in *. destruct (is_digit c); [|destruct (Ascii.eqb c "." && negb d && negb s)%bool; [|destruct (is_exp c && negb s && m)%bool; [|destruct (is_sign c && g)%bool]]];
      try (exfalso; apply N; reflexivity). reflexivity.
  - cbn in *. destruct (is_digit x) eqn:E1; [|destruct (Ascii.eqb x "." && negb d && negb s)%bool eqn:E2; [|destruct (is_exp x && negb s && m)%bool eqn:E3; [|destruct (is_sign x && g)%bool eqn:E4]]];
      try (destruct (scan_body _ _ _ _ u) as [a b] eqn:E; injection H as -> ->; rewrite (IH _ _ _ _ _ r E); [reflexivity|]; intros X; apply N; rewrite X; reflexivity).
    discriminate.
Qed.

(** What the scanner takes completely, state by state. *)
Lemma body_digits : forall t m d, scan_body m d true false t = (t, []) <-> digits t.
Proof.
  induction t as [|c r IH]; intros m d; cbn.
  - split; [constructor|reflexivity].
  - rewrite !andb_false_r. destruct (is_digit c) eqn:E.
    + specialize (IH true d). destruct (scan_body true d true false r) as [a b]. split; intros H.
      * injection H as -> ->. constructor; [apply digit_iff; exact E|]. apply IH. reflexivity.
      * inversion H; subst. assert (X : (a, b) = (r, [])) by (apply IH; assumption). injection X as -> ->. reflexivity.
    + cbn; rewrite ?andb_false_r; cbn. split; [discriminate|]. intros H. inversion H; subst. apply digit_false in E. contradiction.
Qed.
Lemma body_exponent : forall t m d, scan_body m d true true t = (t, []) <-> exists s neg ds, t = s ++ ds /\ sign s neg /\ digits ds.
Proof.
  intros t m d. destruct t as [|c r]; cbn.
  - split; [|reflexivity]. intros _. exists [], false, []. repeat split; constructor.
  - rewrite !andb_false_r, !andb_true_r. destruct (is_digit c) eqn:E; [|destruct (is_sign c) eqn:S].
    + pose proof (body_digits r true d) as B. destruct (scan_body true d true false r) as [a b]. split.
      * intros H. injection H as -> ->. exists [], false, (c :: r). repeat split; [constructor|]. constructor; [apply digit_iff; exact E|]. apply B. reflexivity.
      * intros (s & neg & ds & H & Hs & Hd). apply digit_iff in E. pose proof (digit_not c E) as X.
        inversion Hs; subst; cbn in H; [|injection H as -> ->; destruct X as (X & _); discriminate X|injection H as -> ->; destruct X as (X & _); discriminate X].
        subst ds. inversion Hd; subst. destruct B as [_ B]. specialize (B H2). injection B as -> ->. reflexivity.
    + cbn; rewrite ?andb_false_r; cbn. pose proof (body_digits r m d) as B. destruct (scan_body m d true false r) as [a b]. split.
      * intros H. injection H as -> ->. apply sign_iff in S as [->| ->].
        -- exists ["+"], false, r. repeat split; [constructor|]. apply B. reflexivity.
        -- exists ["-"], true, r. repeat split; [constructor|]. apply B. reflexivity.
      * intros (s & neg & ds & H & Hs & Hd). inversion Hs; subst; cbn in H.
        -- subst ds. inversion Hd; subst. apply digit_false in E. contradiction.
        -- injection H as -> ->. destruct B as [_ B]. specialize (B Hd). injection B as -> ->. reflexivity.
        -- injection H as -> ->. destruct B as [_ B]. specialize (B Hd). injection B as -> ->. reflexivity.
    + cbn; rewrite ?andb_false_r; cbn. split; [discriminate|]. intros (s & neg & ds & H & Hs & Hd). inversion Hs; subst; cbn in H.
      * subst ds. inversion Hd; subst. apply digit_false in E. contradiction.
      * injection H as -> ->. discriminate.
      * injection H as -> ->. discriminate.
Qed.

Definition exp_part (t : list ascii) : Prop :=
  exists l s neg ds, t = l :: s ++ ds /\ (l = "e" \/ l = "E") /\ sign s neg /\ digits ds.

(** After a decimal point *)
Lemma body_fraction : forall t m, scan_body m true false false t = (t, []) <->
  exists b u, t = b ++ u /\ digits b /\ (u = [] \/ ((m = true \/ b <> []) /\ exp_part u)).
Proof.
  induction t as [|c r IH]; intros m; cbn [scan_body].
  - split; [|reflexivity]. intros _. exists [], []. repeat split; [constructor|auto].
  - cbn [negb]. rewrite !andb_false_r, !andb_true_r. destruct (is_digit c) eqn:E; [|destruct (is_exp c && m)%bool eqn:X].
    + specialize (IH true). destruct (scan_body true true false false r) as [a b]. split.
      * intros H. injection H as -> ->. destruct (proj1 IH eq_refl) as (b1 & u & -> & D & C). exists (c :: b1), u. split; [reflexivity|].
        split; [constructor; [apply digit_iff; exact E|exact D]|]. destruct C as [->|(_ & C)]; [auto|]. right. split; [right; discriminate|exact C].
      * intros (b1 & u & H & D & C). destruct b1 as [|x b1].
        -- cbn in H. subst u. destruct C as [C|(_ & l & s & neg & ds & C & [->| ->] & _)]; [discriminate|injection C as -> _; discriminate|injection C as -> _; discriminate].
        -- cbn in H. injection H as -> ->. inversion D; subst. destruct IH as [_ IH].
           assert (Y : (a, b) = (b1 ++ u, [])); [|injection Y as -> ->; reflexivity].
           apply IH. exists b1, u. split; [reflexivity|]. split; [assumption|]. destruct C as [->|(_ & C)]; auto.
    + apply andb_prop in X as [X ->]. pose proof (body_exponent r true true) as B. destruct (scan_body true true true true r) as [a b]. split.
      * intros H. injection H as -> ->. destruct (proj1 B eq_refl) as (s & neg & ds & -> & S & D). exists [], (c :: s ++ ds). split; [reflexivity|].
        split; [constructor|]. right. split; [auto|]. exists c, s, neg, ds. split; [reflexivity|]. split; [apply exp_iff; exact X|auto].
      * intros (b1 & u & H & D & C). destruct b1 as [|x b1].
        -- cbn in H. subst u. destruct C as [C|(_ & l & s & neg & ds & C & _ & S & Q)]; [discriminate|]. injection C as <- ->.
           destruct B as [_ B]. assert (Y : (a, b) = (s ++ ds, [])); [apply B; eauto 10|injection Y as -> ->; reflexivity].
        -- cbn in H. injection H as -> ->. inversion D; subst. apply digit_false in E. contradiction.
    + split; [discriminate|]. intros (b1 & u & H & D & C). destruct b1 as [|x b1].
      * cbn in H. subst u. destruct C as [C|(M & l & s & neg & ds & C & L & _)]; [discriminate|]. injection C as -> _.
        destruct M as [->|M]; [|congruence]. rewrite (proj2 (exp_iff l) L) in X. discriminate.
      * cbn in H. injection H as -> ->. inversion D; subst. apply digit_false in E. contradiction.
Qed.

(** Before a decimal point *)
Lemma body_integer : forall t m, scan_body m false false false t = (t, []) <->
  (exists a u, t = a ++ u /\ digits a /\ (u = [] \/ ((m = true \/ a <> []) /\ exp_part u))) \/
  (exists a b u, t = a ++ "." :: b ++ u /\ digits a /\ digits b /\ (u = [] \/ ((m = true \/ a ++ b <> []) /\ exp_part u))).
Proof.
  induction t as [|c r IH]; intros m; cbn [scan_body].
  - split; [|reflexivity]. intros _. left. exists [], []. repeat split; [constructor|auto].
  - cbn [negb]. rewrite !andb_false_r, !andb_true_r. destruct (is_digit c) eqn:E; [|destruct (Ascii.eqb_spec c ".") as [->|ND]; [|destruct (is_exp c && m)%bool eqn:X]].
    + specialize (IH true). destruct (scan_body true false false false r) as [a b]. apply digit_iff in E. split.
      * intros H. injection H as -> ->. destruct (proj1 IH eq_refl) as [(a1 & u & -> & D & C)|(a1 & b1 & u & -> & D1 & D2 & C)].
        -- left. exists (c :: a1), u. split; [reflexivity|]. split; [constructor; auto|]. destruct C as [->|(_ & C)]; [auto|]. right. split; [right; discriminate|exact C].
        -- right. exists (c :: a1), b1, u. split; [reflexivity|]. split; [constructor; auto|]. split; [assumption|]. destruct C as [->|(_ & C)]; [auto|].
           right. split; [right; discriminate|exact C].
      * intros H. assert (Y : (a, b) = (r, [])); [|injection Y as -> ->; reflexivity]. apply IH.
        destruct H as [(a1 & u & H & D & C)|(a1 & b1 & u & H & D1 & D2 & C)]; destruct a1 as [|x a1]; cbn in H.
        -- subst u. destruct C as [C|(_ & l & s & neg & ds & C & L & _)]; [discriminate|]. injection C as -> _. apply exp_iff in L.
           destruct (digit_not l E) as (_ & _ & X & _). congruence.
        -- injection H as -> ->. inversion D; subst. left. exists a1, u. split; [reflexivity|]. split; [assumption|]. destruct C as [->|(_ & C)]; auto.
        -- injection H as -> _. destruct (digit_not _ E) as (_ & X & _). discriminate X.
        -- injection H as -> ->. inversion D1; subst. right. exists a1, b1, u. repeat (split; [solve [auto]|]). destruct C as [->|(_ & C)]; auto.
    + pose proof (body_fraction r m) as B. destruct (scan_body m true false false r) as [a b]. split.
      * intros H. injection H as -> ->. destruct (proj1 B eq_refl) as (b1 & u & -> & D & C). right. exists [], b1, u.
        split; [reflexivity|]. split; [constructor|]. split; [assumption|]. exact C.
      * intros H. assert (Y : (a, b) = (r, [])); [|injection Y as -> ->; reflexivity]. apply B.
        destruct H as [(a1 & u & H & D & C)|(a1 & b1 & u & H & D1 & D2 & C)]; destruct a1 as [|x a1]; cbn in H.
        -- subst u. destruct C as [C|(_ & l & s & neg & ds & C & L & _)]; [discriminate|]. injection C as <- _. destruct L; discriminate.
        -- injection H as <- ->. inversion D; subst. apply digit_iff in H1. discriminate.
        -- injection H as ->. exists b1, u. auto.
        -- injection H as <- ->. inversion D1; subst. apply digit_iff in H1. discriminate.
    + apply andb_prop in X as [X ->]. pose proof (body_exponent r true false) as B. destruct (scan_body true false true true r) as [a b]. split.
      * intros H. injection H as -> ->. destruct (proj1 B eq_refl) as (s & neg & ds & -> & S & D). left. exists [], (c :: s ++ ds). split; [reflexivity|].
        split; [constructor|]. right. split; [auto|]. exists c, s, neg, ds. split; [reflexivity|]. split; [apply exp_iff; exact X|auto].
      * intros H. assert (Y : (a, b) = (r, [])); [|injection Y as -> ->; reflexivity]. apply B. apply digit_false in E.
        destruct H as [(a1 & u & H & D & C)|(a1 & b1 & u & H & D1 & D2 & C)]; destruct a1 as [|x a1]; cbn in H.
        -- subst u. destruct C as [C|(_ & l & s & neg & ds & C & L & S & Q)]; [discriminate|]. injection C as <- ->. eauto 10.
        -- injection H as <- ->. inversion D; subst. contradiction.
        -- injection H as -> _. contradiction.
        -- injection H as <- ->. inversion D1; subst. contradiction.
    + split; [discriminate|]. intros H. apply digit_false in E.
      destruct H as [(a1 & u & H & D & C)|(a1 & b1 & u & H & D1 & D2 & C)]; destruct a1 as [|x a1]; cbn in H.
      * subst u. destruct C as [C|(M & l & s & neg & ds & C & L & _)]; [discriminate|]. injection C as -> _.
        destruct M as [->|M]; [|congruence]. rewrite (proj2 (exp_iff l) L) in X. discriminate.
      * injection H as <- ->. inversion D; subst. contradiction.
      * injection H as -> _. contradiction.
      * injection H as <- ->. inversion D1; subst. contradiction.
Qed.

Lemma body_full : forall t, scan_body false false false false t = (t, []) <->
  exists m a b u, t = m ++ u /\ mantissa m a b /\ (u = [] \/ (a ++ b <> [] /\ exp_part u)).
Proof.
  intros t. rewrite body_integer. split.
  - intros [(a & u & -> & D & C)|(a & b & u & -> & D1 & D2 & C)].
    + exists a, a, [], u. split; [reflexivity|]. split; [constructor; assumption|]. rewrite app_nil_r.
      destruct C as [->|([C|C] & E)]; [auto|discriminate|auto].
    + exists (a ++ "." :: b), a, b, u. split; [rewrite <- app_assoc; reflexivity|]. split; [constructor; assumption|].
      destruct C as [->|([C|C] & E)]; [auto|discriminate|auto].
  - intros (m & a & b & u & -> & M & C). inversion M; subst.
    + left. exists a, u. split; [reflexivity|]. split; [assumption|]. rewrite app_nil_r in C. tauto.
    + right. exists a, b, u. split; [rewrite <- app_assoc; reflexivity|]. tauto.
Qed.

Lemma begins_iff : forall t, begins_number t <-> exists s neg m a b u, t = s ++ m ++ u /\ sign s neg /\ mantissa m a b /\ (u = [] \/ (a ++ b <> [] /\ exp_part u)).
Proof.
  intros t. split.
  - intros [s neg m a b S M|s neg m a b l s' neg' ds S M N L S' D].
    + exists s, neg, m, a, b, []. rewrite app_nil_r. auto.
    + exists s, neg, m, a, b, (l :: s' ++ ds). split; [reflexivity|]. split; [assumption|]. split; [assumption|]. right. split; [assumption|].
      exists l, s', neg', ds. auto.
  - intros (s & neg & m & a & b & u & -> & S & M & [->|(N & l & s' & neg' & ds & -> & L & S' & D)]).
    + rewrite app_nil_r. econstructor; eassumption.
    + econstructor; eassumption.
Qed.

Lemma mantissa_no_sign : forall m a b u c r, mantissa m a b -> (u = [] \/ (a ++ b <> [] /\ exp_part u)) -> m ++ u = c :: r -> is_sign c = false.
Proof.
  intros m a b u c r M C H. inversion M; subst.
  - destruct a as [|x a].
    + cbn in H. subst u. destruct C as [C|(C & _)]; [discriminate|]. exfalso; apply C; reflexivity.
    + injection H as -> _. inversion H0; subst. apply digit_not. assumption.
  - destruct a as [|x a]; cbn in H; injection H as <- _; [reflexivity|]. inversion H0; subst. apply digit_not. assumption.
Qed.

Lemma scan_float_full : forall t, scan_float t = (t, []) <-> begins_number t.
Proof.
  intros t. rewrite begins_iff. unfold scan_float. destruct t as [|c r].
  - split; [|reflexivity]. intros _. exists [], false, [], [], [], []. split; [reflexivity|]. split; [constructor|]. split; [repeat constructor|auto].
  - destruct (is_sign c) eqn:E.
    + pose proof (body_full r) as B. destruct (scan_body false false false false r) as [x y]. split.
      * intros H. injection H as -> ->. destruct (proj1 B eq_refl) as (m & a & b & u & -> & M & C).
        apply sign_iff in E as [->| ->]; [exists ["+"], false, m, a, b, u|exists ["-"], true, m, a, b, u]; repeat split; auto; constructor.
      * intros (s & neg & m & a & b & u & H & S & M & C).
        assert (Y : (x, y) = (r, [])); [|injection Y as -> ->; reflexivity]. apply B. exists m, a, b, u. split; [|auto].
        inversion S; subst; cbn in H; try (injection H as _ H; exact H).
        exfalso. assert (X := mantissa_no_sign m a b u c r M C (eq_sym H)). congruence.
    + rewrite body_full. split.
      * intros (m & a & b & u & H & M & C). exists [], false, m, a, b, u. repeat split; auto; constructor.
      * intros (s & neg & m & a & b & u & H & S & M & C). exists m, a, b, u. split; [|auto].
        inversion S; subst; cbn in H; [exact H|injection H as -> _; discriminate|injection H as -> _; discriminate].
Qed.

Lemma scan_float_spec : forall t u v, scan_float t = (u, v) <-> t = u ++ v /\ begins_number u /\ ends_number u v.
Proof.
  intros t u v. split.
  - intros H. assert (A : t = u ++ v /\ scan_float u = (u, []) /\ forall c r, v = c :: r -> scan_float (u ++ [c]) = (u, [c])).
    { unfold scan_float in H. destruct t as [|c r]; [injection H as <- <-; repeat split; discriminate|].
      destruct (is_sign c) eqn:E.
      - destruct (scan_body false false false false r) as [x y] eqn:S. injection H as <- <-. split; [apply scan_body_app in S; cbn; congruence|].
        split; [unfold scan_float; rewrite E, (scan_body_idem _ _ _ _ _ _ _ S); reflexivity|]. intros c' r' ->. cbn [app scan_float].
        rewrite E, (scan_body_stop _ _ _ _ _ _ _ _ S). reflexivity.
      - split; [apply scan_body_app in H; exact H|].
        assert (X : forall u', (exists z, u' = c :: z) \/ u' = [] -> scan_float u' = scan_body false false false false u').
        { intros u' [(z & ->)| ->]; [unfold scan_float; rewrite E; reflexivity|reflexivity]. }
        pose proof (scan_body_app _ _ _ _ _ _ _ H) as AP. split.
        + rewrite X; [exact (scan_body_idem _ _ _ _ _ _ _ H)|]. destruct u as [|x u]; [auto|]. injection AP as <- _. eauto.
        + intros c' r' ->. rewrite X; [exact (scan_body_stop _ _ _ _ _ _ _ _ H)|]. left. destruct u as [|x u]; cbn in AP; injection AP as <- _; cbn; eauto. }
    destruct A as (A & B & C). split; [assumption|]. split; [apply scan_float_full; assumption|].
    intros c r Hv Bn. apply scan_float_full in Bn. rewrite (C c r Hv) in Bn. injection Bn as Bn _. apply (f_equal (@length _)) in Bn. rewrite app_length in Bn. cbn in Bn. lia.
  - intros (-> & B & E). apply scan_float_full in B. destruct v as [|c r]; [rewrite app_nil_r; assumption|].
    specialize (E c r eq_refl). rewrite <- scan_float_full in E. destruct u as [|x u].
    + cbn [app] in *. unfold scan_float in *. destruct (is_sign c) eqn:S; [exfalso; apply E; reflexivity|].
      exact (scan_body_stuck [] _ _ _ _ c r eq_refl E).
    + cbn [app scan_float] in *. destruct (is_sign x) eqn:S.
      * destruct (scan_body false false false false u) as [y z] eqn:Q. injection B as -> ->. rewrite (scan_body_stuck u _ _ _ _ c r Q); [reflexivity|].
        intros Y. apply E. rewrite Y. reflexivity.
      * exact (scan_body_stuck (x :: u) _ _ _ _ c r B E).
Qed.

(** ** Conversion *)
Lemma ends_exp : forall l s, l = "e" \/ l = "E" -> ends_digits (l :: s).
Proof. intros l s L c r H. injection H as <- _. rewrite <- digit_iff. destruct L as [->| ->]; discriminate. Qed.
Lemma digits_no_sign : forall ds c r, digits ds -> ds = c :: r -> is_sign c = false.
Proof. intros ds c r D ->. inversion D; subst. apply digit_not. assumption. Qed.
Lemma ends_nil : ends_digits [].
Proof. intros c r H. discriminate. Qed.

Lemma strtod_exponent : forall (neg : bool) (v lb : Z) (t3 : list ascii) (neg' : bool) (m e : Z),
  match t3 with
  | [] => Some (neg, v, - lb)
  | c :: r => if is_exp c then let (eneg, t4) := take_sign r in
                match take_digits t4 with
                | (d :: ds, []) => let x := number 0 (d :: ds) in Some (neg, v, (if eneg then - x else x) - lb)
                | _ => None
                end else None
  end = Some (neg', m, e) <-> exists x, exponent t3 x /\ neg' = neg /\ m = v /\ e = x - lb.
Proof.
  intros neg v lb t3 neg' m e. split.
  - intros H. destruct t3 as [|c r].
    + injection H as <- <- <-. exists 0. split; [constructor|auto].
    + destruct (is_exp c) eqn:E; [|discriminate]. destruct (take_sign r) as [eneg t4] eqn:S. apply take_sign_spec in S as (s & -> & S & _).
      destruct (take_digits t4) as [ds rest] eqn:D. apply take_digits_spec in D as (-> & D & _). destruct ds as [|d ds]; [discriminate|].
      destruct rest; [|discriminate]. cbv zeta in H. rewrite number_value in H. injection H as <- <- <-. rewrite app_nil_r. eexists. split; [|auto].
      constructor; [apply exp_iff; exact E|assumption|assumption|discriminate].
  - intros (x & X & -> & -> & ->). inversion X as [|l s eneg ds L S D N]; subst; [reflexivity|].
    rewrite (proj2 (exp_iff l) L). rewrite (take_sign_app s eneg ds S) by (intros c r; apply digits_no_sign; assumption).
    pose proof (take_digits_app ds [] D ends_nil) as T. rewrite app_nil_r in T. rewrite T. destruct ds as [|d ds]; [congruence|].
    rewrite number_value. reflexivity.
Qed.

Lemma strtod_spec : forall t neg m e, strtod t = Some (neg, m, e) <-> denotes t neg m e.
Proof.
  intros t neg m e. split.
  - unfold strtod. destruct (take_sign t) as [n t1] eqn:S. apply take_sign_spec in S as (s & -> & S & _).
    destruct (take_digits t1) as [a t2] eqn:A. apply take_digits_spec in A as (-> & A & _).
    assert (X : forall fr b t3, t2 = fr ++ t3 -> mantissa (a ++ fr) a b ->
       match (a ++ b) with [] => None | _ => match t3 with
         | [] => Some (n, number 0 (a ++ b), - Z.of_nat (length b))
         | c :: r => if is_exp c then let (eneg, t4) := take_sign r in
             match take_digits t4 with
             | (d :: ds, []) => let x := number 0 (d :: ds) in Some (n, number 0 (a ++ b), (if eneg then - x else x) - Z.of_nat (length b))
             | _ => None
             end else None end end = Some (neg, m, e) -> denotes (s ++ a ++ t2) neg m e).
    { intros fr b t3 -> M H. destruct (a ++ b) as [|z zs] eqn:AB; [discriminate|]. apply strtod_exponent in H as (x & X & -> & -> & ->).
      rewrite number_value, <- AB. replace (s ++ a ++ fr ++ t3) with (s ++ (a ++ fr) ++ t3) by (rewrite <- !app_assoc; reflexivity).
      constructor; auto. rewrite AB. discriminate. }
    destruct t2 as [|c r].
    + apply (X [] [] []); [reflexivity|]. rewrite app_nil_r. constructor. assumption.
    + destruct (Ascii.eqb_spec c ".") as [->|N].
      * destruct (take_digits r) as [b t3] eqn:B. apply take_digits_spec in B as (-> & B & _). apply (X ("." :: b)); [reflexivity|]. constructor; assumption.
      * apply (X [] [] (c :: r)); [reflexivity|]. rewrite app_nil_r. constructor. assumption.
  - intros [s n mt a b u x S M N X]. unfold strtod.
    assert (C : u = [] \/ (a ++ b <> [] /\ exp_part u)).
    { inversion X; subst; [auto|]. right. split; [assumption|]. repeat eexists; eauto. }
    rewrite (take_sign_app s n (mt ++ u) S) by (intros c r; apply (mantissa_no_sign _ _ _ _ _ _ M C)).
    assert (EU : ends_digits u) by (inversion X; subst; [apply ends_nil|apply ends_exp; assumption]).
    inversion M; subst.
    + rewrite (take_digits_app a u) by assumption.
      assert (Y : (match u with c :: r => if Ascii.eqb c "." then take_digits r else ([], u) | [] => ([], []) end) = ([], u)).
      { inversion X as [|l s' n' ds L]; subst; [reflexivity|]. destruct L as [->| ->]; reflexivity. }
      rewrite Y. destruct (a ++ []) as [|z zs] eqn:AB; [congruence|]. apply strtod_exponent. exists x. rewrite number_value. auto.
    + rewrite <- app_assoc. cbn [app]. rewrite (take_digits_app a ("." :: b ++ u)) by (try assumption; intros c r E; injection E as <- _; rewrite <- digit_iff; discriminate).
      rewrite Ascii.eqb_refl, (take_digits_app b u) by assumption. destruct (a ++ b) as [|z zs] eqn:AB; [congruence|].
      apply strtod_exponent. exists x. rewrite number_value. auto.
Qed.

Lemma denotes_begins : forall t neg m e, denotes t neg m e -> begins_number t.
Proof.
  intros t neg m e [s n mt a b u x S M N X]. inversion X; subst.
  - rewrite app_nil_r. econstructor; eassumption.
  - econstructor; eassumption.
Qed.
Lemma denotes_nonempty : forall t neg m e, denotes t neg m e -> t <> [].
Proof.
  intros t neg m e [s n mt a b u x S M N X] H. apply app_eq_nil in H as [_ H]. apply app_eq_nil in H as [H _]. subst.
  inversion M as [a' D|a' b' D1 D2 E]; subst; [apply N; reflexivity|]. destruct a; discriminate.
Qed.
Lemma begins_no_space : forall t c r, begins_number t -> t = c :: r -> ~ space c.
Proof.
  intros t c r B -> SP. apply scan_float_full in B. apply space_iff in SP. unfold scan_float in B. cbn [scan_body] in B.
  all_chars c; try discriminate SP; discriminate B.
Qed.
(** What cannot continue a number *)
Lemma begins_alphabet : forall t, begins_number t -> Forall (fun c => is_digit c || Ascii.eqb c "." || is_exp c || is_sign c = true)%bool t.
Proof.
  assert (DG : forall d, digits d -> Forall (fun c => is_digit c || Ascii.eqb c "." || is_exp c || is_sign c = true)%bool d).
  { intros d D. eapply Forall_impl; [|exact D]. intros c H. apply digit_iff in H. cbn beta. rewrite H. reflexivity. }
  assert (SG : forall s n, sign s n -> Forall (fun c => is_digit c || Ascii.eqb c "." || is_exp c || is_sign c = true)%bool s).
  { intros s n S. inversion S; subst; repeat constructor. }
  intros t B. apply begins_iff in B as (s & neg & m & a & b & u & -> & S & M & C).
  apply Forall_app. split; [eapply SG; eassumption|]. apply Forall_app. split.
  - inversion M; subst; [apply DG; assumption|]. apply Forall_app. split; [apply DG; assumption|]. constructor; [reflexivity|apply DG; assumption].
  - destruct C as [->|(_ & l & s' & n' & ds & -> & L & S' & D)]; [constructor|]. constructor; [destruct L as [->| ->]; reflexivity|].
    apply Forall_app. split; [eapply SG; eassumption|apply DG; assumption].
Qed.
Lemma ends_number_at : forall n c r, (is_digit c || Ascii.eqb c "." || is_exp c || is_sign c = false)%bool -> ends_number n (c :: r).
Proof.
  intros n c r H c' r' X B. injection X as <- <-. apply begins_alphabet in B. apply Forall_app in B as [_ B]. inversion B; subst. cbn beta in H2. congruence.
Qed.
Lemma space_stops : forall c, space c -> (is_digit c || Ascii.eqb c "." || is_exp c || is_sign c = false)%bool.
Proof. intros c H. unfold space in H. cbn in H. repeat (destruct H as [<-|H]; [reflexivity|]). contradiction. Qed.
Lemma ends_number_sep : forall n w r, spaces w -> ends_number n (w ++ ":" :: r).
Proof.
  intros n w r W. destruct w as [|c w]; [apply ends_number_at; reflexivity|]. cbn. apply ends_number_at. inversion W; subst. apply space_stops. assumption.
Qed.
Lemma ends_digits_sep : forall w r, spaces w -> ends_digits (w ++ ":" :: r).
Proof.
  intros w r W c r' H. destruct w as [|x w]; cbn in H; injection H as <- _; rewrite <- digit_iff; [discriminate|].
  inversion W; subst. apply space_stops in H1. destruct (is_digit x); [discriminate|congruence].
Qed.

(** ** Streams *)
Section Streams.
  Variable D : Type.
  Variable to_double : bool -> Q -> option D.
  Variable failed_double : list ascii -> D.
  Notation get_double := (get_double to_double failed_double).
  Notation real_text := (real_text D to_double).

  Lemma convert_spec : forall t x, convert to_double t = Some x <-> real_text t x.
  Proof.
    intros t x. unfold convert, ParseSpec.real_text. split.
    - destruct (strtod t) as [[[neg m] e]|] eqn:S; [|discriminate]. intros H. exists neg, m, e. split; [apply strtod_spec; exact S|exact H].
    - intros (neg & m & e & S & H). apply strtod_spec in S. rewrite S. exact H.
  Qed.
  Lemma real_begins : forall t x, real_text t x -> begins_number t /\ t <> [].
  Proof. intros t x (neg & m & e & H & _). split; [eapply denotes_begins; eassumption|eapply denotes_nonempty; eassumption]. Qed.

  Lemma get_double_ok : forall w n rest x old, spaces w -> real_text n x -> ends_number n rest ->
    get_double (mkStream (w ++ n ++ rest) false) old = (x, mkStream rest false).
  Proof.
    intros w n rest x old W R E. unfold ParseModel.get_double. cbn [st_failed st_text]. destruct (real_begins _ _ R) as [B NE].
    assert (NS : forall c r, n ++ rest = c :: r -> ~ space c).
    { intros c r H. destruct n as [|c' n]; [congruence|]. injection H as <- _. exact (begins_no_space _ _ _ B eq_refl). }
    rewrite (skip_ws_app w (n ++ rest) W NS). destruct (n ++ rest) as [|c r] eqn:X; [destruct n; [congruence|discriminate]|].
    rewrite (proj2 (scan_float_spec (c :: r) n rest)) by auto. rewrite (proj2 (convert_spec n x) R). reflexivity.
  Qed.
  Lemma get_double_inv : forall t old x s', get_double (mkStream t false) old = (x, s') -> st_failed s' = false ->
    exists w n rest, t = w ++ n ++ rest /\ s' = mkStream rest false /\ spaces w /\ real_text n x /\ ends_number n rest.
  Proof.
    intros t old x s' H F. unfold ParseModel.get_double in H. cbn [st_failed st_text] in H. destruct (skip_ws_spec t) as (w & T & W & _).
    destruct (skip_ws t) as [|c r] eqn:S; [injection H as _ <-; discriminate|]. destruct (scan_float (c :: r)) as [n rest] eqn:SC.
    apply scan_float_spec in SC as (A & B & C). destruct (convert to_double n) as [y|] eqn:CV; injection H as <- <-; [|discriminate].
    exists w, n, rest. split; [congruence|]. split; [reflexivity|]. split; [assumption|]. split; [apply convert_spec; assumption|assumption].
  Qed.

  Lemma get_char_ok : forall w c rest old, spaces w -> ~ space c -> get_char (mkStream (w ++ c :: rest) false) old = (c, mkStream rest false).
  Proof.
    intros w c rest old W N. unfold get_char. cbn [st_failed st_text]. rewrite skip_ws_app; [reflexivity|assumption|]. intros c' r' X. injection X as <- _. assumption.
  Qed.
  Lemma get_char_inv : forall t old c s', get_char (mkStream t false) old = (c, s') -> st_failed s' = false ->
    exists w rest, t = w ++ c :: rest /\ s' = mkStream rest false /\ spaces w.
  Proof.
    intros t old c s' H F. unfold get_char in H. cbn [st_failed st_text] in H. destruct (skip_ws_spec t) as (w & T & W & _).
    destruct (skip_ws t) as [|c' r]; injection H as <- <-; [discriminate|]. eauto.
  Qed.

  Lemma get_u16_ok : forall w n rest v old, spaces w -> u16_text n v -> ends_digits rest ->
    get_u16 (mkStream (w ++ n ++ rest) false) old = (v, mkStream rest false).
  Proof.
    intros w n rest v old W (s & neg & ds & -> & S & DS & NE & LE & ->) E. unfold get_u16. cbn [st_failed st_text].
    assert (FD : forall c r, ds ++ rest = c :: r -> digit c).
    { intros c r H. destruct ds as [|d ds]; [congruence|]. injection H as <- _. inversion DS; subst. assumption. }
    assert (NS : forall c r, (s ++ ds) ++ rest = c :: r -> ~ space c).
    { rewrite <- app_assoc. intros c r H. rewrite <- space_iff. inversion S; subst; cbn in H.
      - destruct (digit_not c (FD c r H)) as (_ & _ & _ & X & _). congruence.
      - injection H as <- _. discriminate.
      - injection H as <- _. discriminate. }
    rewrite (skip_ws_app w _ W NS). destruct ((s ++ ds) ++ rest) as [|c r] eqn:X.
    { apply app_eq_nil in X as [X _]. apply app_eq_nil in X as [_ X]. congruence. }
    rewrite <- X, <- app_assoc. rewrite (take_sign_app s neg (ds ++ rest) S).
    2:{ intros c' r' H. apply digit_not. exact (FD _ _ H). }
    rewrite (take_digits_app ds rest DS E). destruct ds as [|d ds]; [congruence|]. rewrite number_value.
    rewrite (proj2 (Z.ltb_ge _ _)) by assumption. f_equal. destruct neg; [|reflexivity].
    replace (65536 - value (d :: ds)) with (- value (d :: ds) + 1 * 65536) by ring. rewrite Z_mod_plus_full. reflexivity.
  Qed.
  Lemma get_u16_inv : forall t old v s', get_u16 (mkStream t false) old = (v, s') -> st_failed s' = false ->
    exists w n rest, t = w ++ n ++ rest /\ s' = mkStream rest false /\ spaces w /\ u16_text n v /\ ends_digits rest.
  Proof.
    intros t old v s' H F. unfold get_u16 in H. cbn [st_failed st_text] in H. destruct (skip_ws_spec t) as (w & T & W & _).
    destruct (skip_ws t) as [|c r]; [injection H as _ <-; discriminate|]. rewrite T.
    destruct (take_sign (c :: r)) as [neg t1] eqn:S. apply take_sign_spec in S as (s & -> & S & _).
    destruct (take_digits t1) as [ds rest] eqn:DG. apply take_digits_spec in DG as (-> & DS & E).
    destruct ds as [|d ds]; [injection H as _ <-; discriminate|]. rewrite number_value in H.
    destruct (Z.ltb_spec 65535 (value (d :: ds))); injection H as <- <-; [discriminate|].
    exists w, (s ++ d :: ds), rest. split; [rewrite <- app_assoc; reflexivity|]. split; [reflexivity|]. split; [assumption|]. split; [|assumption].
    exists s, neg, (d :: ds). repeat split; auto; [discriminate|]. destruct neg; [|reflexivity].
    replace (65536 - value (d :: ds)) with (- value (d :: ds) + 1 * 65536) by ring. rewrite Z_mod_plus_full. reflexivity.
  Qed.

  (** A failed stream stays failed. *)
  Lemma failed_double_stream : forall s old, st_failed s = true -> get_double s old = (old, s).
  Proof. intros s old H. unfold ParseModel.get_double. rewrite H. reflexivity. Qed.
  Lemma failed_char_stream : forall s old, st_failed s = true -> get_char s old = (old, s).
  Proof. intros s old H. unfold get_char. rewrite H. reflexivity. Qed.
  Lemma failed_u16_stream : forall s old, st_failed s = true -> get_u16 s old = (old, s).
  Proof. intros s old H. unfold get_u16. rewrite H. reflexivity. Qed.
End Streams.
