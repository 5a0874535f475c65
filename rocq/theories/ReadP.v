(** The printed integers read back. *)
From Verif Require Import Base Digits SeqSpec ReadSpec FmtSpec FmtP FmtP2 DirSpec.

Definition hexdigit (c : Z) : Prop := 48 <= c <= 57 \/ 97 <= c <= 102.

Lemma numeral_hex b n : 2 <= b <= 16 -> 0 <= n -> Forall hexdigit (numeral b n).
Proof.
  intros Hb Hn. unfold numeral. apply Forall_forall. intros c Hc. apply in_map_iff in Hc as (d & <- & Hd).
  pose proof (digits_digits_ok b n ltac:(lia) Hn) as Ho. unfold digits_ok in Ho. rewrite Forall_forall in Ho.
  apply Ho in Hd. unfold digit_char, hexdigit. destruct (d <? 10) eqn:E; bools; lia.
Qed.

Lemma hexval_digit c : hexdigit c -> hexval c = digit_val c.
Proof.
  unfold hexdigit, hexval, digit_val. intros H.
  destruct (48 <=? c) eqn:E1, (c <=? 57) eqn:E2, (97 <=? c) eqn:E3, (c <=? 102) eqn:E4, (c <? 58) eqn:E5; bools; cbn [andb]; lia.
Qed.

Lemma hexval_upper c : hexdigit c -> hexval (ascii_upper c) = hexval c.
Proof.
  unfold ascii_upper. intros H. destruct ((97 <=? c) && (c <=? 122)) eqn:E; [|reflexivity]. bools.
  unfold hexdigit, hexval in *.
  replace (97 <=? c) with true by (symmetry; apply Z.leb_le; lia).
  replace (c <=? 102) with true by (symmetry; apply Z.leb_le; lia).
  replace (c <=? 57) with false by (symmetry; apply Z.leb_gt; lia).
  replace (c - 32 <=? 57) with false by (symmetry; apply Z.leb_gt; lia).
  replace (97 <=? c - 32) with false by (symmetry; apply Z.leb_gt; lia).
  replace (65 <=? c - 32) with true by (symmetry; apply Z.leb_le; lia).
  replace (c - 32 <=? 70) with true by (symmetry; apply Z.leb_le; lia).
  rewrite !andb_false_r. cbn [andb]. lia.
Qed.

Lemma fold_ext {A} (f g : Z -> A -> Z) l : (forall a c, In c l -> f a c = g a c) -> forall a, fold_left f l a = fold_left g l a.
Proof.
  induction l as [|x l IH]; intros H a; cbn [fold_left]; [reflexivity|].
  rewrite (H a x) by (left; reflexivity). apply IH. intros. apply H. right. assumption.
Qed.

Lemma fold_map {A B} (f : Z -> B -> Z) (g : A -> B) l : forall a, fold_left f (map g l) a = fold_left (fun a x => f a (g x)) l a.
Proof. induction l as [|x l IH]; intros a; cbn [map fold_left]; [reflexivity|apply IH]. Qed.

Lemma read_numeral b t : Forall hexdigit t -> read_digits b t = of_numeral b t.
Proof.
  intros H. unfold read_digits, of_numeral, of_digits. rewrite fold_map. apply fold_ext.
  intros a c Hc. rewrite Forall_forall in H. rewrite hexval_digit by auto. reflexivity.
Qed.

Lemma read_upper b t : Forall hexdigit t -> read_digits b (map ascii_upper t) = read_digits b t.
Proof.
  intros H. unfold read_digits. rewrite fold_map. apply fold_ext.
  intros a c Hc. rewrite Forall_forall in H. rewrite hexval_upper by auto. reflexivity.
Qed.

Lemma zeros_hex n : Forall hexdigit (zeros n).
Proof. apply Forall_forall. intros c Hc. apply in_rep in Hc. subst. left. cbn. lia. Qed.

Lemma read_zeros b n t : read_digits b (zeros n ++ t) = read_digits b t.
Proof.
  unfold read_digits. rewrite fold_left_app. f_equal. unfold zeros, rep.
  induction (Z.to_nat n) as [|k IH]; cbn [repeat fold_left]; [reflexivity|]. change (0 * b + hexval (ch "0")) with 0. exact IH.
Qed.

Lemma min_digits_hex p t : Forall hexdigit t -> Forall hexdigit (min_digits p t).
Proof. intros. apply Forall_app. split; [apply zeros_hex|assumption]. Qed.

Lemma int_digits_hex b n p : 2 <= b <= 16 -> 0 <= n -> Forall hexdigit (int_digits b n p).
Proof.
  intros Hb Hn. unfold int_digits. destruct p as [p|]; [|apply numeral_hex; lia].
  destruct ((n =? 0) && (p =? 0)); [constructor|]. apply min_digits_hex, numeral_hex; lia.
Qed.

Lemma read_int_digits b n p : 2 <= b <= 16 -> 0 <= n -> read_digits b (int_digits b n p) = n.
Proof.
  intros Hb Hn. assert (E : read_digits b (numeral b n) = n).
  { rewrite read_numeral by (apply numeral_hex; lia). apply of_numeral_numeral; lia. }
  unfold int_digits. destruct p as [p|]; [|exact E].
  destruct ((n =? 0) && (p =? 0)) eqn:E0; [bools; subst; reflexivity|].
  unfold min_digits. rewrite read_zeros. exact E.
Qed.

Lemma drop_app a b : drop_spaces (a ++ b) = drop_spaces a ++ drop_spaces b.
Proof. apply filter_app. Qed.

Lemma drop_spaces_spaces n : drop_spaces (spaces n) = [].
Proof. unfold spaces, rep. induction (Z.to_nat n); [reflexivity|exact IHn0]. Qed.

Lemma drop_justify q t : drop_spaces (justify q t) = drop_spaces t.
Proof.
  unfold justify. destruct (q_left q); rewrite drop_app, drop_spaces_spaces; [apply app_nil_r|reflexivity].
Qed.

Lemma drop_hex t : Forall hexdigit t -> drop_spaces t = t.
Proof.
  induction 1 as [|c t Hc _ IH]; [reflexivity|]. cbn. replace (c =? 32) with false by (symmetry; apply Z.eqb_neq; unfold hexdigit in Hc; lia).
  cbn. f_equal. exact IH.
Qed.

(** a padded number read without its spaces is prefix, some zeros, digits *)
Lemma drop_pad q zp pre body : Forall hexdigit body ->
  exists k, drop_spaces (pad_number q zp pre body) = drop_spaces pre ++ zeros k ++ body.
Proof.
  intros H. unfold pad_number. destruct (zp && negb (q_left q)).
  - eexists. rewrite !drop_app. rewrite (drop_hex _ H), (drop_hex _ (zeros_hex _)). reflexivity.
  - exists 0. rewrite drop_justify, drop_app, (drop_hex _ H). reflexivity.
Qed.

Lemma read_plain b r : Forall hexdigit r -> read_digits b (strip_0x r) = read_digits b r.
Proof.
  intros H. destruct r as [|z [|x r]]; try reflexivity. inversion H as [|? ? _ H2]. inversion H2 as [|? ? Hx _]. subst.
  unfold strip_0x. assert ((x =? 120) || (x =? 88) = false) as ->; [|rewrite andb_false_r; reflexivity].
  apply orb_false_intro; apply Z.eqb_neq; unfold hexdigit in Hx; lia.
Qed.

Lemma read_plain_upper b r : Forall hexdigit r -> read_digits b (strip_0x (map ascii_upper r)) = read_digits b r.
Proof.
  intros H. rewrite <- (read_upper b r H). destruct r as [|z [|x r]]; try reflexivity.
  inversion H as [|? ? _ H2]. inversion H2 as [|? ? Hx _]. subst. cbn [map strip_0x].
  assert ((ascii_upper x =? 120) || (ascii_upper x =? 88) = false) as ->; [|rewrite andb_false_r; reflexivity].
  unfold ascii_upper, hexdigit in *.
  destruct (97 <=? x) eqn:E1, (x <=? 122) eqn:E2; bools; cbn [andb]; apply orb_false_intro; apply Z.eqb_neq; lia.
Qed.

Lemma zh k t : Forall hexdigit t -> Forall hexdigit (zeros k ++ t).
Proof. intros. apply Forall_app. split; [apply zeros_hex|assumption]. Qed.

Lemma read_c_d q z : read_int (c_d q z) = z.
Proof.
  unfold c_d. set (ds := int_digits 10 (Z.abs z) (q_prec q)).
  assert (H : Forall hexdigit ds) by (apply int_digits_hex; lia).
  assert (R : read_digits 10 ds = Z.abs z) by (apply read_int_digits; lia).
  destruct (drop_pad q (q_zero q && no_prec q) (sign_text q (z <? 0)) ds H) as (k & E).
  unfold read_int. rewrite E. unfold sign_text.
  assert (RZ : read_digits 10 (zeros k ++ ds) = Z.abs z) by (rewrite read_zeros; exact R).
  assert (P : match zeros k ++ ds with
              | [] => 0
              | c :: r => if c =? 45 then - read_digits 10 r else if c =? 43 then read_digits 10 r else read_digits 10 (c :: r)
              end = Z.abs z).
  { pose proof (zh k ds H) as HH. destruct (zeros k ++ ds) as [|c r]; [cbn in RZ; lia|].
    inversion HH as [|? ? Hc _]. subst. unfold hexdigit in Hc.
    replace (c =? 45) with false by (symmetry; apply Z.eqb_neq; lia).
    replace (c =? 43) with false by (symmetry; apply Z.eqb_neq; lia). exact RZ. }
  destruct (z <? 0) eqn:Ez; bools.
  - change (drop_spaces (txt "-") ++ zeros k ++ ds) with (45 :: zeros k ++ ds). cbv iota beta. change (45 =? 45) with true. cbv iota. rewrite RZ. lia.
  - destruct (q_plus q).
    + change (drop_spaces (txt "+") ++ zeros k ++ ds) with (43 :: zeros k ++ ds). cbv iota beta. change (43 =? 45) with false. change (43 =? 43) with true. cbv iota. rewrite RZ. lia.
    + destruct (q_space q).
      * change (drop_spaces (txt " ") ++ zeros k ++ ds) with (zeros k ++ ds). rewrite P. lia.
      * change (drop_spaces [] ++ zeros k ++ ds) with (zeros k ++ ds). rewrite P. lia.
Qed.

Lemma read_j_d q z : read_int (j_d q z) = z.
Proof.
  unfold j_d. destruct (d_irregular q z) eqn:E; [|apply read_c_d].
  unfold d_irregular in E. bools. subst. unfold read_int. rewrite drop_justify. reflexivity.
Qed.

Lemma read_c_u q n : 0 <= n -> read_uint 10 (c_u q n) = n.
Proof.
  intros Hn. unfold c_u, read_uint. destruct (drop_pad q (q_zero q && no_prec q) [] (int_digits 10 n (q_prec q))) as (k & E).
  { apply int_digits_hex; lia. }
  rewrite E. cbn [drop_spaces filter app]. rewrite read_plain by (apply zh, int_digits_hex; lia).
  rewrite read_zeros. apply read_int_digits; lia.
Qed.

Lemma upper_drop t : drop_spaces (map ascii_upper t) = map ascii_upper (drop_spaces t).
Proof.
  induction t as [|c t IH]; [reflexivity|]. cbn [map drop_spaces filter].
  assert ((ascii_upper c =? 32) = (c =? 32)) as ->.
  { unfold ascii_upper. destruct (97 <=? c) eqn:E1, (c <=? 122) eqn:E2; cbn [andb]; try reflexivity.
    bools. destruct (c - 32 =? 32) eqn:E3, (c =? 32) eqn:E4; bools; try reflexivity; lia. }
  destruct (c =? 32); cbn [negb]; cbn [map]; unfold drop_spaces in IH; rewrite IH; reflexivity.
Qed.

Lemma read_c_x q n : 0 <= n -> read_uint 16 (c_x q n) = n /\ read_uint 16 (upper (c_x q n)) = n.
Proof.
  intros Hn. unfold c_x, read_uint, upper. rewrite upper_drop.
  assert (H : Forall hexdigit (int_digits 16 n (q_prec q))) by (apply int_digits_hex; lia).
  match goal with |- context [pad_number ?a ?b ?c ?d] => destruct (drop_pad a b c d H) as (k & E) end.
  rewrite E.
  assert (R : read_digits 16 (zeros k ++ int_digits 16 n (q_prec q)) = n) by (rewrite read_zeros; apply read_int_digits; lia).
  destruct (q_alt q && negb (n =? 0)).
  - change (drop_spaces (txt "0x")) with [48; 120]. cbn [app map]. change (ascii_upper 48) with 48. change (ascii_upper 120) with 88.
    cbn [strip_0x Z.eqb Pos.eqb andb orb]. rewrite read_upper by (apply zh; exact H). auto.
  - cbn [drop_spaces filter app]. rewrite read_plain, read_plain_upper by (apply zh; exact H). auto.
Qed.

Lemma read_zero_digits b p q : read_uint b (justify q (min_digits p (txt "0"))) = 0 /\ read_uint b (upper (justify q (min_digits p (txt "0")))) = 0.
Proof.
  unfold read_uint, upper. rewrite upper_drop, drop_justify.
  assert (H : Forall hexdigit (min_digits p (txt "0"))).
  { apply min_digits_hex. constructor; [left; cbn; lia|constructor]. }
  rewrite (drop_hex _ H), read_plain, read_plain_upper by exact H.
  unfold min_digits. rewrite read_zeros. split; reflexivity.
Qed.

Lemma read_j_x q n : 0 <= n -> read_uint 16 (j_x q n) = n /\ read_uint 16 (upper (j_x q n)) = n.
Proof.
  intros Hn. unfold j_x. destruct (x_irregular q n) eqn:E; [|apply read_c_x; exact Hn].
  unfold x_irregular in E. bools. subst. apply read_zero_digits.
Qed.

Lemma force_zero_hex t : Forall hexdigit t -> Forall hexdigit (force_zero t) /\ read_digits 8 (force_zero t) = read_digits 8 t.
Proof.
  intros H. assert (A : Forall hexdigit (48 :: t) /\ read_digits 8 (48 :: t) = read_digits 8 t).
  { split; [constructor; [left; lia|exact H]|reflexivity]. }
  unfold force_zero. destruct t as [|z r]; [exact A|].
  destruct (Z.eq_dec z 48) as [->|Hz]; [auto|].
  destruct z as [|z|z]; try exact A. do 6 (destruct z as [z|z|]; try exact A). tauto.
Qed.

Lemma read_c_o q n : 0 <= n -> read_uint 8 (c_o q n) = n.
Proof.
  intros Hn. unfold c_o, read_uint.
  assert (H : Forall hexdigit (int_digits 8 n (q_prec q))) by (apply int_digits_hex; lia).
  pose proof (read_int_digits 8 n (q_prec q) ltac:(lia) Hn) as R.
  destruct (force_zero_hex _ H) as [FH FR]. rewrite R in FR.
  set (ds := if q_alt q then force_zero (int_digits 8 n (q_prec q)) else int_digits 8 n (q_prec q)).
  assert (D : Forall hexdigit ds /\ read_digits 8 ds = n) by (unfold ds; destruct (q_alt q); auto).
  destruct D as [D1 D2]. destruct (drop_pad q (q_zero q && no_prec q) [] ds D1) as (k & E). rewrite E.
  cbn [drop_spaces filter app]. rewrite read_plain by (apply zh; exact D1). rewrite read_zeros. exact D2.
Qed.

Lemma read_j_o q n : 0 <= n -> read_uint 8 (j_o q n) = n.
Proof.
  intros Hn. unfold j_o. destruct (o_irregular q n) eqn:E; [|apply read_c_o; exact Hn].
  unfold o_irregular in E. apply andb_prop in E as [E _]. bools. subst.
  destruct (q_prec q) as [p|]; [destruct (p =? 0); [unfold read_uint; rewrite drop_justify; reflexivity|]|]; apply read_zero_digits.
Qed.
