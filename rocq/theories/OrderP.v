(** Numerals of the same length sort as numbers. *)
From Verif Require Import Base Digits ContextM CompilerM GrammarSpec IntFormM FormatterM UtilsM SeqSpec FmtSpec FmtP FmtP2 DirSpec FloatSpec OrderSpec.

Lemma text_lt_app p a b : text_lt a b -> text_lt (p ++ a) (p ++ b).
Proof. intros H. induction p as [|x p IH]; [exact H|]. cbn [app text_lt]. right. auto. Qed.

Lemma text_lt_irrefl a : ~ text_lt a a.
Proof. induction a as [|x a IH]; cbn [text_lt]; [auto|]. intros [H|[_ H]]; [lia|exact (IH H)]. Qed.

Lemma text_lt_trans a : forall b c, text_lt a b -> text_lt b c -> text_lt a c.
Proof.
  induction a as [|x a IH]; intros [|y b] [|z c]; cbn [text_lt]; try tauto.
  intros [H|[-> H]] [G|[<- G]]; [left; lia|left; exact H|left; exact G|right]. split; [reflexivity|]. exact (IH _ _ H G).
Qed.

Lemma text_lt_digits b xs : forall ys, 2 <= b -> digits_ok b xs -> digits_ok b ys -> zlen xs = zlen ys -> of_digits b xs < of_digits b ys -> text_lt xs ys.
Proof.
  induction xs as [|x xs IH]; intros [|y ys] Hb Hx Hy L V.
  - cbn in V. lia.
  - rewrite zlen_cons in L. pose proof (zlen_nonneg ys). change (zlen (@nil Z)) with 0 in L. lia.
  - rewrite zlen_cons in L. pose proof (zlen_nonneg xs). change (zlen (@nil Z)) with 0 in L. lia.
  - rewrite !zlen_cons in L. inversion Hx as [|x0 xs0 X1 X2]; subst. inversion Hy as [|y0 ys0 Y1 Y2]; subst.
    rewrite !of_digits_cons in V. pose proof (of_digits_bound b xs Hb X2) as Bx. pose proof (of_digits_bound b ys Hb Y2) as By.
    assert (E : zlen xs = zlen ys) by lia. rewrite E in *. set (P := b ^ zlen ys) in *. cbn [text_lt].
    destruct (Z.lt_trichotomy x y) as [H|[H|H]]; [left; exact H| |exfalso; nia]. subst y. right. split; [reflexivity|]. apply IH; try assumption; lia.
Qed.

Lemma text_lt_map b f xs : (forall d e, 0 <= d < e -> e < b -> f d < f e) -> forall ys, digits_ok b xs -> digits_ok b ys -> text_lt xs ys -> text_lt (map f xs) (map f ys).
Proof.
  intros Hf. induction xs as [|x xs IH]; intros [|y ys] Hx Hy H; cbn [text_lt map] in *; try tauto.
  inversion Hx as [|x0 xs0 X1 X2]; subst. inversion Hy as [|y0 ys0 Y1 Y2]; subst. destruct H as [H|[-> H]]; [left; apply Hf; lia|right; auto].
Qed.

(** right-justified fields *)
Lemma text_lt_spaces k l pre A B : 0 <= k < l -> (pre = [] \/ exists c, pre = [c] /\ 32 <= c) -> (exists d r, B = d :: r /\ 32 < d) ->
  text_lt (rep 32 l ++ pre ++ A) (rep 32 k ++ pre ++ B).
Proof.
  intros Hk Hp (d & r & -> & Hd). replace l with (k + (l - k)) by lia. rewrite rep_add by lia. rewrite <- app_assoc. apply text_lt_app.
  replace (l - k) with (1 + (l - k - 1)) by lia. rewrite rep_add by lia. change (rep 32 1) with [32]. cbn [app].
  destruct Hp as [->|(c & -> & Hc)]; cbn [app text_lt]; [left; exact Hd|].
  destruct (Z.eq_dec c 32) as [->|N]; [|left; lia]. right. split; [reflexivity|].
  destruct (Z.eq_dec (l - k - 1) 0) as [->|N]; [cbn [app rep]; change (rep 32 0) with (@nil Z); cbn [app text_lt]; left; exact Hd|].
  replace (l - k - 1) with (1 + (l - k - 2)) by lia. rewrite rep_add by lia. change (rep 32 1) with [32]. cbn [app text_lt]. left. exact Hd.
Qed.

(** digits with leading zeros, standing for a number *)
Definition stands (b n : Z) (ds : list Z) : Prop := digits_ok b ds /\ of_digits b ds = n.

Definition laid (w : Z) (zp : bool) (pre : list Z) (f : Z -> Z) (ds : list Z) : list Z :=
  if zp then pre ++ map f (rep 0 (w - zlen pre - zlen ds) ++ ds) else rep 32 (w - zlen pre - zlen ds) ++ pre ++ map f ds.

Lemma laid_order b w zp pre f n m xs ys : 2 <= b -> (forall d e, 0 <= d < e -> e < b -> f d < f e) -> (forall d, 0 <= d < b -> 48 <= f d) ->
  (pre = [] \/ exists c, pre = [c] /\ 32 <= c) -> stands b n xs -> stands b m ys -> n < m -> zlen xs <= zlen ys ->
  zlen (laid w zp pre f xs) = zlen (laid w zp pre f ys) -> text_lt (laid w zp pre f xs) (laid w zp pre f ys).
Proof.
  intros Hb Hf H48 Hp [X1 X2] [Y1 Y2] Hn Hl L. unfold laid in *. destruct zp.
  - apply text_lt_app. rewrite !zlen_app, !zlen_map, !zlen_app, !zlen_rep in L.
    assert (Z0 : forall k, digits_ok b (rep 0 k)) by (intros k; unfold digits_ok, rep; apply Forall_forall; intros d Hd; apply repeat_spec in Hd; subst d; lia).
    apply (text_lt_map b); [exact Hf|apply Forall_app; split; [apply Z0|assumption]|apply Forall_app; split; [apply Z0|assumption]|].
    apply (text_lt_digits b); [exact Hb|apply Forall_app; split; [apply Z0|assumption]|apply Forall_app; split; [apply Z0|assumption]|rewrite !zlen_app, !zlen_rep; lia|].
    rewrite !of_digits_app, !of_digits_zeros. lia.
  - rewrite !zlen_app, !zlen_map, !zlen_rep in L. destruct (Z.eq_dec (zlen xs) (zlen ys)) as [E|N].
    + rewrite E. apply text_lt_app, text_lt_app. apply (text_lt_map b); try assumption. apply (text_lt_digits b); try assumption. lia.
    + assert (D : exists d r, map f ys = d :: r /\ 32 < d).
      { destruct ys as [|d r]; [pose proof (zlen_nonneg xs); change (zlen (@nil Z)) with 0 in *; lia|]. exists (f d), (map f r). split; [reflexivity|].
        inversion Y1 as [|d0 r0 Hd Hr]; subst. specialize (H48 d Hd). lia. }
      destruct (Z.le_gt_cases 0 (w - zlen pre - zlen ys)) as [H|H]; [apply text_lt_spaces; [lia|exact Hp|exact D]|].
      exfalso. lia.
Qed.

(** the digits of an integer conversion *)
Definition conv_digits (b n : Z) (prec : option Z) : list Z :=
  match prec with
  | Some p => if (n =? 0) && (p =? 0) then [] else rep 0 (p - zlen (digits b n)) ++ digits b n
  | None => digits b n
  end.

Lemma int_digits_conv b n prec : int_digits b n prec = map digit_char (conv_digits b n prec).
Proof.
  unfold int_digits, conv_digits. destruct prec as [p|]; [|reflexivity]. destruct ((n =? 0) && (p =? 0)); [reflexivity|].
  unfold min_digits, numeral, zeros. rewrite zlen_map, map_app. f_equal. rewrite map_rep. reflexivity.
Qed.

Lemma conv_stands b n prec : 2 <= b -> 0 <= n -> stands b n (conv_digits b n prec).
Proof.
  intros Hb Hn. unfold conv_digits. destruct prec as [p|]; [|split; [apply digits_digits_ok|apply digits_value]; assumption].
  destruct ((n =? 0) && (p =? 0)) eqn:E; [apply andb_prop in E as [E _]; apply Z.eqb_eq in E; subst n; split; [constructor|reflexivity]|].
  split.
  - apply Forall_app. split; [|apply digits_digits_ok; assumption]. unfold rep. apply Forall_forall. intros d Hd. apply repeat_spec in Hd. lia.
  - rewrite of_digits_app, of_digits_zeros, digits_value by assumption. lia.
Qed.

Lemma digits_len_mono b n m : 2 <= b -> 0 <= n -> n <= m -> zlen (digits b n) <= zlen (digits b m).
Proof.
  intros Hb Hn Hm. pose proof (digits_nonempty b m Hb ltac:(lia)). apply digits_len_le; try assumption. pose proof (digits_upper b m Hb ltac:(lia)). lia.
Qed.

Lemma conv_len_mono b n m prec : 2 <= b -> 0 <= n -> n <= m -> zlen (conv_digits b n prec) <= zlen (conv_digits b m prec).
Proof.
  intros Hb Hn Hm. pose proof (digits_len_mono b n m Hb Hn Hm) as L. unfold conv_digits. destruct prec as [p|]; [|exact L].
  destruct ((n =? 0) && (p =? 0)) eqn:E; [apply zlen_nonneg|].
  destruct ((m =? 0) && (p =? 0)) eqn:F; [apply andb_prop in F as [F G]; apply Z.eqb_eq in F; assert (n = 0) by lia; subst n; rewrite G in E; discriminate|].
  rewrite !zlen_app, !zlen_rep. lia.
Qed.

Lemma pad_number_laid q zp pre b n : q_left q = false ->
  pad_number q zp pre (int_digits b n (q_prec q)) = laid (q_width q) zp pre digit_char (conv_digits b n (q_prec q)).
Proof.
  intros Hl. rewrite int_digits_conv. unfold pad_number, laid, justify. rewrite Hl, andb_true_r, zlen_map. destruct zp.
  - rewrite map_app. unfold zeros. rewrite map_rep. reflexivity.
  - unfold spaces. change (ch " ") with 32. rewrite zlen_app, zlen_map. replace (q_width q - (zlen pre + zlen (conv_digits b n (q_prec q)))) with (q_width q - zlen pre - zlen (conv_digits b n (q_prec q))) by lia. reflexivity.
Qed.

Lemma digit_char_mono d e : 0 <= d < e -> digit_char d < digit_char e.
Proof. intros H. unfold digit_char. destruct (d <? 10) eqn:D, (e <? 10) eqn:E; lia. Qed.
Lemma digit_char_ge d : 0 <= d -> 48 <= digit_char d.
Proof. intros H. unfold digit_char. destruct (d <? 10) eqn:D; lia. Qed.

Lemma pad_number_order q zp pre b n m : q_left q = false -> 2 <= b -> (pre = [] \/ exists c, pre = [c] /\ 32 <= c) -> 0 <= n < m ->
  let T v := pad_number q zp pre (int_digits b v (q_prec q)) in zlen (T n) = zlen (T m) -> text_lt (T n) (T m).
Proof.
  intros Hl Hb Hp Hn T. unfold T. rewrite !pad_number_laid by exact Hl. intros L.
  apply (laid_order b _ _ _ _ n m); try assumption; [intros d e H _; apply digit_char_mono, H|intros d H; apply digit_char_ge; lia| | |lia|apply conv_len_mono; lia]; apply conv_stands; lia.
Qed.

(** the upper case letters come after the digits, too *)
Lemma upper_laid q zp b n : q_left q = false ->
  upper (pad_number q zp [] (int_digits b n (q_prec q))) = laid (q_width q) zp [] (fun d => ascii_upper (digit_char d)) (conv_digits b n (q_prec q)).
Proof.
  intros Hl. rewrite pad_number_laid by exact Hl. unfold laid, upper. destruct zp; cbn [app]; rewrite ?map_app, ?map_map; [reflexivity|].
  f_equal. rewrite map_rep. reflexivity.
Qed.

Lemma upper_order q zp n m : q_left q = false -> 0 <= n < m ->
  let T v := upper (pad_number q zp [] (int_digits 16 v (q_prec q))) in zlen (T n) = zlen (T m) -> text_lt (T n) (T m).
Proof.
  intros Hl Hn T. unfold T. rewrite !upper_laid by exact Hl. intros L.
  apply (laid_order 16 _ _ _ _ n m); try assumption; [lia| | |left; reflexivity| | |lia|apply conv_len_mono; lia]; try (apply conv_stands; lia).
  - intros d e H He. unfold ascii_upper, digit_char. destruct (d <? 10) eqn:D, (e <? 10) eqn:E; repeat match goal with |- context [if ?b then _ else _] => destruct b eqn:? end; lia.
  - intros d H. unfold ascii_upper, digit_char. destruct (d <? 10) eqn:D; repeat match goal with |- context [if ?b then _ else _] => destruct b eqn:? end; lia.
Qed.

(** ** Fixed notation *)

Lemma text_lt_right a : forall b u v, zlen a = zlen b -> text_lt a b -> text_lt (a ++ u) (b ++ v).
Proof.
  induction a as [|x a IH]; intros [|y b] u v L H; cbn [text_lt] in H; try tauto.
  - rewrite zlen_cons in L. change (zlen (@nil Z)) with 0 in L. pose proof (zlen_nonneg b). lia.
  - rewrite !zlen_cons in L. cbn [app text_lt]. destruct H as [H|[-> H]]; [left; exact H|right]. split; [reflexivity|]. apply IH; [lia|exact H].
Qed.

Lemma pad_number_tail q zp pre n tail : q_left q = false ->
  pad_number q zp pre (numeral 10 n ++ tail) = laid (q_width q - zlen tail) zp pre digit_char (digits 10 n) ++ tail.
Proof.
  intros Hl. unfold pad_number, laid, justify, numeral. rewrite Hl, andb_true_r, zlen_app, zlen_map. destruct zp.
  - rewrite map_app, map_rep. unfold zeros. rewrite <- !app_assoc. f_equal. f_equal. f_equal. lia.
  - rewrite !zlen_app, zlen_map. unfold spaces. change (ch " ") with 32. rewrite <- !app_assoc. f_equal. f_equal. lia.
Qed.

Lemma fraction_order p N M : 0 <= p -> 0 <= N < M -> N / 10 ^ p = M / 10 ^ p -> text_lt (fraction p N) (fraction p M).
Proof.
  intros Hp Hn E. unfold fraction. apply (text_lt_map 10); [intros d e H _; apply digit_char_mono, H|apply fixdigs_ok; lia|apply fixdigs_ok; lia|].
  apply (text_lt_digits 10); [lia|apply fixdigs_ok; lia|apply fixdigs_ok; lia|rewrite !fixdigs_length; reflexivity|].
  rewrite !fixdigs_value, !Z2Nat.id by lia. pose proof (Z.div_mod N (10 ^ p) ltac:(lia)). pose proof (Z.div_mod M (10 ^ p) ltac:(lia)). lia.
Qed.

Definition point_text (alt : bool) (N p : Z) : list Z := if alt then alt_text N p else decimal_text N p.
Definition point_tail (alt : bool) (N p : Z) : list Z := if p =? 0 then (if alt then txt "." else []) else ch "." :: fraction p N.

Lemma point_text_eq alt N p : point_text alt N p = numeral 10 (N / 10 ^ p) ++ point_tail alt N p.
Proof.
  unfold point_text, point_tail, alt_text, decimal_text. destruct alt, (p =? 0); rewrite ?app_nil_r, <- ?app_assoc; reflexivity.
Qed.

Lemma point_tail_len alt N M p : zlen (point_tail alt N p) = zlen (point_tail alt M p).
Proof.
  unfold point_tail, fraction. destruct (p =? 0); [reflexivity|]. rewrite !zlen_cons, !zlen_map, !fixdigs_length. reflexivity.
Qed.

Lemma point_order q pre p N M : q_left q = false -> 0 <= p -> (pre = [] \/ exists c, pre = [c] /\ 32 <= c) -> 0 <= N < M ->
  let T v := pad_number q (q_zero q) pre (point_text (q_alt q) v p) in zlen (T N) = zlen (T M) -> text_lt (T N) (T M).
Proof.
  intros Hl Hp Hpre Hn T. unfold T. rewrite !point_text_eq, !pad_number_tail by exact Hl. rewrite (point_tail_len _ N M p), !zlen_app, (point_tail_len _ N M p). intros L.
  assert (D : N / 10 ^ p <= M / 10 ^ p) by (apply Z.div_le_mono; lia). assert (N0 : 0 <= N / 10 ^ p) by (apply Z.div_pos; lia).
  destruct (Z.eq_dec (N / 10 ^ p) (M / 10 ^ p)) as [E|Ne].
  - rewrite E. apply text_lt_app. unfold point_tail. destruct (Z.eqb_spec p 0) as [->|P0]; [rewrite !Z.div_1_r in E; lia|].
    cbn [text_lt]. right. split; [reflexivity|]. apply fraction_order; assumption.
  - apply text_lt_right; [lia|]. apply (laid_order 10 _ _ _ _ (N / 10 ^ p) (M / 10 ^ p)); try assumption; try lia.
    + intros d e H _. apply digit_char_mono, H.
    + intros d H. apply digit_char_ge. lia.
    + split; [apply digits_digits_ok; lia|apply digits_value; lia].
    + split; [apply digits_digits_ok; lia|apply digits_value; lia].
    + apply digits_len_mono; lia.
Qed.

(** no letters in it *)
Lemma upper_no_letters t : Forall (fun c => c < 97) t -> upper t = t.
Proof.
  intros H. unfold upper. induction H as [|c t Hc Ht IH]; [reflexivity|]. cbn [map]. rewrite IH. f_equal. unfold ascii_upper. destruct (97 <=? c) eqn:E; [lia|reflexivity].
Qed.

Lemma digits_no_letters ds : digits_ok 10 ds -> Forall (fun c => c < 97) (map digit_char ds).
Proof.
  intros H. apply Forall_map. eapply Forall_impl; [|exact H]. intros d Hd. cbv beta in *. unfold digit_char. destruct (d <? 10) eqn:E; lia.
Qed.

Lemma rep_no_letters c n : c < 97 -> Forall (fun c => c < 97) (rep c n).
Proof. intros H. unfold rep. apply Forall_forall. intros d Hd. apply repeat_spec in Hd. lia. Qed.

Lemma pad_no_letters q zp pre body : Forall (fun c => c < 97) pre -> Forall (fun c => c < 97) body -> Forall (fun c => c < 97) (pad_number q zp pre body).
Proof.
  intros Hp Hb. unfold pad_number, justify, spaces, zeros. destruct (zp && negb (q_left q)); [|destruct (q_left q)]; repeat (apply Forall_app; split); try assumption; apply rep_no_letters; reflexivity.
Qed.

Lemma point_no_letters alt N p : 0 <= N -> 0 <= p -> Forall (fun c => c < 97) (point_text alt N p).
Proof.
  intros HN Hp. rewrite point_text_eq. apply Forall_app. split; [apply digits_no_letters, digits_digits_ok; [lia|apply Z.div_pos; lia]|].
  unfold point_tail. destruct (p =? 0); [destruct alt; [constructor; [reflexivity|constructor]|constructor]|]. constructor; [reflexivity|]. unfold fraction. apply digits_no_letters, fixdigs_ok. lia.
Qed.

Lemma sign_no_letters q neg : Forall (fun c => c < 97) (sign_text q neg).
Proof. unfold sign_text. destruct neg, (q_plus q), (q_space q); repeat constructor. Qed.

Lemma sign_short q : sign_text q false = [] \/ exists c, sign_text q false = [c] /\ 32 <= c.
Proof. unfold sign_text. destruct (q_plus q); [right; exists 43; split; [reflexivity|lia]|]. destruct (q_space q); [right; exists 32; split; [reflexivity|lia]|left; reflexivity]. Qed.

Lemma c_d_order q n m : q_left q = false -> 0 <= n < m -> zlen (c_d q n) = zlen (c_d q m) -> text_lt (c_d q n) (c_d q m).
Proof.
  intros Hl Hn. unfold c_d. replace (n <? 0) with false by lia. replace (m <? 0) with false by lia. rewrite !Z.abs_eq by lia.
  apply (pad_number_order q _ _ 10 n m Hl); [lia|apply sign_short|exact Hn].
Qed.

(** "% .0d" of zero has no space of its own, but sorts as if it had *)
Lemma j_d_order q n m : q_left q = false -> 0 <= n < m -> zlen (j_d q n) = zlen (j_d q m) -> text_lt (j_d q n) (j_d q m).
Proof.
  intros Hl Hn. assert (Em : j_d q m = c_d q m). { unfold j_d, d_irregular. replace (m =? 0) with false by lia. reflexivity. }
  rewrite Em. unfold j_d at 1 2. destruct (d_irregular q n) eqn:E; [|apply c_d_order; assumption]. unfold d_irregular in E.
  apply andb_prop in E as [E Ep]. apply andb_prop in E as [E Es]. apply andb_prop in E as [E0 E]. apply Z.eqb_eq in E0. subst n.
  assert (Pr : q_prec q = Some 0) by (destruct (q_prec q) as [[| |]|]; congruence). apply negb_true_iff in Ep.
  assert (C0 : forall w, 1 <= w -> q_width q = w -> justify q [] = c_d q 0).
  { intros w W Ew. unfold c_d, pad_number, no_prec, sign_text, justify, int_digits. rewrite Pr, Ep, Es, Hl, andb_false_r. change (0 <? 0) with false. change (Z.abs 0 =? 0) with true. cbn [andb negb].
    change (txt " ") with [32]. rewrite app_nil_r. change (zlen [32]) with 1. change (zlen (@nil Z)) with 0. rewrite ?app_nil_r. unfold spaces. change (ch " ") with 32.
    replace (q_width q - 0) with (q_width q - 1 + 1) by lia. rewrite rep_add, rep_one by lia. reflexivity. }
  intros L. destruct (Z_lt_ge_dec (q_width q) 1) as [W|W]; [|rewrite (C0 (q_width q)) in *; [apply c_d_order; assumption|lia|reflexivity|lia|reflexivity]].
  exfalso. unfold justify in L. rewrite Hl, app_nil_r in L.
  unfold c_d, pad_number, no_prec, sign_text, justify in L. rewrite Pr, Ep, Es, Hl, andb_false_r in L. replace (m <? 0) with false in L by lia. cbn [andb] in L.
  unfold spaces in L. change (txt " ") with [32] in L. rewrite !zlen_app, !zlen_rep in L. change (zlen [32]) with 1 in L. change (zlen (@nil Z)) with 0 in L. pose proof (zlen_nonneg (int_digits 10 (Z.abs m) (Some 0))). lia.
Qed.

Lemma c_u_order q n m : q_left q = false -> 0 <= n < m -> zlen (c_u q n) = zlen (c_u q m) -> text_lt (c_u q n) (c_u q m).
Proof. intros Hl Hn. apply (pad_number_order q _ _ 10 n m Hl); [lia|left; reflexivity|exact Hn]. Qed.

Lemma c_x_order q n m : q_left q = false -> q_alt q = false -> 0 <= n < m -> zlen (c_x q n) = zlen (c_x q m) -> text_lt (c_x q n) (c_x q m).
Proof. intros Hl Ha Hn. unfold c_x. rewrite Ha. apply (pad_number_order q _ _ 16 n m Hl); [lia|left; reflexivity|exact Hn]. Qed.

Lemma c_X_order q n m : q_left q = false -> q_alt q = false -> 0 <= n < m -> zlen (upper (c_x q n)) = zlen (upper (c_x q m)) -> text_lt (upper (c_x q n)) (upper (c_x q m)).
Proof. intros Hl Ha Hn. unfold c_x. rewrite Ha. apply (upper_order q _ n m Hl Hn). Qed.

Lemma c_o_order q n m : q_left q = false -> q_alt q = false -> 0 <= n < m -> zlen (c_o q n) = zlen (c_o q m) -> text_lt (c_o q n) (c_o q m).
Proof. intros Hl Ha Hn. unfold c_o. rewrite Ha. apply (pad_number_order q _ _ 8 n m Hl); [lia|left; reflexivity|exact Hn]. Qed.
