(** SeqFormatter.java on floating-point values refined to texts: the steps between the layout a value provides and the output. *)
From Verif Require Import Base Digits UtilsM SeqM SeqSpec SeqP SeqSubP ContextM IntFormM FormatterM MathM MathP DecimalM FPDecimalM DoubleM FmtSpec FmtP
  FloatSpec FPDecP.

(** ** digit texts *)

Definition is_dig (c : Z) : Prop := 48 <= c <= 57.

Lemma digit_char_dig d : 0 <= d < 10 -> digit_char d = 48 + d.
Proof. intros H. unfold digit_char. replace (d <? 10) with true by (symmetry; apply Z.ltb_lt; lia). reflexivity. Qed.

Lemma map_digits_dig l : digits_ok 10 l -> Forall is_dig (map digit_char l).
Proof. intros H. induction H as [|d l Hd _ IH]; cbn; constructor; [|exact IH]. rewrite digit_char_dig by exact Hd. unfold is_dig. lia. Qed.

Lemma numeral_dig n : 0 <= n -> Forall is_dig (numeral 10 n).
Proof. intros H. apply map_digits_dig, digits_digits_ok; lia. Qed.

Lemma fraction_dig p n : Forall is_dig (fraction p n).
Proof. apply map_digits_dig, fixdigs_ok. lia. Qed.

Lemma no_dot l : Forall is_dig l -> index_of (ch ".") l = -1.
Proof. intros H. apply index_of_none. intros I. rewrite Forall_forall in H. apply H in I. unfold is_dig in I. cbn in I. lia. Qed.

Lemma decimal_text_dot N p : 0 <= N -> 0 <= p ->
  index_of (ch ".") (decimal_text N p) = if p =? 0 then -1 else zlen (numeral 10 (N / 10 ^ p)).
Proof.
  intros HN Hp. pose proof (pow10_pos p Hp). unfold decimal_text. rewrite index_of_app, no_dot by (apply numeral_dig, Z.div_pos; lia).
  destruct (p =? 0); cbn; [reflexivity|]. lia.
Qed.

Lemma zlen_decimal_text N p : 0 <= p -> zlen (decimal_text N p) = zlen (numeral 10 (N / 10 ^ p)) + (if p =? 0 then 0 else 1 + p).
Proof.
  intros Hp. unfold decimal_text. rewrite zlen_app. destruct (p =? 0); [reflexivity|]. rewrite zlen_cons, zlen_fraction. lia.
Qed.

Lemma div_shift N a z : 0 <= a -> 0 <= z -> (N * 10 ^ z) / 10 ^ (a + z) = N / 10 ^ a.
Proof.
  intros Ha Hz. pose proof (pow10_pos a Ha). pose proof (pow10_pos z Hz). rewrite Z.pow_add_r by lia. rewrite Z.div_mul_cancel_r by lia. reflexivity.
Qed.

Lemma fraction_pad N p z : 0 <= N -> 0 <= p -> 0 <= z -> fraction (p + z) (N * 10 ^ z) = fraction p N ++ zeros z.
Proof.
  intros HN Hp Hz. pose proof (pow10_pos z Hz). rewrite fraction_app by nia. rewrite Z.div_mul by lia. f_equal. apply fraction_shift; assumption.
Qed.

Lemma decimal_text_pad N p z : 0 <= N -> 0 < p -> 0 <= z -> decimal_text N p ++ zeros z = decimal_text (N * 10 ^ z) (p + z).
Proof.
  intros HN Hp Hz. unfold decimal_text. rewrite div_shift by lia. replace (p =? 0) with false by (symmetry; apply Z.eqb_neq; lia).
  replace (p + z =? 0) with false by (symmetry; apply Z.eqb_neq; lia). rewrite fraction_pad by lia. rewrite <- app_assoc. reflexivity.
Qed.

Lemma integer_text_pad N z : 0 <= N -> 0 < z -> decimal_text N 0 ++ ch "." :: zeros z = decimal_text (N * 10 ^ z) z.
Proof.
  intros HN Hz. unfold decimal_text. pose proof (div_shift N 0 z ltac:(lia) ltac:(lia)) as E. rewrite Z.add_0_l in E. rewrite E. cbn [Z.eqb]. rewrite app_nil_r.
  replace (z =? 0) with false by (symmetry; apply Z.eqb_neq; lia). rewrite fraction_shift by lia. reflexivity.
Qed.

Lemma alt_text_pos N p : 0 < p -> alt_text N p = decimal_text N p.
Proof. intros H. unfold alt_text. replace (p =? 0) with false by (symmetry; apply Z.eqb_neq; lia). apply app_nil_r. Qed.

Lemma alt_text_pad N p z : 0 <= N -> 0 <= p -> 0 <= z -> alt_text N p ++ zeros z = alt_text (N * 10 ^ z) (p + z).
Proof.
  intros HN Hp Hz. destruct (Z.eq_dec z 0) as [->|Ez]; [rewrite Z.mul_1_r, Z.add_0_r, app_nil_r; reflexivity|].
  rewrite (alt_text_pos _ (p + z)) by lia. destruct (Z.eq_dec p 0) as [->|Ep].
  - unfold alt_text. cbn [Z.eqb]. rewrite <- app_assoc. apply integer_text_pad; lia.
  - rewrite alt_text_pos by lia. apply decimal_text_pad; lia.
Qed.

Lemma zlen_alt_text N p : 0 <= p -> zlen (alt_text N p) = zlen (numeral 10 (N / 10 ^ p)) + 1 + p.
Proof. intros H. unfold alt_text. rewrite zlen_app, zlen_decimal_text by exact H. destruct (p =? 0) eqn:E; bools; [subst; cbn|rewrite zlen_nil]; lia. Qed.

(** ** fraction digits up to the precision *)

Definition with_alt (alt : bool) (N p : Z) : list Z := if alt then alt_text N p else decimal_text N p.

Lemma append_zeros s t z : den s t -> 0 < z -> zlen t + z <= int_max ->
  exists u, (let* pad := repeated (ch "0") (wrap32 z) in Ok (s_append s pad)) = Ok u /\ den u (t ++ zeros z).
Proof.
  intros Hd Hz Hm. pose proof (zlen_nonneg t). rewrite wrap32_small by (rewrite int_max_val in Hm; lia).
  destruct (repeated_den (ch "0") z ltac:(lia)) as (u & E & D). rewrite E. cbn [bind]. eexists. split; [reflexivity|].
  apply s_append_den; [exact Hd|exact D|]. unfold zeros. rewrite zlen_app, zlen_rep. lia.
Qed.

Lemma fractionalPart_den s N j p alt : den s (decimal_text N j) -> 0 <= N -> 0 <= j <= p -> zlen (decimal_text N j) + p + 1 <= int_max ->
  exists u, formatFractionalPart s p alt = Ok u /\ den u (with_alt alt (N * 10 ^ (p - j)) p).
Proof.
  intros Hd HN Hj Hm. unfold formatFractionalPart, with_alt. rewrite (s_indexOf_wden _ _ _ (den_wden _ _ Hd) (den_max _ _ Hd)). cbn [bind].
  rewrite decimal_text_dot by lia. rewrite (den_len _ _ Hd). unfold NOT_FOUND.
  pose proof (zlen_nonneg (numeral 10 (N / 10 ^ j))) as Hn.
  destruct (j =? 0) eqn:Ej; bools.
  - subst j. change (-1 =? -1) with true. rewrite andb_true_r. rewrite Z.sub_0_r. destruct (p =? 0) eqn:Ep; bools.
    + subst p. rewrite Z.mul_1_r. unfold alt_text. cbn [Z.eqb]. destruct alt; eexists; (split; [reflexivity|]); [|exact Hd].
      apply s_append_den; [exact Hd|apply chS_den|]. rewrite zlen_app. change (zlen (txt ".")) with 1. lia.
    + change (0 <=? -1) with false. change (-1 <? 0) with true. cbn match.
      replace (p <=? 0) with false by (symmetry; apply Z.leb_gt; lia). rewrite Z.sub_0_r.
      assert (D1 : den (s_append s (chS (ch "."))) (decimal_text N 0 ++ [ch "."])).
      { apply s_append_den; [exact Hd|apply chS_den|]. rewrite zlen_app, zlen_one. lia. }
      destruct (append_zeros _ _ p D1 ltac:(lia)) as (u & E & D); [rewrite zlen_app, zlen_one; lia|]. exists u. split; [exact E|].
      rewrite <- app_assoc in D. cbn [app] in D. rewrite integer_text_pad in D by lia. rewrite alt_text_pos by lia. destruct alt; exact D.
  - replace (zlen (numeral 10 (N / 10 ^ j)) =? -1) with false by (symmetry; apply Z.eqb_neq; lia). rewrite andb_false_r.
    replace (0 <=? zlen (numeral 10 (N / 10 ^ j))) with true by (symmetry; apply Z.leb_le; lia). cbn match.
    replace (zlen (numeral 10 (N / 10 ^ j)) <? 0) with false by (symmetry; apply Z.ltb_ge; lia).
    assert (Eo : zlen (decimal_text N j) - (zlen (numeral 10 (N / 10 ^ j)) + 1) = j).
    { rewrite zlen_decimal_text by lia. replace (j =? 0) with false by (symmetry; apply Z.eqb_neq; lia). lia. }
    rewrite Eo. rewrite alt_text_pos by lia. assert (Ew : forall x : list Z, (if alt then x else x) = x) by (destruct alt; reflexivity). rewrite Ew.
    destruct (p <=? j) eqn:Ep; bools.
    + replace p with j by lia. rewrite Z.sub_diag, Z.mul_1_r. eexists. split; [reflexivity|exact Hd].
    + destruct (append_zeros _ _ (p - j) Hd ltac:(lia) ltac:(lia)) as (u & E & D). exists u. split; [exact E|].
      rewrite decimal_text_pad in D by lia. replace (j + (p - j)) with p in D by lia. exact D.
Qed.

(** the same for a mantissa that ends in a dot *)
Lemma fractionalPart_dot_den s N p alt : den s (alt_text N 0) -> 0 <= N -> 0 < p -> zlen (alt_text N 0) + p + 1 <= int_max ->
  exists u, formatFractionalPart s p alt = Ok u /\ den u (with_alt alt (N * 10 ^ p) p).
Proof.
  intros Hd HN Hj Hm. unfold formatFractionalPart, with_alt. rewrite (s_indexOf_wden _ _ _ (den_wden _ _ Hd) (den_max _ _ Hd)). cbn [bind].
  pose proof (zlen_nonneg (decimal_text N 0)) as Hn.
  assert (Ed : index_of (ch ".") (alt_text N 0) = zlen (decimal_text N 0)).
  { unfold alt_text. cbn [Z.eqb]. rewrite index_of_app, decimal_text_dot by lia. cbn. lia. }
  rewrite Ed. rewrite (den_len _ _ Hd). unfold NOT_FOUND.
  replace (zlen (decimal_text N 0) =? -1) with false by (symmetry; apply Z.eqb_neq; lia). rewrite andb_false_r.
  replace (0 <=? zlen (decimal_text N 0)) with true by (symmetry; apply Z.leb_le; lia). cbn match.
  replace (zlen (decimal_text N 0) <? 0) with false by (symmetry; apply Z.ltb_ge; lia).
  assert (Eo : zlen (alt_text N 0) - (zlen (decimal_text N 0) + 1) = 0) by (unfold alt_text; cbn [Z.eqb]; rewrite zlen_app; cbn; lia).
  rewrite Eo. replace (p <=? 0) with false by (symmetry; apply Z.leb_gt; lia). rewrite Z.sub_0_r.
  destruct (append_zeros _ _ p Hd ltac:(lia) ltac:(lia)) as (u & E & D). exists u. split; [exact E|].
  rewrite alt_text_pad in D by lia. rewrite Z.add_0_l in D. rewrite alt_text_pos in D by lia. rewrite alt_text_pos by lia. destruct alt; exact D.
Qed.

(** ** trailing zeros *)

Definition strip_fraction (F : list Z) : list Z := match strip0 F with [] => [] | r => ch "." :: r end.

Lemma strip0_snoc l x : strip0 (l ++ [x]) = if x =? ch "0" then strip0 l else l ++ [x].
Proof.
  induction l as [|c l IH]; cbn [app strip0].
  - reflexivity.
  - rewrite IH. destruct (x =? ch "0") eqn:E; [reflexivity|]. destruct (l ++ [x]) eqn:El; [destruct l; discriminate|reflexivity].
Qed.

Lemma znth_app_r {A} (a b : list A) i : 0 <= i -> znth (a ++ b) (zlen a + i) = znth b i.
Proof.
  intros H. unfold znth. pose proof (zlen_nonneg a). replace (zlen a + i <? 0) with false by (symmetry; apply Z.ltb_ge; lia).
  replace (i <? 0) with false by (symmetry; apply Z.ltb_ge; lia). rewrite nth_error_app2 by (unfold zlen; lia). f_equal. unfold zlen. lia.
Qed.

Lemma stripLoop_spec s A : forall F G fuel, den s (A ++ ch "." :: F ++ G) -> (List.length F <= fuel)%nat ->
  stripLoop fuel s (zlen A) (zlen A + zlen F) = Ok (zlen A + zlen (strip0 F)).
Proof.
  induction F as [|x F IH] using rev_ind; intros G fuel Hd Hf.
  - change (zlen (@nil Z)) with 0. rewrite Z.add_0_r. destruct fuel; cbn [stripLoop]; rewrite Z.ltb_irrefl; f_equal; cbn; lia.
  - rewrite app_length in Hf. cbn in Hf. destruct fuel as [|fuel]; [lia|]. cbn [stripLoop]. rewrite zlen_app, zlen_one.
    pose proof (zlen_nonneg F). replace (zlen A <? zlen A + (zlen F + 1)) with true by (symmetry; apply Z.ltb_lt; lia).
    rewrite <- app_assoc in Hd. cbn [app] in Hd.
    rewrite (s_charAt_ok _ _ (zlen A + (zlen F + 1)) x Hd).
    2:{ rewrite znth_app_r by lia. change (ch "." :: F ++ x :: G) with ((ch "." :: F) ++ x :: G). replace (zlen F + 1) with (zlen (ch "." :: F) + 0) by (rewrite zlen_cons; lia).
        rewrite znth_app_r by lia. reflexivity. }
    cbn [bind]. rewrite strip0_snoc. destruct (x =? ch "0").
    + replace (zlen A + (zlen F + 1) - 1) with (zlen A + zlen F) by lia. apply IH with (x :: G); [exact Hd|lia].
    + rewrite zlen_app, zlen_one. reflexivity.
Qed.

Lemma strip0_prefix l : exists k, l = strip0 l ++ rep (ch "0") k /\ 0 <= k.
Proof.
  induction l as [|x l (k & E & Hk)] using rev_ind; [exists 0; split; [reflexivity|lia]|].
  rewrite strip0_snoc. destruct (x =? ch "0") eqn:Ex; bools.
  - exists (k + 1). split; [|lia]. rewrite rep_add by lia. rewrite app_assoc. rewrite <- E. subst x. reflexivity.
  - exists 0. split; [|lia]. cbn. symmetry. apply app_nil_r.
Qed.

Lemma slice_prefix {A} (a b : list A) : slice (a ++ b) 0 (zlen a) = a.
Proof. unfold slice, zlen. rewrite Z.sub_0_r, Nat2Z.id. cbn [skipn Z.to_nat]. rewrite firstn_app, Nat.sub_diag, firstn_all. cbn. apply app_nil_r. Qed.

(** the text is right for any sequence, the recorded length only when the sequence is a leaf *)
Lemma strip_wden s A F : den s (A ++ ch "." :: F) -> index_of (ch ".") A = -1 ->
  exists u, stripTrailingZeros s = Ok u /\ wden u (A ++ strip_fraction F) /\ (forall a, s = Leaf a -> den u (A ++ strip_fraction F)).
Proof.
  intros Hd Ha. unfold stripTrailingZeros. rewrite (s_indexOf_wden _ _ _ (den_wden _ _ Hd) (den_max _ _ Hd)). cbn [bind].
  rewrite index_of_app, Ha. cbn [index_of]. change (ch "." =? ch ".") with true. cbn match. change (-1 =? -1) with true. change (0 =? -1) with false. cbn match.
  pose proof (zlen_nonneg A) as La. rewrite Z.add_0_r. unfold NOT_FOUND. replace (zlen A =? -1) with false by (symmetry; apply Z.eqb_neq; lia).
  rewrite (den_len _ _ Hd). pose proof (den_max _ _ Hd) as Hm. rewrite zlen_app, zlen_cons in *. pose proof (zlen_nonneg F) as Lf.
  replace (zlen A + (1 + zlen F) - 1) with (zlen A + zlen F) by lia.
  rewrite (stripLoop_spec s A F []); [|rewrite app_nil_r; exact Hd|unfold zlen; lia]. cbn [bind].
  destruct (strip0_prefix F) as (k & E & Hk). pose proof (zlen_nonneg (strip0 F)) as Ls.
  assert (Lk : zlen F = zlen (strip0 F) + k) by (rewrite E at 1; rewrite zlen_app, zlen_rep; lia).
  set (j := (if zlen A + zlen (strip0 F) =? zlen A then zlen A + zlen (strip0 F) - 1 else zlen A + zlen (strip0 F)) + 1).
  assert (Ej : j = zlen (A ++ strip_fraction F)).
  { unfold j, strip_fraction. rewrite zlen_app. destruct (strip0 F) as [|y r].
    - change (zlen (@nil Z)) with 0. rewrite Z.add_0_r, Z.eqb_refl. lia.
    - rewrite !zlen_cons in *. pose proof (zlen_nonneg r). replace (zlen A + (1 + zlen r) =? zlen A) with false by (symmetry; apply Z.eqb_neq; lia). lia. }
  assert (Es : slice (A ++ ch "." :: F) 0 j = A ++ strip_fraction F).
  { assert (exists R, A ++ ch "." :: F = (A ++ strip_fraction F) ++ R) as [R ->].
    { unfold strip_fraction. destruct (strip0 F) as [|y r].
      - exists (ch "." :: rep (ch "0") k). rewrite E, app_nil_r. reflexivity.
      - exists (rep (ch "0") k). rewrite E, <- !app_assoc. reflexivity. }
    rewrite Ej. apply slice_prefix. }
  assert (Rj : 0 <= j <= zlen (A ++ ch "." :: F)).
  { rewrite Ej. unfold strip_fraction. rewrite !zlen_app, zlen_cons. destruct (strip0 F) as [|y r]; [change (zlen (@nil Z)) with 0; lia|]. rewrite !zlen_cons in *. lia. }
  destruct (s_sub_spec s _ 0 j Hd ltac:(lia) ltac:(lia) ltac:(lia)) as (u & Eu & W & L). exists u. split; [exact Eu|]. rewrite Es in W. split; [exact W|].
  intros a ->. destruct (s_sub_leaf a (A ++ ch "." :: F) 0 j) as (b & Eb & Db); try lia.
  { inversion Hd; subst; assumption. }
  rewrite Eb in Eu. injection Eu as <-. rewrite Es in Db. exact Db.
Qed.

Lemma strip_nodot s t : den s t -> index_of (ch ".") t = -1 -> stripTrailingZeros s = Ok s.
Proof.
  intros Hd Hi. unfold stripTrailingZeros. rewrite (s_indexOf_wden _ _ _ (den_wden _ _ Hd) (den_max _ _ Hd)). cbn [bind]. rewrite Hi. reflexivity.
Qed.

(** dropping the zeros of a fraction is dividing by powers of ten *)
Lemma strip_fraction_spec p : forall N, 0 <= N ->
  numeral 10 (N / 10 ^ Z.of_nat p) ++ strip_fraction (fraction (Z.of_nat p) N) = (let (M, r) := drop_zeros p N in decimal_text M r).
Proof.
  induction p as [|p IH]; intros N HN.
  - cbn [drop_zeros Z.of_nat]. unfold decimal_text, fraction. cbn. reflexivity.
  - cbn [drop_zeros]. unfold strip_fraction. unfold fraction. rewrite Nat2Z.id. cbn [fixdigs]. rewrite map_app. cbn [map]. rewrite strip0_snoc.
    pose proof (Z.mod_pos_bound N 10 ltac:(lia)) as M. rewrite digit_char_dig by exact M. change (ch "0") with 48.
    replace (Z.of_nat (S p)) with (1 + Z.of_nat p) by lia.
    destruct (N mod 10 =? 0) eqn:E; bools.
    + rewrite E. change (48 + 0 =? 48) with true. cbn match. rewrite <- (IH (N / 10)) by (apply Z.div_pos; lia).
      rewrite Z.pow_add_r, Z.pow_1_r by lia. rewrite Z.div_div by lia. unfold strip_fraction, fraction. rewrite Nat2Z.id. reflexivity.
    + replace (48 + N mod 10 =? 48) with false by (symmetry; apply Z.eqb_neq; lia). unfold decimal_text.
      replace (1 + Z.of_nat p =? 0) with false by (symmetry; apply Z.eqb_neq; lia). f_equal.
      unfold fraction. replace (Z.to_nat (1 + Z.of_nat p)) with (S p) by lia. cbn [fixdigs]. rewrite map_app. cbn [map]. rewrite digit_char_dig by exact M.
      destruct (map digit_char (fixdigs 10 p (N / 10)) ++ [48 + N mod 10]) eqn:El; [destruct (map digit_char (fixdigs 10 p (N / 10))); discriminate|reflexivity].
Qed.

Lemma short_text_strip N p : 0 <= N -> 0 < p -> short_text N p = numeral 10 (N / 10 ^ p) ++ strip_fraction (fraction p N).
Proof. intros HN Hp. unfold short_text. rewrite <- strip_fraction_spec by exact HN. rewrite Z2Nat.id by lia. reflexivity. Qed.

Lemma short_text_0 N : short_text N 0 = decimal_text N 0.
Proof. reflexivity. Qed.

Lemma drop_zeros_shift z : forall p N, 0 <= N -> drop_zeros (p + z) (N * 10 ^ Z.of_nat z) = drop_zeros p N.
Proof.
  induction z as [|z IH]; intros p N HN.
  - rewrite Nat.add_0_r, Z.mul_1_r. reflexivity.
  - rewrite Nat.add_succ_r. cbn [drop_zeros]. replace (Z.of_nat (S z)) with (Z.of_nat z + 1) by lia. rewrite Z.pow_add_r, Z.pow_1_r by lia. rewrite Z.mul_assoc.
    rewrite Z.mod_mul, Z.div_mul by lia. cbn [Z.eqb]. apply IH. exact HN.
Qed.

Lemma short_text_shift N p z : 0 <= N -> 0 <= p -> 0 <= z -> short_text (N * 10 ^ z) (p + z) = short_text N p.
Proof.
  intros HN Hp Hz. unfold short_text. rewrite Z2Nat.inj_add by lia. rewrite <- (Z2Nat.id z) at 2 by lia. rewrite drop_zeros_shift by exact HN. reflexivity.
Qed.

Lemma strip_decimal_wden s N p : den s (decimal_text N p) -> 0 <= N -> 0 <= p ->
  exists u, stripTrailingZeros s = Ok u /\ wden u (short_text N p) /\ (forall a, s = Leaf a -> den u (short_text N p)).
Proof.
  intros Hd HN Hp. destruct (Z.eq_dec p 0) as [->|Ep].
  - rewrite short_text_0. rewrite (strip_nodot s _ Hd) by (rewrite decimal_text_dot by lia; reflexivity).
    exists s. split; [reflexivity|]. split; [apply den_wden; exact Hd|auto].
  - rewrite short_text_strip by lia. pose proof (pow10_pos p Hp). unfold decimal_text in Hd. replace (p =? 0) with false in Hd by (symmetry; apply Z.eqb_neq; lia).
    apply strip_wden; [exact Hd|]. apply no_dot, numeral_dig, Z.div_pos; lia.
Qed.

Lemma strip_dot_wden s N : den s (alt_text N 0) -> 0 <= N ->
  exists u, stripTrailingZeros s = Ok u /\ wden u (decimal_text N 0) /\ (forall a, s = Leaf a -> den u (decimal_text N 0)).
Proof.
  intros Hd HN. unfold alt_text in Hd. cbn [Z.eqb] in Hd. change (txt ".") with (ch "." :: []) in Hd.
  destruct (strip_wden s (decimal_text N 0) [] Hd) as (u & E & W & D); [rewrite decimal_text_dot by lia; reflexivity|].
  exists u. unfold strip_fraction in *. cbn [strip0] in *. rewrite app_nil_r in *. auto.
Qed.

(** ** significant digits *)

(** number of digits from the first non-zero one on, and whether there is one *)
Fixpoint sigc (t : list Z) (n : Z) (seen : bool) : Z * bool :=
  match t with
  | [] => (n, seen)
  | c :: r => let seen := seen || ((ch "1" <=? c) && (c <=? ch "9")) in
              sigc r (if seen && negb (c =? ch ".") then n + 1 else n) seen
  end.

Lemma sigLoop_spec s : forall B A fuel n seen, den s (A ++ B) -> (List.length B <= fuel)%nat ->
  sigLoop fuel s (zlen A) n seen = Ok (sigc B n seen).
Proof.
  induction B as [|c B IH]; intros A fuel n seen Hd Hf.
  - rewrite app_nil_r in Hd. destruct fuel; cbn [sigLoop]; rewrite (den_len _ _ Hd), Z.ltb_irrefl; reflexivity.
  - cbn in Hf. destruct fuel as [|fuel]; [lia|]. cbn [sigLoop]. rewrite (den_len _ _ Hd). pose proof (zlen_nonneg B).
    replace (zlen A <? zlen (A ++ c :: B)) with true by (symmetry; apply Z.ltb_lt; rewrite zlen_app, zlen_cons; lia).
    rewrite (s_charAt_ok _ _ (zlen A) c Hd) by (rewrite <- (Z.add_0_r (zlen A)); rewrite znth_app_r by lia; reflexivity).
    cbn [bind sigc]. replace (zlen A + 1) with (zlen (A ++ [c])) by (rewrite zlen_app, zlen_one; lia).
    apply IH; [rewrite <- app_assoc; exact Hd|lia].
Qed.

Lemma sigc_app A B n seen : sigc (A ++ B) n seen = let (m, z) := sigc A n seen in sigc B m z.
Proof. revert n seen. induction A as [|c A IH]; intros; cbn [app sigc]; [reflexivity|apply IH]. Qed.

Lemma sigc_zeros k n : sigc (zeros k) n false = (n, false).
Proof. unfold zeros, rep. induction (Z.to_nat k); cbn; [reflexivity|assumption]. Qed.

Lemma sigc_seen l n : Forall is_dig l -> sigc l n true = (n + zlen l, true).
Proof.
  intros H. revert n. induction H as [|c l Hc _ IH]; intros n; cbn [sigc]; [rewrite zlen_nil, Z.add_0_r; reflexivity|].
  cbn [orb]. unfold is_dig in Hc. replace (c =? ch ".") with false by (symmetry; apply Z.eqb_neq; cbn; lia). cbn [negb andb]. rewrite IH, zlen_cons. f_equal. lia.
Qed.

Lemma sigc_numeral N : 0 < N -> sigc (numeral 10 N) 0 false = (ndigits N, true).
Proof.
  intros H. destruct (digits_head 10 N ltac:(lia) H) as (d & r & E & Hd). pose proof (numeral_dig N ltac:(lia)) as F. unfold numeral, ndigits in *. rewrite E in *. cbn [map] in *.
  inversion F; subst. cbn [sigc orb]. rewrite digit_char_dig by lia. change (ch "1") with 49. change (ch "9") with 57. change (ch ".") with 46.
  replace (49 <=? 48 + d) with true by (symmetry; apply Z.leb_le; lia). replace (48 + d <=? 57) with true by (symmetry; apply Z.leb_le; lia).
  replace (48 + d =? 46) with false by (symmetry; apply Z.eqb_neq; lia). cbn [andb negb]. rewrite sigc_seen by assumption. rewrite zlen_map, zlen_cons. f_equal.
Qed.

Lemma sigc_decimal N p : 0 < N -> 0 <= p -> sigc (decimal_text N p) 0 false = (ndigits N, true).
Proof.
  intros HN Hp. pose proof (pow10_pos p Hp) as P. unfold decimal_text. rewrite sigc_app. destruct (Z_lt_ge_dec N (10 ^ p)) as [H|H].
  - rewrite Z.div_small by lia. rewrite numeral_0. destruct (p =? 0) eqn:E; bools; [subst p; cbn in H; lia|].
    change (sigc (txt "0") 0 false) with (0, false). cbn [sigc]. cbn.
    destruct (ndigits_bounds N HN) as (N1 & B1 & B2).
    assert (L : ndigits N <= p). { destruct (Z_le_gt_dec (ndigits N) p) as [G|G]; [exact G|]. assert (10 ^ p <= 10 ^ (ndigits N - 1)) by (apply Z.pow_le_mono_r; lia). lia. }
    replace p with (p - ndigits N + ndigits N) by lia. rewrite fraction_app by lia. rewrite Z.div_small by lia.
    rewrite (numeral_fraction N) by lia. rewrite <- (Z.mul_0_l (10 ^ (p - ndigits N))). rewrite fraction_shift by lia. rewrite sigc_app, sigc_zeros. apply sigc_numeral. exact HN.
  - rewrite sigc_numeral by (apply Z.div_str_pos; lia). destruct (p =? 0) eqn:E; bools.
    + subst p. rewrite Z.pow_0_r, Z.div_1_r. reflexivity.
    + cbn [sigc]. cbn [orb]. change (ch "." =? ch ".") with true. cbn [negb andb]. rewrite sigc_seen by apply fraction_dig. rewrite zlen_fraction. f_equal.
      unfold ndigits. rewrite (digits_split 10 N (Z.to_nat p)); rewrite ?Z2Nat.id by lia; try lia. rewrite zlen_app, fixdigs_length. lia.
Qed.

Lemma padToPrecision_den s N p P : den s (decimal_text N p) -> 0 < N -> 0 <= p -> 0 <= P <= 70000 -> zlen (decimal_text N p) + P + 1 <= int_max ->
  exists u, padToPrecision s P = Ok u /\ den u (alt_text (N * 10 ^ Z.max 0 (P - ndigits N)) (p + Z.max 0 (P - ndigits N))).
Proof.
  intros Hd HN Hp HP Hm. unfold padToPrecision. change 0 with (zlen (@nil Z)) at 1.
  rewrite (sigLoop_spec s (decimal_text N p) []); [|exact Hd|rewrite (den_len _ _ Hd); unfold zlen; lia].
  cbn [bind]. rewrite sigc_decimal by lia. cbn [bind].
  rewrite (s_indexOf_wden _ _ (ch "0") (den_wden _ _ Hd) (den_max _ _ Hd)). cbn [bind negb andb].
  rewrite (s_indexOf_wden _ _ _ (den_wden _ _ Hd) (den_max _ _ Hd)). cbn [bind]. rewrite decimal_text_dot by lia.
  destruct (ndigits_bounds N HN) as (N1 & _ & _).
  assert (Ln : ndigits N <= zlen (decimal_text N p) + P + 1).
  { rewrite zlen_decimal_text by lia. pose proof (zlen_nonneg (numeral 10 (N / 10 ^ p))). pose proof (pow10_pos p Hp).
    destruct (Z_lt_ge_dec N (10 ^ p)) as [Hlt|Hlt].
    - destruct (Z.eq_dec p 0) as [->|Ep]; [cbn in Hlt; lia|]. unfold ndigits. pose proof (digits_len_le 10 N p ltac:(lia) ltac:(lia) ltac:(lia) ltac:(lia)). destruct (p =? 0) eqn:E; bools; lia.
    - unfold ndigits. rewrite (digits_split 10 N (Z.to_nat p)); rewrite ?Z2Nat.id by lia; try lia. rewrite zlen_app, fixdigs_length, zlen_numeral. destruct (p =? 0) eqn:E; bools; lia. }
  rewrite int_max_val in *. rewrite (wrap32_small (P - ndigits N)) by lia.
  assert (D1 : den (if (if p =? 0 then -1 else zlen (numeral 10 (N / 10 ^ p))) =? -1 then s_append s (chS (ch ".")) else s) (alt_text N p)).
  { unfold alt_text. destruct (p =? 0).
    - apply s_append_den; [exact Hd|apply chS_den|]. rewrite zlen_app. change (zlen (txt ".")) with 1. rewrite int_max_val. lia.
    - pose proof (zlen_nonneg (numeral 10 (N / 10 ^ p))). replace (zlen (numeral 10 (N / 10 ^ p)) =? -1) with false by (symmetry; apply Z.eqb_neq; lia). rewrite app_nil_r. exact Hd. }
  destruct (0 <? P - ndigits N) eqn:E; bools.
  - rewrite Z.max_r by lia. pose proof (append_zeros _ _ (P - ndigits N) D1 ltac:(lia)) as Z. rewrite wrap32_small in Z by lia.
    destruct Z as (u & Eu & Du). { rewrite zlen_alt_text, zlen_decimal_text in * by lia. rewrite int_max_val. destruct (p =? 0) eqn:E0; bools; lia. }
    exists u. split; [exact Eu|]. rewrite alt_text_pad in Du by lia. exact Du.
  - rewrite Z.max_l by lia. rewrite Z.mul_1_r, Z.add_0_r. eexists. split; [reflexivity|exact D1].
Qed.

(** zero has one significant digit *)
Lemma padToPrecision_zero s P : den s [ch "0"] -> 1 <= P <= 70000 -> exists u, padToPrecision s P = Ok u /\ den u (alt_text 0 (P - 1)).
Proof.
  intros Hd HP. unfold padToPrecision. change 0 with (zlen (@nil Z)) at 1.
  rewrite (sigLoop_spec _ [ch "0"] []); [|exact Hd|rewrite (den_len _ _ Hd); cbn; lia]. cbn [bind]. change (sigc [ch "0"] 0 false) with (0, false). cbn [bind].
  rewrite !(s_indexOf_wden _ _ _ (den_wden _ _ Hd) (den_max _ _ Hd)). cbn [bind negb andb].
  change (negb (index_of (ch "0") [ch "0"] =? -1)) with true. change (index_of (ch ".") [ch "0"] =? -1) with true. cbn match.
  rewrite wrap32_small by lia.
  assert (D1 : den (s_append s (chS (ch "."))) (alt_text 0 0)).
  { apply (s_append_den _ _ (txt "0") (txt ".")); [exact Hd|apply chS_den|]. cbn. rewrite int_max_val. lia. }
  destruct (0 <? P - 1) eqn:E; bools.
  - pose proof (append_zeros _ _ (P - 1) D1 ltac:(lia)) as Z. rewrite wrap32_small in Z by lia.
    destruct Z as (u & Eu & Du). { change (zlen (alt_text 0 0)) with 2. rewrite int_max_val. lia. }
    exists u. split; [exact Eu|]. rewrite alt_text_pad in Du by lia. exact Du.
  - replace P with 1 by lia. eexists. split; [reflexivity|exact D1].
Qed.
