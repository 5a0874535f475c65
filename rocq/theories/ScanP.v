(** Proofs for C97. *)
From Coq Require Import QArith.
From Verif Require Import Base Digits SeqM SeqSpec ContextM CompilerM GrammarSpec FormatterM MathM DecimalM BigDecM TraitsM ImplM
  FmtSpec DecSpec FloatSpec BigSpec DirSpec LoopSpec ExactSpec ScaleSpec ValueSpec WholeSpec CharSpec CharP ReadSpec ReadFSpec ReadP StarP ScanSpec.
Open Scope Z_scope.

(** ** Words among blanks *)

Lemma spaces_app a b : exists c, spaces a ++ spaces b = spaces c.
Proof.
  destruct (Z_le_gt_dec a 0) as [A|A]; [exists b; unfold spaces at 1; rewrite rep_nonpos by exact A; reflexivity|].
  destruct (Z_le_gt_dec b 0) as [B|B]; [exists a; unfold spaces at 2; rewrite rep_nonpos by exact B; apply app_nil_r|].
  exists (a + b). symmetry. apply rep_add; lia.
Qed.
Lemma field_more W t w a b : field W t w -> field W (spaces a ++ t ++ spaces b) w.
Proof.
  intros (N & F & c & d & ->). split; [exact N|]. split; [exact F|]. destruct (spaces_app a c) as [x X]. destruct (spaces_app d b) as [y Y].
  exists x, y. rewrite <- X, <- Y, <- !app_assoc. reflexivity.
Qed.
Lemma field_word W w : w <> [] -> forallb W w = true -> field W w w.
Proof. intros N F. split; [exact N|]. split; [exact F|]. exists 0, 0. cbn. rewrite app_nil_r. reflexivity. Qed.
Lemma field_justify W q t w : field W t w -> field W (justify q t) w.
Proof.
  intros H. unfold justify. destruct (q_left q).
  - pose proof (field_more W t w 0 (q_width q - zlen t) H) as G. exact G.
  - pose proof (field_more W t w (q_width q - zlen t) 0 H) as G. change (spaces 0) with (@nil Z) in G. rewrite app_nil_r in G. exact G.
Qed.
Lemma field_blank W t w : field W t w -> field W (32 :: t) w.
Proof. intros H. pose proof (field_more W t w 1 0 H) as G. change (spaces 0) with (@nil Z) in G. rewrite app_nil_r in G. exact G. Qed.
Lemma upper_spaces n : map ascii_upper (spaces n) = spaces n.
Proof. unfold spaces, rep. induction (Z.to_nat n) as [|k IH]; [reflexivity|]. cbn [repeat map]. rewrite IH. reflexivity. Qed.
Lemma field_upper W t w : (forall c, W c = true -> W (ascii_upper c) = true) -> field W t w -> field W (map ascii_upper t) (map ascii_upper w).
Proof.
  intros U (N & F & a & b & ->). split; [destruct w; [tauto|discriminate]|]. split.
  - rewrite forallb_forall in *. intros x Hx. apply in_map_iff in Hx as (c & <- & Hc). apply U, F, Hc.
  - exists a, b. rewrite !map_app, !upper_spaces. reflexivity.
Qed.

Section Fields.
  Variable W : Z -> bool.
  Hypothesis W_zero : W 48 = true.
  Hypothesis W_plus : W 43 = true.
  Hypothesis W_minus : W 45 = true.

  Lemma w_app a b : forallb W a = true -> forallb W b = true -> forallb W (a ++ b) = true.
  Proof. intros A B. rewrite forallb_app, A, B. reflexivity. Qed.
  Lemma w_zeros n : forallb W (zeros n) = true.
  Proof. apply forallb_forall. intros x Hx. apply in_rep in Hx. subst. exact W_zero. Qed.
  Lemma ne_r {A} (a b : list A) : b <> [] -> a ++ b <> []. Proof. destruct a, b; try discriminate; tauto. Qed.
  Lemma ne_l {A} (a b : list A) : a <> [] -> a ++ b <> []. Proof. destruct a; [tauto|discriminate]. Qed.

  Lemma field_pad0 q zp px body : forallb W px = true -> forallb W body = true -> body <> [] -> exists w, field W (pad_number q zp px body) w.
  Proof.
    intros A B N. unfold pad_number. destruct (zp && negb (q_left q)).
    - eexists. apply field_word; [apply ne_r, ne_r; exact N|]. apply w_app; [exact A|apply w_app; [apply w_zeros|exact B]].
    - eexists. apply field_justify, field_word; [apply ne_r; exact N|]. apply w_app; assumption.
  Qed.
  Lemma field_pad q zp neg px body : forallb W px = true -> forallb W body = true -> body <> [] ->
    exists w, field W (pad_number q zp (sign_text q neg ++ px) body) w.
  Proof.
    intros A B N. assert (S : sign_text q neg = [32] \/ forallb W (sign_text q neg) = true).
    { unfold sign_text. destruct neg; [right; cbn; rewrite W_minus; reflexivity|]. destruct (q_plus q); [right; cbn; rewrite W_plus; reflexivity|].
      destruct (q_space q); auto. }
    destruct S as [-> |S]; [|apply field_pad0; [apply w_app; assumption|exact B|exact N]].
    unfold pad_number. destruct (zp && negb (q_left q)); cbn [app].
    - eexists. apply field_blank, field_word; [apply ne_r, ne_r; exact N|]. apply w_app; [exact A|apply w_app; [apply w_zeros|exact B]].
    - eexists. apply field_justify. cbn [app]. apply field_blank, field_word; [apply ne_r; exact N|]. apply w_app; assumption.
  Qed.
  Lemma field_sign q zp neg body : forallb W body = true -> body <> [] -> exists w, field W (pad_number q zp (sign_text q neg) body) w.
  Proof. intros B N. rewrite <- (app_nil_r (sign_text q neg)). apply field_pad; [reflexivity|exact B|exact N]. Qed.

  (** integers in the bases of [good] *)
  Variable good : Z -> Prop.
  Hypothesis good_pos : forall b, good b -> 2 <= b.
  Hypothesis W_numeral : forall b n, good b -> 0 <= n -> forallb W (numeral b n) = true.

  Lemma numeral_ne b n : 2 <= b -> 0 <= n -> numeral b n <> [].
  Proof. intros Hb Hn E. pose proof (numeral_pos b n Hb Hn) as P. rewrite E in P. change (zlen (@nil Z)) with 0 in P. lia. Qed.
  Lemma w_min p ds : forallb W ds = true -> forallb W (min_digits p ds) = true.
  Proof. intros H. apply w_app; [apply w_zeros|exact H]. Qed.
  Lemma w_int b n p : good b -> 0 <= n -> p <> Some 0 -> forallb W (int_digits b n p) = true /\ int_digits b n p <> [].
  Proof.
    intros Hb Hn Hp. pose proof (numeral_ne b n (good_pos b Hb) Hn) as N. unfold int_digits. destruct p as [p|]; [|auto].
    destruct (Z.eqb_spec p 0) as [-> |]; [tauto|]. rewrite Bool.andb_false_r. split; [apply w_min; auto|apply ne_r; exact N].
  Qed.
  Lemma field_jd q z : good 10 -> q_prec q <> Some 0 -> exists w, field W (j_d q z) w.
  Proof.
    intros G Hp. unfold j_d. replace (d_irregular q z) with false.
    - destruct (w_int 10 (Z.abs z) (q_prec q) G ltac:(lia) Hp) as [A B]. apply field_sign; assumption.
    - unfold d_irregular. destruct (q_prec q) as [[| |]|]; try tauto; rewrite !Bool.andb_false_r; reflexivity.
  Qed.
  Lemma field_cu q n : good 10 -> 0 <= n -> q_prec q <> Some 0 -> exists w, field W (c_u q n) w.
  Proof. intros G Hn Hp. destruct (w_int 10 n (q_prec q) G Hn Hp) as [A B]. apply field_pad0; auto. Qed.
  Lemma field_jx q n : good 16 -> W 120 = true -> 0 <= n -> q_prec q <> Some 0 -> exists w, field W (j_x q n) w.
  Proof.
    intros G X Hn Hp. unfold j_x. destruct (x_irregular q n).
    - eexists. apply field_justify, field_word; [apply ne_r; discriminate|]. apply w_min. cbn. rewrite W_zero. reflexivity.
    - destruct (w_int 16 n (q_prec q) G Hn Hp) as [A B]. apply field_pad0; [|exact A|exact B].
      destruct (q_alt q && negb (n =? 0)); [|reflexivity]. cbn. rewrite W_zero, X. reflexivity.
  Qed.
  Lemma w_force ds : forallb W ds = true -> forallb W (force_zero ds) = true /\ force_zero ds <> [].
  Proof.
    intros H. assert (A : forallb W (48 :: ds) = true) by (cbn [forallb]; rewrite W_zero, H; reflexivity).
    unfold force_zero. destruct ds as [|c ds]; [split; [exact A|discriminate]|].
    repeat match goal with |- context [match ?x with _ => _ end] => destruct x; try (split; [exact A|discriminate]); try (split; [exact H|discriminate]) end.
  Qed.
  Lemma field_jo q n : good 8 -> 0 <= n -> q_prec q <> Some 0 -> exists w, field W (j_o q n) w.
  Proof.
    intros G Hn Hp. assert (Z0 : forallb W (txt "0") = true) by (cbn; rewrite W_zero; reflexivity). unfold j_o. destruct (o_irregular q n).
    - destruct (q_prec q) as [p|]; [destruct (Z.eqb_spec p 0) as [-> |]; [tauto|]|]; eexists; apply field_justify, field_word;
        (apply ne_r; discriminate) || (apply w_min; exact Z0).
    - destruct (w_int 8 n (q_prec q) G Hn Hp) as [A B]. unfold c_o. cbv zeta. destruct (q_alt q); [|apply field_pad0; auto].
      destruct (w_force _ A) as [A' B']. apply field_pad0; auto.
  Qed.
End Fields.

(** ** The characters of numbers *)

Definition wordb (c : Z) : bool := of_chars number_chars c.
Definition all_word (t : list Z) : bool := forallb wordb t.

Lemma word_app a b : all_word a = true -> all_word b = true -> all_word (a ++ b) = true.
Proof. unfold all_word. intros A B. rewrite forallb_app, A, B. reflexivity. Qed.
Lemma word_cons c b : wordb c = true -> all_word b = true -> all_word (c :: b) = true.
Proof. unfold all_word. intros A B. cbn [forallb]. rewrite A, B. reflexivity. Qed.
Lemma word_rep c n : wordb c = true -> all_word (rep c n) = true.
Proof. intros H. unfold all_word. apply forallb_forall. intros x Hx. apply in_rep in Hx. subst. exact H. Qed.
Lemma word_zeros n : all_word (zeros n) = true. Proof. apply word_rep. reflexivity. Qed.
Lemma word_digit d : 0 <= d < 16 -> wordb (digit_char d) = true.
Proof.
  intros H. assert (E : existsb (Z.eqb d) [0;1;2;3;4;5;6;7;8;9;10;11;12;13;14;15] = true).
  { apply existsb_exists. exists d. split; [|apply Z.eqb_refl]. cbn [In]. lia. }
  apply existsb_exists in E as (x & Hx & E). apply Z.eqb_eq in E. subst x. cbn [In] in Hx.
  repeat (destruct Hx as [<- |Hx]; [reflexivity|]). destruct Hx.
Qed.
Lemma word_digits b ds : 2 <= b <= 16 -> digits_ok b ds -> all_word (map digit_char ds) = true.
Proof.
  intros Hb H. unfold all_word. apply forallb_forall. intros x Hx. apply in_map_iff in Hx as (d & <- & Hd).
  unfold digits_ok in H. rewrite Forall_forall in H. apply H in Hd. apply word_digit. lia.
Qed.
Lemma word_numeral b n : 2 <= b <= 16 -> 0 <= n -> all_word (numeral b n) = true.
Proof. intros Hb Hn. apply (word_digits b); [exact Hb|]. apply digits_digits_ok; lia. Qed.
Lemma word_fraction p N : all_word (fraction p N) = true.
Proof. apply (word_digits 10); [lia|]. apply fixdigs_ok. lia. Qed.
Lemma word_hex_fraction p N : all_word (hex_fraction p N) = true.
Proof. apply (word_digits 16); [lia|]. apply fixdigs_ok. lia. Qed.
Lemma word_upper_char c : wordb c = true -> wordb (ascii_upper c) = true.
Proof.
  intros H. apply existsb_exists in H as (x & H & E). apply Z.eqb_eq in E. subst x.
  assert (A : forallb (fun c => wordb (ascii_upper c)) number_chars = true) by reflexivity.
  rewrite forallb_forall in A. exact (A c H).
Qed.
Lemma word_upper t : all_word t = true -> all_word (map ascii_upper t) = true.
Proof.
  unfold all_word. rewrite !forallb_forall. intros H x Hx. apply in_map_iff in Hx as (c & <- & Hc). apply word_upper_char, H, Hc.
Qed.
Lemma word_case s t : all_word t = true -> all_word (in_case s t) = true.
Proof. unfold in_case. destruct (is_upper s); [apply word_upper|auto]. Qed.
Lemma word_min p ds : all_word ds = true -> all_word (min_digits p ds) = true.
Proof. intros H. unfold min_digits. auto using word_app, word_zeros. Qed.
Lemma word_decimal N p : 0 <= N -> all_word (decimal_text N p) = true.
Proof.
  intros H. unfold decimal_text. apply word_app.
  - apply word_numeral; [lia|]. apply div_nonneg; [exact H|apply pow10_nonneg].
  - destruct (p =? 0); [reflexivity|]. apply word_cons; [reflexivity|apply word_fraction].
Qed.
Lemma word_alt N p : 0 <= N -> all_word (alt_text N p) = true.
Proof. intros H. unfold alt_text. apply word_app; [apply word_decimal; exact H|]. destruct (p =? 0); reflexivity. Qed.
Lemma word_alt_or (b : bool) N p : 0 <= N -> all_word (if b then alt_text N p else decimal_text N p) = true.
Proof. destruct b; auto using word_alt, word_decimal. Qed.
Lemma word_short N p : 0 <= N -> all_word (short_text N p) = true.
Proof.
  intros H. unfold short_text. pose proof (drop_zeros_nonneg (Z.to_nat p) N H) as A. destruct (drop_zeros _ _) as [M r]. apply word_decimal, A.
Qed.
Lemma word_exp x : all_word (exp_text x) = true.
Proof.
  unfold exp_text. apply word_cons; [reflexivity|]. apply word_cons; [destruct (x <? 0); reflexivity|]. apply word_min, word_numeral; lia.
Qed.
Lemma word_big_exp f P x : all_word (big_exp_text f P x) = true.
Proof. unfold big_exp_text. destruct (_ && _); [reflexivity|apply word_exp]. Qed.
Lemma word_g_text q S p : 0 <= S -> all_word (g_text q S p) = true.
Proof. unfold g_text. destruct (q_alt q); auto using word_alt, word_short. Qed.
Lemma word_hex_text M p : 0 <= M -> all_word (hex_text M p) = true.
Proof.
  intros H. unfold hex_text. apply word_app; [|apply word_cons; [reflexivity|apply word_hex_fraction]].
  apply word_numeral; [lia|]. apply div_nonneg; [exact H|apply Z.pow_nonneg; lia].
Qed.
Lemma word_bin_exp x : all_word (bin_exp_text x) = true.
Proof. unfold bin_exp_text. apply word_cons; [reflexivity|]. apply word_cons; [destruct (x <? 0); reflexivity|]. apply word_numeral; lia. Qed.

Lemma decimal_ne N p : 0 <= N -> decimal_text N p <> [].
Proof. intros H. apply ne_l, numeral_ne; [lia|]. apply div_nonneg; [exact H|apply pow10_nonneg]. Qed.
Lemma alt_ne N p : 0 <= N -> alt_text N p <> []. Proof. intros H. apply ne_l, decimal_ne, H. Qed.
Lemma alt_or_ne (b : bool) N p : 0 <= N -> (if b then alt_text N p else decimal_text N p) <> [].
Proof. destruct b; auto using alt_ne, decimal_ne. Qed.
Lemma short_ne N p : 0 <= N -> short_text N p <> [].
Proof.
  intros H. unfold short_text. pose proof (drop_zeros_nonneg (Z.to_nat p) N H) as A. destruct (drop_zeros _ _) as [M r]. apply decimal_ne, A.
Qed.
Lemma g_text_ne q S p : 0 <= S -> g_text q S p <> [].
Proof. unfold g_text. destruct (q_alt q); auto using alt_ne, short_ne. Qed.
Lemma hex_ne M p : hex_text M p <> []. Proof. apply ne_r. discriminate. Qed.

Lemma field_finite q neg t : all_word t = true -> t <> [] -> exists w, field wordb (finite_text q neg t) w.
Proof. apply field_sign; reflexivity. Qed.
Lemma field_case s t w : field wordb t w -> exists w', field wordb (in_case s t) w'.
Proof. intros H. unfold in_case. destruct (is_upper s); eexists; [apply field_upper; [exact word_upper_char|exact H]|exact H]. Qed.

Lemma field_cf q neg f e : 0 <= f -> exists w, field wordb (c_f q neg f e) w.
Proof. intros H. apply field_finite; unfold f_body; cbv zeta; [apply word_alt_or|apply alt_or_ne]; apply hup_nonneg, H. Qed.
Lemma field_ce q neg f e : 0 <= f -> exists w, field wordb (c_e q neg f e) w.
Proof.
  intros H. pose proof (sig0_nonneg f e (prec_or 6 q + 1) H) as A. apply field_finite; unfold e_body; cbv zeta; destruct (sig0 _ _ _) as [S X]; cbn [fst] in A.
  - apply word_app; [apply word_alt_or, A|apply word_exp].
  - apply ne_l, alt_or_ne, A.
Qed.
Lemma field_jg q neg f e : 0 <= f -> exists w, field wordb (j_g q neg f e) w.
Proof.
  intros H. unfold j_g. pose proof (sig0_nonneg f e (g_prec q) H) as A. destruct (g_irregular q f e).
  - assert (B : 0 <= fst (sig0 f e (g_prec q)) / 10 ^ (g_prec q - Z.min (ndigits f) (g_prec q))) by (apply div_nonneg; [exact A|apply pow10_nonneg]).
    apply field_finite; unfold g_unpadded; cbv zeta; destruct (sig0 _ _ _) as [S X]; cbn [fst] in A, B.
    + apply word_app; [|apply word_exp]. destruct (_ =? 1); [apply word_decimal, A|apply word_alt, B].
    + apply ne_l. destruct (_ =? 1); [apply decimal_ne, A|apply alt_ne, B].
  - apply field_finite; unfold g_body; cbv zeta; destruct (sig0 _ _ _) as [S X]; cbn [fst] in A; destruct (_ && _).
    + apply word_g_text, A.
    + apply word_app; [apply word_g_text, A|apply word_exp].
    + apply g_text_ne, A.
    + apply ne_l, g_text_ne, A.
Qed.
Lemma field_ja q neg b : 0 <= b -> exists w, field wordb (j_a q neg b) w.
Proof.
  intros H. unfold j_a. apply field_pad; try reflexivity; unfold a_body; destruct (q_prec q) as [p|].
  - cbv zeta. destruct (b =? 0); [apply word_app; [apply word_hex_text; lia|apply word_bin_exp]|].
    pose proof (hex_digits_nonneg b (Z.max 1 p) H) as A. destruct (hex_digits _ _) as [M x]. apply word_app; [apply word_hex_text, A|apply word_bin_exp].
  - pose proof (bin_nonneg b H) as A. destruct (bin_parts b) as [c x]. cbn [fst] in A. pose proof (drop_hex_nonneg 13 c A) as B.
    destruct (FloatSpec.drop_hex 13 c) as [M k]. apply word_app; [apply word_hex_text, B|apply word_bin_exp].
  - cbv zeta. destruct (b =? 0); [apply ne_l, hex_ne|]. destruct (hex_digits _ _) as [M x]. apply ne_l, hex_ne.
  - destruct (bin_parts b) as [c x]. destruct (FloatSpec.drop_hex 13 c) as [M k]. apply ne_l, hex_ne.
Qed.
Lemma field_jinf q neg : exists w, field wordb (j_inf q neg) w.
Proof. eexists. apply field_justify, field_word; [apply ne_r; discriminate|]. destruct neg; [reflexivity|]. destruct (q_plus q); reflexivity. Qed.
Lemma field_cnan q : exists w, field wordb (c_nan q) w.
Proof. eexists. apply field_justify, field_word; [discriminate|reflexivity]. Qed.
Lemma field_bf q u sc : exists w, field wordb (b_f q u sc) w.
Proof.
  unfold b_f. cbv zeta. apply field_finite.
  - apply word_app; [destruct (u =? 0); [apply word_zeros|reflexivity]|]. apply word_alt_or, hup_nonneg. lia.
  - apply ne_r, alt_or_ne, hup_nonneg. lia.
Qed.
Lemma field_be q neg f e : 0 <= f -> exists w, field wordb (b_e q neg f e) w.
Proof.
  intros H. pose proof (sig_nonneg f e (prec_or 6 q + 1) H) as A. unfold b_e. apply field_finite; unfold be_body; cbv zeta; destruct (f =? 0).
  - apply word_app; [apply word_alt_or; lia|apply word_exp].
  - destruct (sig _ _ _) as [S X]. apply word_app; [apply word_alt_or, A|apply word_big_exp].
  - apply ne_l, alt_or_ne. lia.
  - destruct (sig _ _ _) as [S X]. apply ne_l, alt_or_ne, A.
Qed.
Lemma field_bg q neg f e : 0 <= f -> exists w, field wordb (b_g q neg f e) w.
Proof.
  intros H. unfold b_g. assert (A : all_word (fst (bg_parts q f e)) = true /\ fst (bg_parts q f e) <> []).
  { unfold bg_parts. cbv zeta. destruct (bg_positional f e (g_prec q)).
    - assert (B : 0 <= fst (bg_fixed f e (g_prec q))).
      { unfold bg_fixed. cbv zeta. pose proof (hup_nonneg f (ndigits f - g_prec q) H). destruct (_ <=? _); cbn [fst].
        - pose proof (pow10_nonneg (Z.max 0 e)). nia.
        - destruct (_ && _); [destruct (_ =? 0)|]; cbn [fst]; [apply pow10_nonneg|apply pow10_nonneg|assumption]. }
      destruct (bg_fixed _ _ _) as [N j]. cbn [fst] in B. destruct (q_alt q); cbn [fst]; [|split; [apply word_short, B|apply short_ne, B]].
      pose proof (pow10_nonneg (Z.max 0 (g_prec q - ndigits N))). split; [apply word_alt|apply alt_ne]; nia.
    - assert (B : 0 <= fst (bg_sci f e (g_prec q))).
      { unfold bg_sci. destruct (f =? 0); [cbn; lia|]. pose proof (sig_nonneg f e (g_prec q) H) as A. destruct (sig _ _ _) as [S X]. cbn [fst] in *.
        apply div_nonneg; [exact A|apply pow10_nonneg]. }
      destruct (bg_sci _ _ _) as [D X]. cbn [fst] in *. split.
      + apply word_app; [destruct (q_alt q); [apply word_decimal, B|apply word_short, B]|]. destruct (f =? 0); [apply word_exp|apply word_big_exp].
      + apply ne_l. destruct (q_alt q); [apply decimal_ne, B|apply short_ne, B]. }
  destruct (bg_parts q f e) as [t n]. apply field_finite; apply A.
Qed.

Lemma digit_numeral b n : 2 <= b <= 10 -> 0 <= n -> forallb (of_chars digit_chars) (numeral b n) = true.
Proof.
  intros Hb Hn. apply forallb_forall. intros x Hx. apply in_map_iff in Hx as (d & <- & Hd).
  assert (H : digits_ok b (digits b n)) by (apply digits_digits_ok; lia). unfold digits_ok in H. rewrite Forall_forall in H. apply H in Hd.
  assert (E : existsb (Z.eqb d) [0;1;2;3;4;5;6;7;8;9] = true).
  { apply existsb_exists. exists d. split; [|apply Z.eqb_refl]. cbn [In]. lia. }
  apply existsb_exists in E as (y & Hy & E). apply Z.eqb_eq in E. subst y. cbn [In] in Hy.
  repeat (destruct Hy as [<- |Hy]; [reflexivity|]). destruct Hy.
Qed.

(** what a number conversion shows is one word *)
Lemma shown_field J s pat q x t : shown J s pat q x (Ok t) -> integer_conv s || float_spec s = true -> (integer_conv s = true -> q_prec q <> Some 0) ->
  exists w, field wordb t w.
Proof.
  intros H Hs Hp.
  assert (I10 : forall b n, 2 <= b <= 16 -> 0 <= n -> forallb wordb (numeral b n) = true) by exact word_numeral.
  assert (GP : forall b, 2 <= b <= 16 -> 2 <= b) by (intros; lia).
  remember (Ok t) as o eqn:Eo. revert Hs Hp. destruct H; try discriminate Eo; injection Eo as <-; intros Hs Hp;
    try (subst s; discriminate Hs); try (destruct s; discriminate).
  - subst s. apply (field_jd wordb eq_refl eq_refl eq_refl (fun b => 2 <= b <= 16) GP I10); [lia|apply Hp; reflexivity].
  - subst s. pose proof (unsigned_nonneg _ _ _ H0). apply (field_cu wordb eq_refl (fun b => 2 <= b <= 16) GP I10); [lia|assumption|apply Hp; reflexivity].
  - pose proof (unsigned_nonneg _ _ _ H0). assert (P : q_prec q <> Some 0) by (apply Hp; destruct H as [-> | ->]; reflexivity).
    destruct (field_jx wordb eq_refl (fun b => 2 <= b <= 16) GP I10 q n) as [w Hw]; [lia|reflexivity|assumption|exact P|]. apply (field_case s _ w Hw).
  - subst s. pose proof (unsigned_nonneg _ _ _ H0). apply (field_jo wordb eq_refl (fun b => 2 <= b <= 16) GP I10); [lia|assumption|apply Hp; reflexivity].
  - destruct (field_cf q (b <? 0) f e (its_digits_nonneg _ _ _ H1)) as [w Hw]. apply (field_case s _ w Hw).
  - destruct (field_ce q (b <? 0) f e (its_digits_nonneg _ _ _ H1)) as [w Hw]. apply (field_case s _ w Hw).
  - destruct (field_jg q (b <? 0) f e (its_digits_nonneg _ _ _ H1)) as [w Hw]. apply (field_case s _ w Hw).
  - destruct (field_ja q (b <? 0) (magnitude b) (magnitude_nonneg b)) as [w Hw]. apply (field_case s _ w Hw).
  - destruct (field_jinf q (b <? 0)) as [w Hw]. apply (field_case s _ w Hw).
  - destruct (field_cnan q) as [w Hw]. apply (field_case s _ w Hw).
  - destruct (field_bf q u sc) as [w Hw]. apply (field_case s _ w Hw).
  - destruct (field_be q (u <? 0) (Z.abs u) (- sc) ltac:(lia)) as [w Hw]. apply (field_case s _ w Hw).
  - destruct (field_bg q (u <? 0) (Z.abs u) (- sc) ltac:(lia)) as [w Hw]. apply (field_case s _ w Hw).
Qed.

Lemma shown_digits J s pat q x t : shown J s pat q x (Ok t) -> s = Sd \/ s = Su \/ s = So -> q_prec q <> Some 0 -> exists w, field (of_chars digit_chars) t w.
Proof.
  intros H Hs Hp. assert (GP : forall b, 2 <= b <= 10 -> 2 <= b) by (intros; lia).
  remember (Ok t) as o eqn:Eo. destruct H; try discriminate Eo; injection Eo as <-; try (exfalso; destruct Hs as [-> |[-> | ->]]; discriminate);
    try (exfalso; subst s; destruct Hs as [Hs|[Hs|Hs]]; discriminate Hs).
  - apply (field_jd _ eq_refl eq_refl eq_refl (fun b => 2 <= b <= 10) GP digit_numeral); [lia|exact Hp].
  - pose proof (unsigned_nonneg _ _ _ H0). apply (field_cu _ eq_refl (fun b => 2 <= b <= 10) GP digit_numeral); [lia|assumption|exact Hp].
  - exfalso. destruct Hs as [-> |[-> | ->]], H; discriminate.
  - pose proof (unsigned_nonneg _ _ _ H0). apply (field_jo _ eq_refl (fun b => 2 <= b <= 10) GP digit_numeral); [lia|assumption|exact Hp].
Qed.
