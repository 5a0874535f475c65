(** Proofs for C75 and C76. *)
From Coq Require Import QArith.
From Verif Require Import Base Digits SeqM SeqSpec ContextM CompilerM GrammarSpec FormatterM MathM DecimalM BigDecM TraitsM ImplM
  FmtSpec DecSpec FloatSpec BigSpec DirSpec LoopSpec ExactSpec ScaleSpec ValueSpec WholeSpec CharSpec.
Open Scope Z_scope.

(** ** The library's own characters *)

Definition ownb (c : Z) : bool := existsb (Z.eqb c) own.
Definition all_own (t : list Z) : bool := forallb ownb t.

Lemma ownb_in c : ownb c = true <-> In c own.
Proof.
  unfold ownb. rewrite existsb_exists. split.
  - intros (x & H & E). apply Z.eqb_eq in E. congruence.
  - intros H. exists c. split; [exact H|apply Z.eqb_refl].
Qed.

Lemma own_app a b : all_own a = true -> all_own b = true -> all_own (a ++ b) = true.
Proof. unfold all_own. intros A B. rewrite forallb_app, A, B. reflexivity. Qed.
Lemma own_cons c b : ownb c = true -> all_own b = true -> all_own (c :: b) = true.
Proof. unfold all_own. intros A B. cbn [forallb]. rewrite A, B. reflexivity. Qed.
Lemma own_nil : all_own [] = true. Proof. reflexivity. Qed.

Lemma own_rep c n : ownb c = true -> all_own (rep c n) = true.
Proof. intros H. unfold all_own. apply forallb_forall. intros x Hx. apply in_rep in Hx. subst. exact H. Qed.
Lemma own_spaces n : all_own (spaces n) = true. Proof. apply own_rep. reflexivity. Qed.
Lemma own_zeros n : all_own (zeros n) = true. Proof. apply own_rep. reflexivity. Qed.

Lemma own_digit d : 0 <= d < 16 -> ownb (digit_char d) = true.
Proof.
  intros H. assert (E : existsb (Z.eqb d) [0;1;2;3;4;5;6;7;8;9;10;11;12;13;14;15] = true).
  { apply existsb_exists. exists d. split; [|apply Z.eqb_refl]. cbn [In]. lia. }
  apply existsb_exists in E as (x & Hx & E). apply Z.eqb_eq in E. subst x. cbn [In] in Hx.
  repeat (destruct Hx as [<- |Hx]; [reflexivity|]). destruct Hx.
Qed.

Lemma own_digits b ds : 2 <= b <= 16 -> digits_ok b ds -> all_own (map digit_char ds) = true.
Proof.
  intros Hb H. unfold all_own. apply forallb_forall. intros x Hx. apply in_map_iff in Hx as (d & <- & Hd).
  unfold digits_ok in H. rewrite Forall_forall in H. apply H in Hd. apply own_digit. lia.
Qed.
Lemma own_numeral b n : 2 <= b <= 16 -> 0 <= n -> all_own (numeral b n) = true.
Proof. intros Hb Hn. apply (own_digits b); [exact Hb|]. apply digits_digits_ok; lia. Qed.
Lemma own_fraction p N : all_own (fraction p N) = true.
Proof. apply (own_digits 10); [lia|]. apply fixdigs_ok. lia. Qed.
Lemma own_hex_fraction p N : all_own (hex_fraction p N) = true.
Proof. apply (own_digits 16); [lia|]. apply fixdigs_ok. lia. Qed.

Lemma own_upper_char c : ownb c = true -> ownb (ascii_upper c) = true.
Proof.
  intros H. apply ownb_in in H. assert (A : forallb (fun c => ownb (ascii_upper c)) own = true) by reflexivity.
  rewrite forallb_forall in A. exact (A c H).
Qed.
Lemma own_upper t : all_own t = true -> all_own (map ascii_upper t) = true.
Proof.
  unfold all_own. rewrite !forallb_forall. intros H x Hx. apply in_map_iff in Hx as (c & <- & Hc). apply own_upper_char, H, Hc.
Qed.
Lemma own_case s t : all_own t = true -> all_own (in_case s t) = true.
Proof. unfold in_case. destruct (is_upper s); [apply own_upper|auto]. Qed.
Lemma own_firstn n t : all_own t = true -> all_own (firstn n t) = true.
Proof.
  intros H. unfold all_own in *. rewrite <- (firstn_skipn n t), forallb_app in H. apply andb_prop in H. tauto.
Qed.

Lemma own_justify q t : all_own t = true -> all_own (justify q t) = true.
Proof. intros H. unfold justify. destruct (q_left q); apply own_app; auto using own_spaces. Qed.
Lemma own_sign q neg : all_own (sign_text q neg) = true.
Proof. unfold sign_text. destruct neg; [reflexivity|]. destruct (q_plus q); [reflexivity|]. destruct (q_space q); reflexivity. Qed.
Lemma own_pad q zp a b : all_own a = true -> all_own b = true -> all_own (pad_number q zp a b) = true.
Proof.
  intros A B. unfold pad_number. destruct (zp && negb (q_left q)); auto using own_app, own_justify, own_zeros.
Qed.
Lemma own_min p ds : all_own ds = true -> all_own (min_digits p ds) = true.
Proof. intros H. unfold min_digits. auto using own_app, own_zeros. Qed.
Lemma own_int b n p : 2 <= b <= 16 -> 0 <= n -> all_own (int_digits b n p) = true.
Proof.
  intros Hb Hn. unfold int_digits. destruct p as [p|]; [|apply own_numeral; assumption].
  destruct ((n =? 0) && (p =? 0)); [reflexivity|]. apply own_min, own_numeral; assumption.
Qed.

Lemma own_jd q z : all_own (j_d q z) = true.
Proof.
  unfold j_d. destruct (d_irregular q z); [apply own_justify; reflexivity|]. unfold c_d. apply own_pad; [apply own_sign|apply own_int; lia].
Qed.
Lemma own_cu q n : 0 <= n -> all_own (c_u q n) = true.
Proof. intros H. unfold c_u. apply own_pad; [reflexivity|apply own_int; lia]. Qed.
Lemma own_jx q n : 0 <= n -> all_own (j_x q n) = true.
Proof.
  intros H. unfold j_x. destruct (x_irregular q n); [apply own_justify, own_min; reflexivity|]. unfold c_x.
  apply own_pad; [destruct (q_alt q && negb (n =? 0)); reflexivity|apply own_int; lia].
Qed.
Lemma own_force ds : all_own ds = true -> all_own (force_zero ds) = true.
Proof.
  intros H. assert (A : all_own (48 :: ds) = true) by (apply own_cons; [reflexivity|exact H]).
  unfold force_zero. destruct ds as [|c ds]; [reflexivity|].
  repeat match goal with |- context [match ?x with _ => _ end] => destruct x; try exact A; try exact H end.
Qed.
Lemma own_jo q n : 0 <= n -> all_own (j_o q n) = true.
Proof.
  intros H. unfold j_o. destruct (o_irregular q n).
  - apply own_justify. destruct (q_prec q) as [p|]; [destruct (p =? 0); [reflexivity|]|]; apply own_min; reflexivity.
  - unfold c_o. apply own_pad; [reflexivity|]. destruct (q_alt q); [apply own_force|]; apply own_int; lia.
Qed.

(** ** Floating point *)

Lemma div_nonneg a b : 0 <= a -> 0 <= b -> 0 <= a / b.
Proof. intros A B. destruct (Z.eq_dec b 0) as [->|]; [rewrite Zdiv_0_r; lia|]. apply Z.div_pos; lia. Qed.
Lemma pow10_nonneg p : 0 <= 10 ^ p. Proof. apply Z.pow_nonneg. lia. Qed.
Lemma hup_nonneg f k : 0 <= f -> 0 <= hup f k.
Proof.
  intros H. unfold hup. pose proof (pow10_nonneg k). pose proof (pow10_nonneg (- k)). destruct (k <=? 0); [nia|].
  apply div_nonneg; [|assumption]. assert (0 <= 10 ^ k / 2) by (apply div_nonneg; lia). lia.
Qed.
Lemma sig_nonneg f e P : 0 <= f -> 0 <= fst (sig f e P).
Proof.
  intros H. unfold sig. cbv zeta. destruct (_ =? _); cbn [fst]; [apply pow10_nonneg|apply hup_nonneg; exact H].
Qed.
Lemma sig0_nonneg f e P : 0 <= f -> 0 <= fst (sig0 f e P).
Proof. intros H. unfold sig0. destruct (f =? 0); [cbn; lia|apply sig_nonneg; exact H]. Qed.

Lemma own_decimal N p : 0 <= N -> all_own (decimal_text N p) = true.
Proof.
  intros H. unfold decimal_text. apply own_app.
  - apply own_numeral; [lia|]. apply div_nonneg; [exact H|apply pow10_nonneg].
  - destruct (p =? 0); [reflexivity|]. apply own_cons; [reflexivity|apply own_fraction].
Qed.
Lemma own_alt N p : 0 <= N -> all_own (alt_text N p) = true.
Proof. intros H. unfold alt_text. apply own_app; [apply own_decimal; exact H|]. destruct (p =? 0); reflexivity. Qed.
Lemma own_alt_or (b : bool) N p : 0 <= N -> all_own (if b then alt_text N p else decimal_text N p) = true.
Proof. destruct b; auto using own_alt, own_decimal. Qed.
Lemma drop_zeros_nonneg p : forall N, 0 <= N -> 0 <= fst (drop_zeros p N).
Proof.
  induction p as [|p IH]; intros N H; cbn [drop_zeros]; [exact H|]. destruct (N mod 10 =? 0); [|exact H]. apply IH. apply Z.div_pos; lia.
Qed.
Lemma own_short N p : 0 <= N -> all_own (short_text N p) = true.
Proof.
  intros H. unfold short_text. pose proof (drop_zeros_nonneg (Z.to_nat p) N H) as A. destruct (drop_zeros _ _) as [M r]. apply own_decimal, A.
Qed.
Lemma own_exp x : all_own (exp_text x) = true.
Proof.
  unfold exp_text. apply own_cons; [reflexivity|]. apply own_cons; [destruct (x <? 0); reflexivity|]. apply own_min, own_numeral; lia.
Qed.
Lemma own_big_exp f P x : all_own (big_exp_text f P x) = true.
Proof. unfold big_exp_text. destruct (_ && _); [reflexivity|apply own_exp]. Qed.
Lemma own_finite q neg t : all_own t = true -> all_own (finite_text q neg t) = true.
Proof. intros H. unfold finite_text. apply own_pad; [apply own_sign|exact H]. Qed.

Lemma own_cf q neg f e : 0 <= f -> all_own (c_f q neg f e) = true.
Proof. intros H. apply own_finite. unfold f_body. cbv zeta. apply own_alt_or, hup_nonneg, H. Qed.
Lemma own_ce q neg f e : 0 <= f -> all_own (c_e q neg f e) = true.
Proof.
  intros H. apply own_finite. unfold e_body. cbv zeta. pose proof (sig0_nonneg f e (prec_or 6 q + 1) H) as A.
  destruct (sig0 _ _ _) as [S X]. apply own_app; [apply own_alt_or, A|apply own_exp].
Qed.
Lemma own_g_text q S p : 0 <= S -> all_own (g_text q S p) = true.
Proof. unfold g_text. destruct (q_alt q); auto using own_alt, own_short. Qed.
Lemma own_jg q neg f e : 0 <= f -> all_own (j_g q neg f e) = true.
Proof.
  intros H. unfold j_g. pose proof (sig0_nonneg f e (g_prec q) H) as A. destruct (g_irregular q f e).
  - apply own_finite. unfold g_unpadded. cbv zeta. destruct (sig0 _ _ _) as [S X]. cbn [fst] in A.
    apply own_app; [|apply own_exp]. destruct (_ =? 1); [apply own_decimal, A|]. apply own_alt, div_nonneg; [exact A|apply pow10_nonneg].
  - apply own_finite. unfold g_body. cbv zeta. destruct (sig0 _ _ _) as [S X]. cbn [fst] in A.
    destruct (_ && _); [apply own_g_text, A|]. apply own_app; [apply own_g_text, A|apply own_exp].
Qed.

Lemma own_hex_text M p : 0 <= M -> all_own (hex_text M p) = true.
Proof.
  intros H. unfold hex_text. apply own_app; [|apply own_cons; [reflexivity|apply own_hex_fraction]].
  apply own_numeral; [lia|]. apply div_nonneg; [exact H|apply Z.pow_nonneg; lia].
Qed.
Lemma own_bin_exp x : all_own (bin_exp_text x) = true.
Proof. unfold bin_exp_text. apply own_cons; [reflexivity|]. apply own_cons; [destruct (x <? 0); reflexivity|]. apply own_numeral; lia. Qed.
Lemma drop_hex_nonneg p : forall M, 0 <= M -> 0 <= fst (drop_hex p M).
Proof.
  induction p as [|p IH]; intros M H; [exact H|]. cbn [drop_hex]. destruct p as [|p]; [exact H|].
  destruct (M mod 16 =? 0); [|exact H]. apply IH. apply Z.div_pos; lia.
Qed.
Lemma bin_nonneg b : 0 <= b -> 0 <= fst (bin_parts b).
Proof. intros H. unfold bin_parts. destruct (_ =? 0); cbn [fst]; [exact H|]. pose proof (Z.mod_pos_bound b (2 ^ 52) ltac:(lia)). lia. Qed.
Lemma near_even_nonneg n d : 0 <= n -> 0 <= d -> 0 <= near_even n d.
Proof.
  intros N D. unfold near_even. cbv zeta. pose proof (div_nonneg n d N D). repeat match goal with |- context [if ?x then _ else _] => destruct x end; lia.
Qed.
Lemma hex_digits_nonneg b P : 0 <= b -> 0 <= fst (hex_digits b P).
Proof.
  intros H. unfold hex_digits. pose proof (bin_nonneg b H) as A. destruct (bin_parts b) as [c x]. cbn [fst] in A.
  destruct (_ || _); cbn [fst].
  - assert (0 <= 16 ^ (P - 13)) by (apply Z.pow_nonneg; lia). nia.
  - cbv zeta. destruct (_ =? _); cbn [fst]; [apply Z.pow_nonneg; lia|]. apply near_even_nonneg; [|apply Z.pow_nonneg; lia].
    assert (0 <= 16 ^ P) by (apply Z.pow_nonneg; lia). nia.
Qed.
Lemma own_ja q neg b : 0 <= b -> all_own (j_a q neg b) = true.
Proof.
  intros H. unfold j_a. apply own_pad; [apply own_app; [apply own_sign|reflexivity]|]. unfold a_body. destruct (q_prec q) as [p|].
  - cbv zeta. destruct (b =? 0); [apply own_app; [apply own_hex_text; lia|apply own_bin_exp]|].
    pose proof (hex_digits_nonneg b (Z.max 1 p) H) as A. destruct (hex_digits _ _) as [M x]. apply own_app; [apply own_hex_text, A|apply own_bin_exp].
  - pose proof (bin_nonneg b H) as A. destruct (bin_parts b) as [c x]. cbn [fst] in A. pose proof (drop_hex_nonneg 13 c A) as B.
    destruct (drop_hex 13 c) as [M k]. apply own_app; [apply own_hex_text, B|apply own_bin_exp].
Qed.
Lemma own_jinf q neg : all_own (j_inf q neg) = true.
Proof. apply own_justify. destruct neg; [reflexivity|]. destruct (q_plus q); reflexivity. Qed.
Lemma own_cnan q : all_own (c_nan q) = true.
Proof. apply own_justify. reflexivity. Qed.

Lemma own_bf q u sc : all_own (b_f q u sc) = true.
Proof.
  unfold b_f. cbv zeta. apply own_finite, own_app; [destruct (u =? 0); [apply own_zeros|reflexivity]|]. apply own_alt_or, hup_nonneg. lia.
Qed.
Lemma own_be q neg f e : 0 <= f -> all_own (b_e q neg f e) = true.
Proof.
  intros H. unfold b_e. apply own_finite. unfold be_body. cbv zeta. destruct (f =? 0).
  - apply own_app; [apply own_alt_or; lia|apply own_exp].
  - pose proof (sig_nonneg f e (prec_or 6 q + 1) H) as A. destruct (sig _ _ _) as [S X]. apply own_app; [apply own_alt_or, A|apply own_big_exp].
Qed.
Lemma own_bg q neg f e : 0 <= f -> all_own (b_g q neg f e) = true.
Proof.
  intros H. unfold b_g. assert (A : all_own (fst (bg_parts q f e)) = true).
  { unfold bg_parts. cbv zeta. destruct (bg_positional f e (g_prec q)).
    - assert (B : 0 <= fst (bg_fixed f e (g_prec q))).
      { unfold bg_fixed. cbv zeta. pose proof (hup_nonneg f (ndigits f - g_prec q) H). destruct (_ <=? _); cbn [fst].
        - pose proof (pow10_nonneg (Z.max 0 e)). nia.
        - destruct (_ && _); [destruct (_ =? 0)|]; cbn [fst]; [apply pow10_nonneg|apply pow10_nonneg|assumption]. }
      destruct (bg_fixed _ _ _) as [N j]. cbn [fst] in B. destruct (q_alt q); cbn [fst]; [|apply own_short, B].
      apply own_alt. pose proof (pow10_nonneg (Z.max 0 (g_prec q - ndigits N))). nia.
    - assert (B : 0 <= fst (bg_sci f e (g_prec q))).
      { unfold bg_sci. destruct (f =? 0); [cbn; lia|]. pose proof (sig_nonneg f e (g_prec q) H) as A. destruct (sig _ _ _) as [S X]. cbn [fst] in *.
        apply div_nonneg; [exact A|apply pow10_nonneg]. }
      destruct (bg_sci _ _ _) as [D X]. cbn [fst] in *. apply own_app.
      + destruct (q_alt q); [apply own_decimal, B|apply own_short, B].
      + destruct (f =? 0); [apply own_exp|apply own_big_exp]. }
  destruct (bg_parts q f e) as [t n]. apply own_finite, A.
Qed.

Lemma unsigned_nonneg J v n : is_unsigned J v n -> 0 <= n.
Proof.
  intros (w & z & H & E). destruct H; try (subst n; apply Z.mod_pos_bound; reflexivity); destruct E as [A ->]; exact A.
Qed.
Lemma its_digits_nonneg b f e : its_digits b f e -> 0 <= f.
Proof. intros [(_ & -> & _)|(_ & (H & _) & _)]; lia. Qed.
Lemma magnitude_nonneg b : 0 <= magnitude b.
Proof. unfold magnitude. apply Z.mod_pos_bound. reflexivity. Qed.

(** ** Where characters come from *)

Lemma all_own_in t c : all_own t = true -> In c t -> In c own.
Proof. intros H Hc. unfold all_own in H. rewrite forallb_forall in H. apply ownb_in, H, Hc. Qed.

Lemma in_case_in s t c : In c (in_case s t) <-> exists d, In d t /\ c = (if is_upper s then ascii_upper d else d).
Proof.
  unfold in_case. destruct (is_upper s); [rewrite in_map_iff; firstorder congruence|]. split; [intros H; exists c; auto|intros (d & H & ->); exact H].
Qed.
Lemma space_case s : (if is_upper s then ascii_upper 32 else 32) = 32.
Proof. destruct (is_upper s); reflexivity. Qed.
Lemma in_justify q t c : In c (justify q t) -> c = 32 \/ In c t.
Proof.
  unfold justify, spaces. destruct (q_left q); intros H; apply in_app_or in H as [H|H]; auto; apply in_rep in H; left; exact H.
Qed.
Lemma in_firstn {A} n (t : list A) c : In c (firstn n t) -> In c t.
Proof. intros H. rewrite <- (firstn_skipn n t). apply in_or_app. auto. Qed.
Lemma space_own : In 32 own. Proof. apply ownb_in. reflexivity. Qed.

Lemma in_case_justify s q t c : In c (in_case s (justify q t)) -> In c own \/ In c (in_case s t).
Proof.
  intros H. apply in_case_in in H as (d & H & ->). apply in_justify in H as [-> |H].
  - left. rewrite space_case. exact space_own.
  - right. apply in_case_in. exists d. auto.
Qed.
Lemma in_case_firstn s n t c : In c (in_case s (firstn n t)) -> In c (in_case s t).
Proof. intros H. apply in_case_in in H as (d & H & ->). apply in_case_in. exists d. split; [exact (in_firstn _ _ _ H)|reflexivity]. Qed.
Lemma in_case_cs s q t c : In c (in_case s (c_s q t)) -> In c own \/ In c (in_case s t).
Proof.
  unfold c_s. intros H. apply in_case_justify in H as [H|H]; [auto|]. right. destruct (q_prec q); [exact (in_case_firstn _ _ _ _ H)|exact H].
Qed.
Lemma in_case_seq s q t ts c : In c (in_case s (seq_text q t ts)) -> In c own \/ In c (in_case s t).
Proof.
  unfold seq_text. destruct (q_prec q) as [p|]; [destruct (p <? zlen t)|]; intros H; apply in_case_justify in H as [H|H]; auto.
  right. exact (in_case_firstn _ _ _ _ H).
Qed.

(** what a conversion shows *)
Lemma shown_from J s k q x t ds : shown J s (c_dtf k) q x (Ok t) -> In (Default s k) ds ->
  forall c, In c t -> In c own \/ of_argument J ds x c \/ s = Spct /\ c = 37.
Proof.
  intros H Hd c Hc. remember (Ok t) as o eqn:E. destruct H; try discriminate E; injection E as <-;
    try solve [left; revert Hc; apply all_own_in; try apply own_case; try (apply own_justify; reflexivity);
      eauto using own_jd, own_cu, own_jx, own_jo, own_cf, own_ce, own_jg, own_ja, own_jinf, own_cnan, own_bf, own_be, own_bg, own_justify,
        unsigned_nonneg, its_digits_nonneg, magnitude_nonneg, Z.abs_nonneg].
  - (* %c *) subst s. apply in_justify in Hc as [-> |[<- |[]]]; [left; exact space_own|]. right. left. exact (oa_char J ds k v _ r Hd H0).
  - apply in_case_cs in Hc as [Hc|Hc]; [auto|]. right. left. exact (oa_text J ds s k v t0 c r Hd H H1 Hc).
  - apply in_case_seq in Hc as [Hc|Hc]; [auto|]. right. left. exact (oa_seq J ds s k u t0 c r Hd H H0 Hc).
  - apply in_case_justify in Hc as [Hc|Hc]; [auto|]. right. left. exact (oa_date J ds s k v t0 d c r Hd H H0 H1 Hc).
  - subst s. apply in_justify in Hc as [-> |Hc]; [left; exact space_own|]. unfold pointer_text in Hc. apply in_app_or in Hc as [Hc|Hc].
    + right. left. exact (oa_class J ds k v name hash c Hd Hc).
    + left. revert Hc. apply all_own_in. apply own_app; [reflexivity|]. apply own_numeral; [lia|]. apply Z.mod_pos_bound. reflexivity.
  - left. apply in_case_cs in Hc as [Hc|Hc]; [exact Hc|]. revert Hc. apply all_own_in, own_case. reflexivity.
  - right. right. destruct Hc as [<- |[]]. split; [assumption|reflexivity].
Qed.

(** the arguments left over are among those given *)
Lemma taken_incl J args w rest : taken J args (Ok (w, rest)) -> incl rest args.
Proof. intros H. inversion H; subst. intros y Hy. right. exact Hy. Qed.
Lemma width_incl J l w args l' w' a1 : width_is J l w args (Ok (l', w', a1)) -> incl a1 args.
Proof.
  intros H. remember (Ok (l', w', a1)) as o eqn:E. destruct H; try discriminate E; injection E as _ _ <-; try apply incl_refl; eauto using taken_incl.
Qed.
Lemma prec_incl J p args p' a1 : prec_is J p args (Ok (p', a1)) -> incl a1 args.
Proof.
  intros H. remember (Ok (p', a1)) as o eqn:E. destruct H; try discriminate E; injection E as _ <-; try apply incl_refl; eauto using taken_incl.
Qed.

Definition from (J : jdk) (ds : list appender) (args : list traits) (c : Z) : Prop :=
  (exists t, In (Fixed t) ds /\ In c t) \/ (exists k, In (Default Spct k) ds /\ c = 37) \/ In c own \/ exists x, In x args /\ of_argument J ds x c.

Lemma piece_from J d args t rest ds : piece J d args (Ok (t, rest)) -> In d ds -> incl rest args /\ forall c, In c t -> from J ds args c.
Proof.
  intros H Hd. remember (Ok (t, rest)) as o eqn:E. destruct H as [u a| | | | |s fl w p d a l w' a1 p' x rest' u Hw Hp Hs]; try discriminate E; injection E as <- <-.
  - split; [apply incl_refl|]. intros c Hc. left. exists u. auto.
  - pose proof (width_incl _ _ _ _ _ _ _ Hw) as I1. pose proof (prec_incl _ _ _ _ _ Hp) as I2. split.
    + intros y Hy. apply I1, I2. right. exact Hy.
    + intros c Hc. destruct (shown_from J s (mkCtx fl w p d) _ x u ds Hs Hd c Hc) as [A|[A|[A ->]]].
      * right. right. left. exact A.
      * right. right. right. exists x. split; [apply I1, I2; left; reflexivity|exact A].
      * right. left. subst s. eexists. split; [exact Hd|reflexivity].
Qed.
Lemma from_incl J ds args args' c : incl args args' -> from J ds args c -> from J ds args' c.
Proof. intros I0 [A|[A|[A|(x & A & B)]]]; [left|right; left|right; right; left|right; right; right; exists x]; auto. Qed.

Lemma says_from J ds0 ds args t o : says J ds args t o -> incl ds ds0 -> forall c, In c t -> from J ds0 args c.
Proof.
  induction 1 as [args|d ds args t rest u o P S IH|d ds args e P]; intros I0 c Hc; [destruct Hc| |destruct Hc].
  destruct (piece_from J d args t rest ds0 P (I0 d (or_introl eq_refl))) as [I1 A]. apply in_app_or in Hc as [Hc|Hc]; [exact (A c Hc)|].
  apply (from_incl J ds0 rest args c I1). apply IH; [|exact Hc]. intros y Hy. apply I0. right. exact Hy.
Qed.

(** literal pieces and directives are parts of the format string *)
Lemma format_parts dtf src ds : GrammarSpec.format dtf src ds ->
  (forall t, In (Fixed t) ds -> incl t src) /\ (forall s k, In (Default s k) ds -> In 37 src).
Proof.
  induction 1 as [|t r ds Ht Hp Hr F IH|r ds F IH|FL fl W w P p c s T d r ds Hf Hw Hp Hc Hd Hn F IH].
  - split; intros; contradiction.
  - destruct IH as [A B]. split.
    + intros u [E|Hu]; [injection E as <-; intros y Hy; apply in_or_app; auto|]. intros y Hy. apply in_or_app. right. exact (A u Hu y Hy).
    + intros s k [E|Hk]; [discriminate E|]. apply in_or_app. right. exact (B s k Hk).
  - destruct IH as [A B]. split.
    + intros u [E|Hu]; [injection E as <-; intros y Hy; left; destruct Hy as [<- |[]]; reflexivity|]. intros y Hy. right. right. exact (A u Hu y Hy).
    + intros s k _. left. reflexivity.
  - destruct IH as [A B]. split.
    + intros u [E|Hu]; [discriminate E|]. intros y Hy. right. repeat (apply in_or_app; right). right. apply in_or_app. right. exact (A u Hu y Hy).
    + intros s' k _. left. reflexivity.
Qed.

(** ** UTF-16 *)

Lemma utf16_app a b : utf16 a -> utf16 b -> utf16 (a ++ b).
Proof. induction 1; intros B; cbn [app]; [exact B|constructor; auto|apply uf_pair; auto]. Qed.

Lemma utf16_split a c r : ~ surrogate c -> utf16 (a ++ c :: r) -> utf16 a /\ utf16 r.
Proof.
  intros Hc H. remember (a ++ c :: r) as u eqn:E. revert a E. induction H as [|x t Hx H IH|h l t Hh Hl H IH]; intros a E.
  - destruct a; discriminate.
  - destruct a as [|y a]; injection E as -> ->; [split; [constructor|exact H]|]. destruct (IH a eq_refl) as [A B]. split; [constructor; assumption|exact B].
  - destruct a as [|y a]; injection E as -> E.
    + exfalso. apply Hc. unfold surrogate, high in *. lia.
    + destruct a as [|z a]; injection E as -> ->.
      * exfalso. apply Hc. unfold surrogate, low in *. lia.
      * destruct (IH a eq_refl) as [A B]. split; [apply uf_pair; assumption|exact B].
Qed.
Lemma utf16_plain t : Forall (fun c => ~ surrogate c) t -> utf16 t.
Proof. induction 1; constructor; assumption. Qed.

Lemma own_plain c : In c own -> ~ surrogate c.
Proof.
  assert (A : forallb (fun c => c <? 128) own = true) by reflexivity. rewrite forallb_forall in A. intros H S. apply A in H. unfold surrogate in S. lia.
Qed.
Lemma utf16_own t : all_own t = true -> utf16 t.
Proof. intros H. apply utf16_plain. apply Forall_forall. intros c Hc. apply own_plain, (all_own_in t); assumption. Qed.

Lemma upper_surrogate c : surrogate (ascii_upper c) <-> surrogate c.
Proof. unfold ascii_upper, surrogate. destruct (_ && _) eqn:E; [|reflexivity]. apply andb_prop in E as [A B]. apply Z.leb_le in A, B. lia. Qed.
Lemma upper_same c : surrogate c -> ascii_upper c = c.
Proof. unfold ascii_upper, surrogate. intros H. destruct (_ && _) eqn:E; [|reflexivity]. apply andb_prop in E as [A B]. apply Z.leb_le in A, B. lia. Qed.
Lemma utf16_upper t : utf16 t -> utf16 (map ascii_upper t).
Proof.
  induction 1; cbn [map]; [constructor|constructor; [rewrite upper_surrogate; assumption|assumption]|].
  rewrite !upper_same by (unfold high, low, surrogate in *; lia). apply uf_pair; assumption.
Qed.
Lemma utf16_case s t : utf16 t -> utf16 (in_case s t).
Proof. unfold in_case. destruct (is_upper s); [apply utf16_upper|auto]. Qed.
Lemma utf16_justify q t : utf16 t -> utf16 (justify q t).
Proof.
  intros H. assert (A : forall n, utf16 (spaces n)) by (intros n; apply utf16_own, own_spaces). unfold justify.
  destruct (q_left q); apply utf16_app; auto.
Qed.
(** converse, for the exact statements *)
Lemma spaces_cons n : 0 < n -> exists m, spaces n = 32 :: spaces m.
Proof. intros H. exists (n - 1). unfold spaces. replace n with (n - 1 + 1) at 1 by lia. apply rep_succ. lia. Qed.
Lemma utf16_spaces_l n t : utf16 (spaces n ++ t) -> utf16 t.
Proof.
  unfold spaces, rep. induction (Z.to_nat n) as [|k IH]; cbn [repeat app]; [auto|]. intros H. apply IH.
  apply (utf16_split [] (ch " ")) in H; [tauto|]. intros S. vm_compute in S. destruct S. congruence.
Qed.
Lemma utf16_spaces_r n t : utf16 (t ++ spaces n) -> utf16 t.
Proof.
  unfold spaces, rep. destruct (Z.to_nat n) as [|k]; cbn [repeat]; [rewrite app_nil_r; auto|]. intros H.
  apply (utf16_split t (ch " ")) in H; [tauto|]. intros S. vm_compute in S. destruct S. congruence.
Qed.
Lemma utf16_justify_iff q t : utf16 (justify q t) <-> utf16 t.
Proof.
  split; [|apply utf16_justify]. unfold justify. destruct (q_left q); [apply utf16_spaces_r|apply utf16_spaces_l].
Qed.

(** cutting a text *)
Lemma utf16_firstn_iff t p : utf16 t -> 0 <= p -> (utf16 (firstn (Z.to_nat p) t) <-> ~ splits_pair t p).
Proof.
  intros H. revert p. induction H as [|c t Hc H IH|h l t Hh Hl H IH]; intros p Hp.
  - rewrite firstn_nil. split; [|constructor]. intros _ (a & h & l & b & E & _). destruct a; discriminate.
  - destruct (Z.eq_dec p 0) as [->|Hp0].
    { split; [|constructor]. intros _ (a & h & l & b & _ & E & _). pose proof (zlen_nonneg a). lia. }
    replace (Z.to_nat p) with (S (Z.to_nat (p - 1))) by lia. cbn [firstn]. specialize (IH (p - 1) ltac:(lia)). split.
    + intros U (a & h & l & b & E & L & A & B). destruct a as [|x a]; injection E as -> E.
      * apply Hc. unfold surrogate, high in *. lia.
      * apply (utf16_split [] x) in U as [_ U]; [|exact Hc]. apply IH in U. apply U. exists a, h, l, b. rewrite zlen_cons in L. split; [exact E|]. split; [lia|]. split; assumption.
    + intros N. constructor; [exact Hc|]. apply IH. intros (a & h & l & b & E & L & A). apply N. exists (c :: a), h, l, b.
      rewrite zlen_cons. subst t. split; [reflexivity|]. split; [lia|exact A].
  - destruct (Z.eq_dec p 0) as [->|Hp0].
    { split; [|constructor]. intros _ (a & x & y & b & _ & E & _). pose proof (zlen_nonneg a). lia. }
    destruct (Z.eq_dec p 1) as [->|Hp1].
    { split.
      - intros U. exfalso. change (Z.to_nat 1) with 1%nat in U. cbn [firstn] in U. inversion U; subst. unfold surrogate, high in *. lia.
      - intros N. exfalso. apply N. exists [], h, l, t. repeat split; try reflexivity; unfold high, low in *; lia. }
    replace (Z.to_nat p) with (S (S (Z.to_nat (p - 2)))) by lia. cbn [firstn]. specialize (IH (p - 2) ltac:(lia)). split.
    + intros U (a & x & y & b & E & L & A & B). destruct a as [|z a]; injection E as -> E; [rewrite zlen_nil in L; lia|].
      destruct a as [|z' a]; injection E as -> E.
      * unfold high, low in *. lia.
      * assert (V : utf16 (firstn (Z.to_nat (p - 2)) t)) by (inversion U; subst; [unfold surrogate, high in *; lia|assumption]).
        apply IH in V. apply V. exists a, x, y, b. rewrite !zlen_cons in L. split; [exact E|]. split; [lia|]. split; assumption.
    + intros N. apply uf_pair; [exact Hh|exact Hl|]. apply IH. intros (a & x & y & b & E & L & A). apply N. exists (h :: l :: a), x, y, b.
      rewrite !zlen_cons. subst t. split; [reflexivity|]. split; [lia|exact A].
Qed.

Lemma utf16_cs q t : utf16 t -> (forall p, q_prec q = Some p -> 0 <= p /\ ~ splits_pair t p) -> utf16 (c_s q t).
Proof.
  intros H N. unfold c_s. apply utf16_justify. destruct (q_prec q) as [p|]; [|exact H]. destruct (N p eq_refl) as [A B]. apply utf16_firstn_iff; assumption.
Qed.
Lemma utf16_seq q t ts : utf16 t -> (forall p, q_prec q = Some p -> 0 <= p /\ ~ splits_pair t p) -> utf16 (seq_text q t ts).
Proof.
  intros H N. unfold seq_text. destruct (q_prec q) as [p|]; [|apply utf16_justify, H]. destruct (N p eq_refl) as [A B].
  destruct (p <? zlen t); apply utf16_justify; [apply utf16_firstn_iff; assumption|exact H].
Qed.

Lemma shown_utf16 J s k q x t ds : shown J s (c_dtf k) q x (Ok t) -> In (Default s k) ds -> sound_for J ds x ->
  (forall p, q_prec q = Some p -> 0 <= p /\ may_cut (c_prec k) p) -> utf16 t.
Proof.
  intros H Hd Hx Hq. remember (Ok t) as o eqn:E. destruct H; try discriminate E; injection E as <-;
    try solve [apply utf16_own; try apply own_case; try (apply own_justify; reflexivity);
      eauto using own_jd, own_cu, own_jx, own_jo, own_cf, own_ce, own_jg, own_ja, own_jinf, own_cnan, own_bf, own_be, own_bg, own_justify,
        unsigned_nonneg, its_digits_nonneg, magnitude_nonneg, Z.abs_nonneg].
  - subst s. apply utf16_justify. constructor; [|constructor]. exact (so_char _ _ _ Hx k v c r eq_refl Hd H0).
  - destruct (so_text _ _ _ Hx s k v t0 r eq_refl Hd H H0 H1 H2) as [A B]. apply utf16_case, utf16_cs; [exact A|]. intros p Hp. destruct (Hq p Hp). auto.
  - destruct (so_seq _ _ _ Hx s k u t0 r eq_refl Hd H H0) as [A B]. apply utf16_case, utf16_seq; [exact A|]. intros p Hp. destruct (Hq p Hp). auto.
  - apply utf16_case, utf16_justify. exact (so_date _ _ _ Hx s k v t0 d r eq_refl Hd H H0 H1).
  - subst s. apply utf16_justify. unfold pointer_text. apply utf16_app; [exact (so_class _ _ _ Hx k v name hash eq_refl Hd)|].
    apply utf16_own, own_app; [reflexivity|]. apply own_numeral; [lia|]. apply Z.mod_pos_bound. reflexivity.
  - apply utf16_case. unfold c_s. apply utf16_justify, utf16_own. destruct (q_prec q); [apply own_firstn|]; reflexivity.
  - apply utf16_plain. repeat constructor. intros S. vm_compute in S. destruct S. congruence.
Qed.

Lemma prec_may_cut J p args p' a1 n : prec_is J p args (Ok (p', a1)) -> p' = Some n -> 0 <= n /\ may_cut p n.
Proof.
  intros H. remember (Ok (p', a1)) as o eqn:E. destruct H; try discriminate E; injection E as <- _; intros E'; try discriminate E'; injection E' as <-; unfold may_cut; lia.
Qed.

Lemma piece_utf16 J d args t rest ds : piece J d args (Ok (t, rest)) -> In d ds -> (forall u, d = Fixed u -> utf16 u) ->
  (forall x, In x args -> sound_for J ds x) -> utf16 t.
Proof.
  intros H Hd Hf Hx. remember (Ok (t, rest)) as o eqn:E. destruct H as [u a| | | | |s fl w p d a l w' a1 p' x rest' u Hw Hp Hs]; try discriminate E; injection E as <- <-.
  - apply Hf. reflexivity.
  - pose proof (width_incl _ _ _ _ _ _ _ Hw) as I1. pose proof (prec_incl _ _ _ _ _ Hp) as I2.
    apply (shown_utf16 J s (mkCtx fl w p d) (asked fl l w' p') x u ds Hs Hd); [apply Hx, I1, I2; left; reflexivity|].
    intros n Hn. exact (prec_may_cut J p a1 p' _ n Hp Hn).
Qed.
Lemma says_utf16 J ds0 ds args t o : says J ds args t o -> incl ds ds0 -> (forall u, In (Fixed u) ds -> utf16 u) ->
  (forall x, In x args -> sound_for J ds0 x) -> utf16 t.
Proof.
  induction 1 as [args|d ds args t rest u o P S IH|d ds args e P]; intros I0 Hf Hx; [constructor| |constructor].
  pose proof (I0 d (or_introl eq_refl)) as Hd. destruct (piece_from J d args t rest ds0 P Hd) as [I1 _]. apply utf16_app.
  - apply (piece_utf16 J d args t rest ds0 P Hd); [|exact Hx]. intros v ->. apply Hf. left. reflexivity.
  - apply IH; [intros y Hy; apply I0; right; exact Hy|intros v Hv; apply Hf; right; exact Hv|intros y Hy; apply Hx, I1, Hy].
Qed.

(** the literal pieces of a well-formed format string *)
Definition ascii_text (t : list Z) : Prop := Forall (fun c => ~ surrogate c) t.
Lemma utf16_drop a r : ascii_text a -> utf16 (a ++ r) -> utf16 r.
Proof.
  induction 1 as [|c a Hc A IH]; cbn [app]; [auto|]. intros H. apply IH. apply (utf16_split [] c) in H; tauto.
Qed.
Lemma dec_not_surrogate c : GrammarSpec.is_dec c -> ~ surrogate c.
Proof. unfold GrammarSpec.is_dec, surrogate. lia. Qed.
Lemma flags_ascii F fl : flags_text F fl -> ascii_text F.
Proof.
  intros (_ & H & _). apply Forall_forall. intros c Hc. apply H in Hc. assert (A : forallb (fun c => c <? 128) flag_chars = true) by reflexivity.
  rewrite forallb_forall in A. apply A in Hc. unfold surrogate. lia.
Qed.
Lemma width_ascii W w : width_text W w -> ascii_text W.
Proof.
  intros H. destruct H as [| |d ds Hd H _]; [constructor|repeat constructor; vm_compute; intros []; congruence|].
  apply (Forall_impl _ dec_not_surrogate H).
Qed.
Lemma prec_ascii P p : prec_text P p -> ascii_text P.
Proof.
  intros H. destruct H as [| |ds H _]; [constructor|repeat constructor; vm_compute; intros []; congruence|].
  constructor; [vm_compute; intros []; congruence|apply (Forall_impl _ dec_not_surrogate H)].
Qed.
Lemma conv_ascii c s : conv_char c s -> ~ surrogate c.
Proof. intros H. destruct H as [|s]; [|destruct s]; vm_compute; intros []; congruence. Qed.

Lemma format_utf16 dtf src ds : GrammarSpec.format dtf src ds -> utf16 src -> forall t, In (Fixed t) ds -> utf16 t.
Proof.
  assert (Hpct : ~ surrogate pct) by (vm_compute; intros []; congruence).
  induction 1 as [|t r ds Ht Hp Hr F IH|r ds F IH|FL fl W w P p c s T d r ds Hf Hw Hp Hc Hd Hn F IH]; intros U v Hv.
  - destruct Hv.
  - assert (A : utf16 t /\ utf16 r).
    { destruct Hr as [-> |Hr]; [rewrite app_nil_r in U; split; [exact U|constructor]|]. destruct r as [|x r]; [discriminate|]. injection Hr as ->.
      apply (utf16_split t pct) in U as [A B]; [|exact Hpct]. split; [exact A|constructor; assumption]. }
    destruct Hv as [E|Hv]; [injection E as <-; tauto|]. apply IH; tauto.
  - destruct Hv as [E|Hv]; [injection E as <-; repeat constructor; exact Hpct|]. apply IH; [|exact Hv].
    apply (utf16_drop [pct; pct]); [repeat constructor; exact Hpct|exact U].
  - destruct Hv as [E|Hv]; [discriminate E|]. apply IH; [|exact Hv]. apply (utf16_drop [pct]) in U; [|repeat constructor; exact Hpct].
    apply utf16_drop in U; [|exact (flags_ascii _ _ Hf)]. apply utf16_drop in U; [|exact (width_ascii _ _ Hw)]. apply utf16_drop in U; [|exact (prec_ascii _ _ Hp)].
    apply (utf16_drop [c]) in U; [|repeat constructor; exact (conv_ascii _ _ Hc)]. destruct Hd as [| |s r p0 _ _ _ _]; [exact U|exact U|].
    rewrite <- !app_assoc in U. rewrite app_assoc in U. change ([125] ++ r) with (125 :: r) in U.
    apply (utf16_split ([123] ++ p0) 125) in U; [tauto|]. vm_compute. intros []. congruence.
Qed.
