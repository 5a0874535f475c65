(** Proofs for C14: '*' widths of zero and of Integer.MIN_VALUE. *)
From Verif Require Import Base Digits UtilsM SeqM SeqSpec SeqP ContextM CompilerM GrammarSpec CompilerP IntFormM FormatterM MathM DecimalM FPDecimalM
  DoubleM BigDecM RoundM TraitsM ImplM FmtSpec FmtP FmtP2 DirSpec LoopSpec ImplP IntP LoopP PatternP WidthP.

Definition long_enough (r : res (list Z)) : Prop := match r with Ok t => 1 <= zlen t | Err _ => True end.
Definition texts_ok (f : intform) : Prop := long_enough (i_dec f) /\ long_enough (i_hex f) /\ long_enough (i_oct f) /\ long_enough (i_udec f).

Lemma numeral_pos b n : 2 <= b -> 0 <= n -> 1 <= zlen (numeral b n).
Proof. intros. rewrite zlen_numeral. apply digits_nonempty; assumption. Qed.

Lemma dec_text_pos n : 1 <= zlen (dec_text n).
Proof. unfold dec_text. destruct (n <? 0) eqn:E; bools; [rewrite zlen_cons; pose proof (zlen_nonneg (numeral 10 (- n))); lia|]. apply numeral_pos; lia. Qed.

Lemma uint32_nonneg v : 0 <= uint32 v. Proof. unfold uint32. apply Z.mod_pos_bound. reflexivity. Qed.
Lemma uint64_nonneg v : 0 <= uint64 v. Proof. unfold uint64. apply Z.mod_pos_bound. reflexivity. Qed.

Ltac texts := repeat split; cbn [i_dec i_hex i_oct i_udec long_enough];
  try (apply numeral_pos; [lia|apply uint32_nonneg || apply uint64_nonneg]); try apply dec_text_pos.

Lemma byte_texts v : texts_ok (byteForm v). Proof. unfold byteForm. texts. Qed.
Lemma short_texts v : texts_ok (shortForm v). Proof. unfold shortForm. texts. Qed.
Lemma int_texts v : texts_ok (intForm v).
Proof. unfold intForm. texts. unfold int_toDecimalString. destruct (0 <=? v); [apply dec_text_pos|]. destruct (int_min <? v); [apply dec_text_pos|vm_compute; discriminate]. Qed.
Lemma long_texts v : texts_ok (longForm v).
Proof. unfold longForm. texts. unfold long_toDecimalString. destruct (0 <=? v); [apply dec_text_pos|]. destruct (long_min <? v); [apply dec_text_pos|vm_compute; discriminate]. Qed.
Lemma big_texts v : texts_ok (bigForm v).
Proof.
  unfold bigForm. repeat split; cbn [i_dec i_hex i_oct i_udec]; unfold ensureNonNegative; try destruct (Z.sgn v <? 0); cbn [bind long_enough];
    try exact I; try apply dec_text_pos; apply numeral_pos; lia.
Qed.

Lemma value_texts J v r f : t_asIntForm (traitsOf J v r) = Ok f -> texts_ok f.
Proof.
  assert (CS : forall s n q, t_asIntForm (charSeqTraits J s n q r) = Ok f -> texts_ok f).
  { intros s n q. cbn [charSeqTraits t_asIntForm]. destruct s as [t|]; cbn [bind]; [|discriminate].
    destruct (parseJava (j_digit J) 64 t); cbn [text_of_res bind conv]; [|discriminate]. intros [= <-]. apply long_texts. }
  destruct v as [b|c|v|v|v|v|b|b|s|s|s|v|d|t|o]; cbn [traitsOf]; try (intros [= <-]); try apply CS.
  - apply int_texts.
  - apply int_texts.
  - apply byte_texts.
  - apply short_texts.
  - apply int_texts.
  - apply long_texts.
  - apply int_texts.
  - apply long_texts.
  - apply big_texts.
  - cbn [decTraits t_asIntForm]. destruct (bd_bigInteger d); cbn [bind]; [|discriminate]. intros [= <-]. apply big_texts.
  - unfold temporalTraits. cbn [t_asIntForm]. destruct (instantFrom J t); cbn [bind conv]; [|discriminate].
    destruct (toEpochMilli i); cbn [bind]; [|discriminate]. intros [= <-]. apply long_texts.
  - unfold objTraits. destruct o as [l d i t|m i t|m t|s|s|l|l|t]; cbn [t_asIntForm conv]; try discriminate.
    + destruct l; [|discriminate]. intros [= <-]. apply long_texts.
    + destruct m; [|discriminate]. intros [= <-]. apply long_texts.
    + destruct m; [|discriminate]. intros [= <-]. apply long_texts.
Qed.

(** an argument some Java value makes, or null *)
Definition of_value (J : jdk) (x : traits) : Prop := x = nullTraits \/ exists v r, x = traitsOf J v r.

Lemma of_value_texts J x f : of_value J x -> t_asIntForm x = Ok f -> texts_ok f.
Proof. intros [->|(v & r & ->)] E; [discriminate|]. exact (value_texts J v r f E). Qed.

(** ** Width zero *)

Lemma s_len_wrapS t : s_len (wrapS t) = zlen t.
Proof.
  unfold wrapS, s_wrap. destruct t as [|a [|b t]]; reflexivity.
Qed.

Lemma padDigits_small t p p' : 1 <= zlen t -> p <= 1 -> p' <= 1 -> padDigits p (wrapS t) = padDigits p' (wrapS t).
Proof.
  intros Ht Hp Hp'. unfold padDigits. rewrite s_len_wrapS. replace (zlen t <? p) with false by (symmetry; apply Z.ltb_ge; lia).
  replace (zlen t <? p') with false by (symmetry; apply Z.ltb_ge; lia). reflexivity.
Qed.

Section Zero.
  Variables (fl : flags) (p : Z) (d : option (list Z)).
  Let c0 := mkCtx fl 0 p d.
  Let c1 := mkCtx fl UNSET p d.

  Lemma zero_justify u : spaceJustify c0 u = spaceJustify c1 u. Proof. reflexivity. Qed.

  Lemma zero_d f : texts_ok f -> fmt_d c0 f = fmt_d c1 f.
  Proof.
    intros (H & _). unfold fmt_d. change (c_prec c0) with p. change (c_prec c1) with p. destruct ((i_signum f =? 0) && (p =? 0)); [reflexivity|].
    destruct (i_dec f) as [t|]; cbn [bind]; [|reflexivity]. cbn [long_enough] in H.
    change (isPrecisionSet c0) with (isPrecisionSet c1). destruct (isPrecisionSet c1); [reflexivity|].
    change (isWidthSet c0) with true. change (isWidthSet c1) with false. change (hasFlag c0) with (hasFlag c1). change (c_width c0) with 0.
    destruct (hasFlag c1 ZERO_PAD); [|reflexivity]. cbn [andb]. destruct (hasFlag c1 LEFT_JUSTIFY); [reflexivity|]. cbn [negb].
    change (hasSign c0) with (hasSign c1).
    rewrite (padDigits_small t (if hasSign c1 (i_signum f <? 0) then wrap32 (0 - 1) else 0) 1 H); [reflexivity|destruct (hasSign c1 (i_signum f <? 0)); vm_compute; discriminate|lia].
  Qed.

  Lemma zero_u f g prefix : long_enough (g f) -> zlen prefix <= 10 -> formatUnsignedInteger c0 f g prefix = formatUnsignedInteger c1 f g prefix.
  Proof.
    intros H Hz. unfold formatUnsignedInteger. change (c_prec c0) with p. change (c_prec c1) with p. destruct ((i_signum f =? 0) && (p =? 0)); [reflexivity|].
    destruct (g f) as [t|]; cbn [bind]; [|reflexivity]. cbn [long_enough] in H.
    change (isPrecisionSet c0) with (isPrecisionSet c1). destruct (isPrecisionSet c1); [reflexivity|].
    change (isWidthSet c0) with true. change (isWidthSet c1) with false. change (hasFlag c0) with (hasFlag c1). change (c_width c0) with 0.
    destruct (hasFlag c1 ZERO_PAD); [|reflexivity]. cbn [andb]. destruct (hasFlag c1 LEFT_JUSTIFY); [reflexivity|]. cbn [negb].
    assert (W : (if hasFlag c1 ALTERNATE then wrap32 (0 - zlen prefix) else 0) <= 1).
    { destruct (hasFlag c1 ALTERNATE); [|lia]. pose proof (zlen_nonneg prefix). rewrite wrap32_id; [lia|]. unfold is_int, int_min, int_max. lia. }
    rewrite (padDigits_small t _ 1 H W); [reflexivity|lia].
  Qed.

  Lemma zero_formatter J s x : of_value J x -> s <> Sa -> s <> SA -> formatterFor J s c0 x = formatterFor J s c1 x.
  Proof.
    intros Hx Na NA. assert (I : forall g g', (forall f, texts_ok f -> g f = g' f) -> withInt x g = withInt x g').
    { intros g g' H. unfold withInt. destruct (t_asIntForm x) as [f|] eqn:E; [|reflexivity]. cbn [bind]. apply H, (of_value_texts J x f Hx E). }
    destruct s; cbn [formatterFor]; try reflexivity; try contradiction.
    - apply I. intros f Hf. apply zero_d, Hf.
    - apply I. intros f (_ & _ & _ & Hf). apply zero_u; [exact Hf|vm_compute; discriminate].
    - apply I. intros f (_ & _ & Hf & _). apply zero_u; [exact Hf|vm_compute; discriminate].
    - apply I. intros f (_ & Hf & _). apply zero_u; [exact Hf|vm_compute; discriminate].
    - f_equal. apply I. intros f (_ & Hf & _). apply zero_u; [exact Hf|vm_compute; discriminate].
  Qed.
End Zero.

Lemma zero_append J s fl p d args : Forall (of_value J) args -> s <> Sa -> s <> SA ->
  appendOne J (Default s (mkCtx fl 0 p d)) args = appendOne J (Default s (mkCtx fl UNSET p d)) args.
Proof.
  intros Ha N1 N2. cbn [appendOne]. unfold resolveCtx.
  change (isPrecedingWidth (mkCtx fl 0 p d)) with false. change (isPrecedingWidth (mkCtx fl UNSET p d)) with false. cbn [bind].
  change (isPrecedingPrecision (mkCtx fl 0 p d)) with (p =? PRECEDING). change (isPrecedingPrecision (mkCtx fl UNSET p d)) with (p =? PRECEDING).
  assert (G : forall p' l, Forall (of_value J) l ->
    match l with [] => Err (Printf MissingArg) | x :: rest => let* u := formatterFor J s (mkCtx fl 0 p' d) x in Ok (u, rest) end =
    match l with [] => Err (Printf MissingArg) | x :: rest => let* u := formatterFor J s (mkCtx fl UNSET p' d) x in Ok (u, rest) end).
  { intros p' l Hl. destruct l as [|x l]; [reflexivity|]. inversion Hl; subst. rewrite zero_formatter by assumption. reflexivity. }
  destruct (p =? PRECEDING); cbn [bind].
  - destruct args as [|x rest]; cbn [nextInt bind]; [reflexivity|]. inversion Ha; subst. destruct (t_asInt x) as [v|]; cbn [bind]; [|reflexivity].
    unfold setPrecision. destruct (checkValue PrecisionRange (if 0 <=? v then v else UNSET)); cbn [bind c_flags c_width c_dtf]; [|reflexivity]. apply G. assumption.
  - apply G, Ha.
Qed.

Lemma zero_in_place J dtf F fl P p c s x : flags_text F fl -> prec_text P p -> conv_char c s -> s <> Spct -> s <> Sa -> s <> SA ->
  t_asInt x = Ok 0 ->
  exists ds ds', compile dtf (pct :: F ++ txt "*" ++ P ++ [c]) = Ok ds /\ compile dtf (pct :: F ++ P ++ [c]) = Ok ds' /\
    forall sb rest target, Forall (of_value J) rest -> formatInto J sb ds (x :: rest) target = formatInto J sb ds' rest target.
Proof.
  intros HF HP Hc Hs N1 N2 Hx. exists [Default s (mkCtx fl PRECEDING p None)], [Default s (mkCtx fl UNSET p None)].
  split; [apply one_directive; try assumption; constructor|].
  split; [apply (one_directive dtf F fl [] UNSET P p c s); try assumption; constructor|].
  intros sb rest target Hr. unfold formatInto. apply run_one. left.
  rewrite (appendOne_resolve J s _ _ _ _ (resolve_star_width fl p None x 0 rest Hx ltac:(cbn; lia))).
  change (mkCtx (if 0 <? 0 then addF LEFT_JUSTIFY fl else fl) (Z.abs 0) p None) with (mkCtx fl 0 p None). apply zero_append; assumption.
Qed.

(** ** Width Integer.MIN_VALUE *)

Lemma resolve_star_min fl p d x rest : t_asInt x = Ok int_min ->
  resolveCtx (mkCtx fl PRECEDING p d) (x :: rest) =
  (if p =? PRECEDING then let* (p', it) := nextInt rest in let* c := setPrecision (mkCtx (addF LEFT_JUSTIFY fl) int_min p d) (if 0 <=? p' then p' else UNSET) in Ok (c, it)
   else Ok (mkCtx (addF LEFT_JUSTIFY fl) int_min p d, rest)).
Proof. intros Hx. unfold resolveCtx, isPrecedingWidth. cbn [c_width]. rewrite Z.eqb_refl. cbn [nextInt]. rewrite Hx. reflexivity. Qed.

Lemma star_min_converts J s x T w0 F fl P p c : converts J s x T -> flags_text F fl -> prec_text P p -> p <> PRECEDING -> conv_char c s -> s <> Spct ->
  t_asInt w0 = Ok int_min ->
  prints J (pct :: F ++ txt "*" ++ P ++ [c]) [w0; x]
    (T (mkSpec true (f_alt fl) (f_plus fl) (f_space fl) (f_zero fl) 0 (if p =? UNSET then None else Some p))).
Proof.
  intros Hr HF HP Hp Hc Hs H0 dtf. exists [Default s (mkCtx fl PRECEDING p None)].
  split; [apply one_directive; try assumption; constructor|].
  assert (Hp' : p = UNSET \/ 0 <= p <= 65536) by (destruct (prec_ok _ _ HP) as [H|[H|H]]; auto; contradiction).
  set (c0 := mkCtx (addF LEFT_JUSTIFY fl) int_min p None).
  assert (Hrt : rt_ok c0) by (split; cbn; [right; right; split; reflexivity|exact Hp']).
  destruct (Hr c0 Hrt) as (u & Eu & Du).
  assert (Eq : q_of c0 = mkSpec true (f_alt fl) (f_plus fl) (f_space fl) (f_zero fl) 0 (if p =? UNSET then None else Some p)).
  { unfold q_of. cbn. f_equal. unfold UNSET in *. destruct Hp' as [->|H]; [reflexivity|].
    replace (p <? 0) with false by (symmetry; apply Z.ltb_ge; lia). replace (p =? -1) with false by (symmetry; apply Z.eqb_neq; lia). reflexivity. }
  rewrite Eq in Du. apply den_wden in Du.
  assert (E : appendOne J (Default s (mkCtx fl PRECEDING p None)) [w0; x] = Ok (u, [])).
  { cbn [appendOne]. rewrite (resolve_star_min fl p None w0 [x] H0). replace (p =? PRECEDING) with false by (symmetry; apply Z.eqb_neq; exact Hp). cbn [bind].
    fold c0. rewrite Eu. reflexivity. }
  split.
  - unfold format. cbn [run]. rewrite E, (emitSB_wden _ _ _ Du). reflexivity.
  - intros sb target. unfold formatInto. cbn [run]. rewrite E, (wden_emits _ _ _ target (emits_if sb) Du). reflexivity.
Qed.

