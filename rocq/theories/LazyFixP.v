(** Proofs for C115: every conversion of a sequence keeps its views within their strings and arrays (after TameP.v), and on such sequences both targets receive the same. *)
From Verif Require Import Base Digits UtilsM SeqM SeqSpec SeqP ContextM CompilerM IntFormM FormatterM MathM DecimalM FPDecimalM DoubleM
  BigDecM RoundM TraitsM ImplM LoopSpec TameP LazyFixM LazyFixSpec.

(** ** every operation on sound sequences gives sound sequences *)
Lemma sound_wrap t : sound_atom (s_wrap t).
Proof. unfold s_wrap. pose proof (zlen_nonneg t). destruct (0 <? zlen t); [|exact I]. destruct t as [|c [|d r]]; try exact I; cbn [sound_atom]; lia. Qed.
Lemma sound_wrapS t : sound (wrapS t).
Proof. apply sound_wrap. Qed.
Lemma sound_chS c : sound (chS c).
Proof. exact I. Qed.
Lemma checked i j n x : checkPositionIndexes i j n = Ok x -> 0 <= i <= j /\ j <= n.
Proof.
  intros H. destruct (Z_le_dec 0 i); [|rewrite checkIdxs_bad in H by lia; discriminate H]. destruct (Z_le_dec i j); [|rewrite checkIdxs_bad in H by lia; discriminate H].
  destruct (Z_le_dec j n); [lia|rewrite checkIdxs_bad in H by lia; discriminate H].
Qed.
Lemma sound_wrap3 t a b : okP sound_atom (s_wrap3 t a b).
Proof.
  unfold s_wrap3. intros x E. destruct (checkPositionIndexes a b (zlen t)) eqn:C; cbn [bind] in E; [|discriminate E]. apply checked in C. revert x E.
  change (okP sound_atom (if a =? b then Ok AEmpty else if b =? a + 1 then let* c := jcharAt t a in Ok (s_ch c) else Ok (AStr t a (b - a) false))).
  destruct (a =? b); [apply ok_ok; exact I|].
  destruct (b =? a + 1); [|apply ok_ok; cbn [sound_atom]; lia]. apply ok_any. intros x. apply ok_ok. exact I.
Qed.
Lemma sound_repeated c n : okP sound (repeated c n).
Proof.
  unfold repeated, s_repeated. apply (ok_bind sound_atom).
  - apply ok_any. intros _. destruct (n =? 1); apply ok_ok; exact I.
  - intros a H. apply ok_ok. exact H.
Qed.
Lemma sound_concat l r : sound l -> sound r -> sound (s_concat l r).
Proof. intros Hl Hr. destruct l; cbn [s_concat concat0 sound] in *; tauto. Qed.
Lemma sound_append s x : sound s -> sound x -> sound (s_append s x).
Proof.
  intros Hs Hx. unfold s_append.
  assert (K : sound (if s_isEmpty x then s else s_concat s x)) by (destruct (s_isEmpty x); [exact Hs|apply sound_concat; assumption]).
  destruct s as [[| | | |]| |]; assumption.
Qed.
Lemma sound_prepend s x : sound s -> sound x -> sound (s_prepend s x).
Proof.
  intros Hs Hx. unfold s_prepend.
  assert (K : sound (if s_isEmpty x then s else s_concat x s)) by (destruct (s_isEmpty x); [exact Hs|apply sound_concat; assumption]).
  destruct s as [[| | | |]| |]; assumption.
Qed.

Lemma sound_descend n : forall st, sound n -> Forall sound st ->
  okP (fun p => sound_atom (fst p) /\ Forall sound (snd p)) (descend n st).
Proof.
  induction n as [a|l IHl r _ len cnt|ps len]; intros st Hn Hst; cbn [descend].
  - apply ok_ok. split; assumption.
  - destruct Hn as [H1 H2]. apply IHl; [exact H1|]. constructor; assumption.
  - destruct ps as [|p rest]; [apply ok_err|]. apply ok_ok. cbn [sound] in Hn. inversion Hn as [|? ? H1 H2]. subst.
    split; [exact H1|]. cbn [snd]. apply Forall_app. split; [|exact Hst]. clear - H2.
    induction H2; constructor; assumption.
Qed.
Lemma sound_drain f : forall st, Forall sound st -> okP (Forall sound_atom) (drain f st).
Proof.
  induction f as [|f IH]; intros [|n st] H; cbn [drain]; try (apply ok_ok; constructor); try apply ok_err.
  inversion H as [|? ? H1 H2]. subst. apply (ok_bind _ _ _ _ (sound_descend n st H1 H2)).
  intros [a st'] [K1 K2]. apply (ok_bind _ _ _ _ (IH _ K2)). intros rest K3. apply ok_ok. constructor; assumption.
Qed.
Lemma sound_iter s : sound s -> okP (Forall sound_atom) (s_iter s).
Proof.
  intros H. destruct s as [a|l r n k|ps n]; cbn [s_iter].
  - apply ok_ok. constructor; [exact H|constructor].
  - apply sound_drain. constructor; [exact H|constructor].
  - apply ok_ok. exact H.
Qed.

Lemma sound_asub a i j : sound_atom a -> okP sound_atom (a_sub a i j).
Proof.
  intros H. destruct a as [|c n|t st n up|t st n up|act n]; cbn [a_sub].
  - destruct ((i =? 0) && (j =? 0)); [apply ok_ok; exact I|apply ok_err].
  - apply ok_any. intros _. destruct (i =? j); apply ok_ok; exact I.
  - intros y E. destruct (checkPositionIndexes i j n) eqn:C; cbn [bind] in E; [|discriminate E]. apply checked in C. cbn [sound_atom] in H.
    destruct (i =? j); [inversion E; exact I|]. destruct (j =? i + 1); [|inversion E; cbn [sound_atom]; lia].
    destruct (jcharAt t (st + i)); cbn [bind] in E; inversion E; exact I.
  - intros y E. destruct (checkPositionIndexes i j n) eqn:C; cbn [bind] in E; [|discriminate E]. apply checked in C. cbn [sound_atom] in H.
    destruct (i =? j); [inversion E; exact I|]. destruct (j =? i + 1); [|inversion E; cbn [sound_atom]; lia].
    destruct (jcharAt t (st + i)); cbn [bind] in E; inversion E; exact I.
  - apply ok_any. intros _. apply ok_any. intros v. apply sound_wrap3.
Qed.
Lemma sound_sub_loop l : Forall sound_atom l -> forall i j buf, Forall sound_atom buf ->
  okP (fun p => Forall sound_atom (fst (fst p))) (sub_loop l i j buf).
Proof.
  intros Hl. induction Hl as [|a r Ha Hr IH]; intros i j buf H; cbn [sub_loop]; [apply ok_ok; exact H|].
  destruct (i <? a_len a); [|apply IH; exact H].
  destruct (j <=? a_len a); apply (ok_bind _ _ _ _ (sound_asub a _ _ Ha)); intros x Hx.
  - apply ok_ok. cbn [fst]. apply Forall_app. split; [exact H|]. constructor; [exact Hx|constructor].
  - apply IH. apply Forall_app. split; [exact H|]. constructor; [exact Hx|constructor].
Qed.
Lemma sound_sub s i j : sound s -> okP sound (s_sub s i j).
Proof.
  intros H. assert (K : okP sound
    (let* _ := checkPositionIndexes i j (s_len s) in
      if i =? j then Ok (Leaf AEmpty)
      else if (i =? 0) && (j =? s_len s) then Ok s
      else
        let* atoms := s_iter s in
        let* (buf, start', end') := sub_loop atoms i j [] in
        match buf with
        | [x] => Ok (Leaf x)
        | _ => Ok (Arr buf (wrap32 (end' - start')))
        end)).
  { apply ok_any. intros _. destruct (i =? j); [apply ok_ok; exact I|].
    destruct ((i =? 0) && (j =? s_len s)); [apply ok_ok; exact H|].
    apply (ok_bind _ _ _ _ (sound_iter s H)). intros atoms Ha.
    apply (ok_bind _ _ _ _ (sound_sub_loop atoms Ha i j [] (Forall_nil _))). intros [[buf i'] j'] Hb. cbn [fst] in Hb.
    destruct buf as [|x [|y r]]; apply ok_ok; [exact Hb|inversion Hb; assumption|exact Hb]. }
  destruct s as [a| |]; [|exact K|exact K]. cbn [s_sub]. apply (ok_bind _ _ _ _ (sound_asub a i j H)). intros x Hx. apply ok_ok. exact Hx.
Qed.
Lemma sound_aupper a : sound_atom a -> okP sound_atom (a_upper a).
Proof.
  intros H. destruct a as [|c n|t st n up|t st n up|act n]; cbn [a_upper].
  - apply ok_ok. exact I.
  - apply ok_ok. cbn [a_upper0]. destruct (isLowerCase c); exact I.
  - apply ok_ok. cbn [a_upper0]. destruct up; exact H.
  - apply ok_ok. cbn [a_upper0]. destruct up; exact H.
  - apply ok_any. intros v. apply ok_ok. pose proof (sound_wrap v) as W. destruct (s_wrap v) as [|c k|t st k up|t st k up|b k]; cbn [a_upper0]; try exact W.
    + destruct (isLowerCase c); exact I.
    + destruct up; exact W.
    + destruct up; exact W.
Qed.
Lemma sound_mapM l : Forall sound_atom l -> okP (Forall sound_atom) (mapM a_upper l).
Proof.
  intros H. induction H as [|a r Ha Hr IH]; cbn [mapM]; [apply ok_ok; constructor|].
  apply (ok_bind _ _ _ _ (sound_aupper a Ha)). intros b Hb. apply (ok_bind _ _ _ _ IH). intros bs Hs. apply ok_ok. constructor; assumption.
Qed.
Lemma sound_upper s : sound s -> okP sound (s_upper s).
Proof.
  intros H. pose proof (sound_iter s H) as Hi. destruct s as [a| |]; cbn [s_upper].
  - apply (ok_bind _ _ _ _ (sound_aupper a H)). intros x Hx. apply ok_ok. exact Hx.
  - apply (ok_bind _ _ _ _ Hi). intros atoms Ha. apply (ok_bind _ _ _ _ (sound_mapM atoms Ha)). intros x Hx. apply ok_ok. exact Hx.
  - apply (ok_bind _ _ _ _ Hi). intros atoms Ha. apply (ok_bind _ _ _ _ (sound_mapM atoms Ha)). intros x Hx. apply ok_ok. exact Hx.
Qed.
Lemma sound_upperOf r : okP sound r -> okP sound (upperOf r).
Proof. intros H. apply (ok_bind _ _ _ _ H). intros s. apply sound_upper. Qed.

(** ** the formatter *)
Lemma sound_justify c s : sound s -> okP sound (spaceJustify c s).
Proof.
  intros H. unfold spaceJustify. destruct (s_len s <? width c); [|apply ok_ok; exact H].
  apply (ok_bind _ _ _ _ (sound_repeated _ _)). intros p Hp. apply ok_ok.
  destruct (hasFlag c LEFT_JUSTIFY); [apply sound_append|apply sound_prepend]; assumption.
Qed.
Lemma sound_sign c s n : sound s -> sound (sign c s n).
Proof.
  intros H. unfold sign. destruct n; [apply sound_prepend; [exact H|exact I]|].
  destruct (hasFlag c PLUS); [apply sound_prepend; [exact H|exact I]|].
  destruct (hasFlag c LEADING_SPACE); [apply sound_prepend; [exact H|exact I]|exact H].
Qed.
Lemma sound_zero_pad s (b : bool) n : sound s ->
  okP sound (if b then let* pad := repeated (ch "0") n in Ok (s_prepend s pad) else Ok s).
Proof.
  intros H. destruct b; [|apply ok_ok; exact H].
  apply (ok_bind _ _ _ _ (sound_repeated _ _)). intros p Hp. apply ok_ok. apply sound_prepend; assumption.
Qed.
Lemma sound_signJustify c s n : sound s -> okP sound (signAndJustify c s n).
Proof.
  intros H. unfold signAndJustify.
  destruct (negb (hasFlag c ZERO_PAD) || hasFlag c LEFT_JUSTIFY); [apply sound_justify, sound_sign, H|].
  apply (ok_bind _ _ _ _ (sound_zero_pad s _ _ H)). intros v Hv. apply ok_ok, sound_sign, Hv.
Qed.
Lemma sound_padDigits p s : sound s -> okP sound (padDigits p s).
Proof. exact (sound_zero_pad s _ _). Qed.

Lemma sound_d c v : okP sound (fmt_d c v).
Proof.
  unfold fmt_d. destruct ((i_signum v =? 0) && (c_prec c =? 0)).
  - apply sound_justify. destruct (hasFlag c PLUS); exact I.
  - apply ok_any. intros d. apply (ok_bind _ _ _ _ (sound_padDigits _ _ (sound_wrapS d))). intros s Hs. apply sound_justify, sound_sign, Hs.
Qed.
Lemma sound_unsigned c v f p : okP sound (formatUnsignedInteger c v f p).
Proof.
  unfold formatUnsignedInteger. destruct ((i_signum v =? 0) && (c_prec c =? 0)); [apply sound_justify; exact I|].
  apply ok_any. intros d. apply (ok_bind _ _ _ _ (sound_padDigits _ _ (sound_wrapS d))). intros s Hs. apply sound_justify.
  destruct (negb (i_signum v =? 0) && hasFlag c ALTERNATE); [apply sound_prepend; [exact Hs|apply sound_wrapS]|exact Hs].
Qed.

Definition sound_layout (l : layout) : Prop := sound (l_mant l) /\ forall x, l_exp l = Some x -> sound x.
Definition sound_form (v : floatform) : Prop :=
  forall p, okP sound_layout (f_general v p) /\ okP sound_layout (f_scientific v p) /\
    okP sound_layout (f_decimal v p) /\ okP sound_layout (f_hex v p).

Lemma sound_nan c v : okP sound (nanOrInfinity c v).
Proof.
  apply sound_justify. destruct (f_isNaN v); [apply sound_wrapS|]. destruct (f_signum v <? 0); [apply sound_wrapS|].
  destruct (hasFlag c PLUS); apply sound_wrapS.
Qed.
Lemma sound_fraction m p d : sound m -> okP sound (formatFractionalPart m p d).
Proof.
  intros H. unfold formatFractionalPart. apply ok_any. intros dot.
  destruct ((p =? 0) && (dot =? NOT_FOUND)).
  - apply ok_ok. destruct d; [apply sound_append; [exact H|exact I]|exact H].
  - destruct (p <=? (if 0 <=? dot then s_len m - (dot + 1) else 0)); [apply ok_ok; exact H|].
    apply (ok_bind _ _ _ _ (sound_repeated _ _)). intros z Hz. apply ok_ok. apply sound_append; [|exact Hz].
    destruct (dot <? 0); [apply sound_append; [exact H|exact I]|exact H].
Qed.
Lemma sound_nonNull x : (forall y, x = Some y -> sound y) -> okP sound (nonNull x).
Proof. intros H. destruct x as [y|]; [apply ok_ok; apply H; reflexivity|apply ok_err]. Qed.
Lemma sound_f c v : sound_form v -> okP sound (fmt_f c v).
Proof.
  intros H. unfold fmt_f. destruct (f_isNaN v || f_isInf v); [apply sound_nan|].
  destruct (H (precOr6 c)) as (_ & _ & K & _). apply (ok_bind _ _ _ _ K). intros l [Hm _].
  apply (ok_bind _ _ _ _ (sound_fraction _ _ _ Hm)). intros m Hm'. apply sound_signJustify, Hm'.
Qed.
Lemma sound_e c v : sound_form v -> okP sound (fmt_e c v).
Proof.
  intros H. unfold fmt_e. destruct (f_isNaN v || f_isInf v); [apply sound_nan|].
  destruct (H (precOr6 c)) as (_ & K & _). apply (ok_bind _ _ _ _ K). intros l [Hm Hx].
  apply (ok_bind _ _ _ _ (sound_fraction _ _ _ Hm)). intros m Hm'. apply (ok_bind _ _ _ _ (sound_nonNull _ Hx)). intros x Hx'.
  apply sound_signJustify. apply sound_append; [|exact Hx']. apply sound_append; [exact Hm'|exact I].
Qed.
Lemma sound_strip m : sound m -> okP sound (stripTrailingZeros m).
Proof.
  intros H. unfold stripTrailingZeros. apply ok_any. intros i. destruct (i =? NOT_FOUND); [apply ok_ok; exact H|].
  apply ok_any. intros k. apply sound_sub, H.
Qed.
Lemma sound_padPrec m p : sound m -> okP sound (padToPrecision m p).
Proof.
  intros H. unfold padToPrecision. apply ok_any. intros [n b]. apply ok_any. intros z. apply ok_any. intros d.
  assert (K : sound (if d =? -1 then s_append m (chS (ch ".")) else m)) by (destruct (d =? -1); [apply sound_append; [exact H|exact I]|exact H]).
  destruct (0 <? _); [|apply ok_ok; exact K].
  apply (ok_bind _ _ _ _ (sound_repeated _ _)). intros r Hr. apply ok_ok. apply sound_append; assumption.
Qed.
Lemma sound_g c v : sound_form v -> okP sound (fmt_g c v).
Proof.
  intros H. unfold fmt_g. destruct (f_isNaN v || f_isInf v); [apply sound_nan|].
  destruct (H (if isPrecisionSet c then if c_prec c =? 0 then 1 else c_prec c else 6)) as (K & _).
  apply (ok_bind _ _ _ _ K). intros l [Hm Hx]. apply (ok_bind sound).
  - destruct (l_exp l) as [x|] eqn:E.
    + unfold formatGScientific. apply (ok_bind sound).
      * destruct (negb (hasFlag c ALTERNATE)); [apply sound_strip, Hm|apply ok_ok, Hm].
      * intros m Hm'. apply ok_ok. apply sound_append; [|apply Hx; reflexivity]. apply sound_append; [exact Hm'|exact I].
    + unfold formatGDecimal. destruct (hasFlag c ALTERNATE); [apply sound_padPrec, Hm|apply sound_strip, Hm].
  - intros s Hs. apply sound_signJustify, Hs.
Qed.
Lemma sound_a c v : sound_form v -> okP sound (fmt_a c v).
Proof.
  intros H. unfold fmt_a. destruct (f_isNaN v || f_isInf v); [apply sound_nan|].
  destruct (H (if isPrecisionSet c then if c_prec c =? 0 then 1 else c_prec c else 13)) as (_ & _ & _ & K).
  apply (ok_bind _ _ _ _ K). intros l [Hm Hx]. apply (ok_bind sound).
  { destruct (isPrecisionSet c); [apply sound_fraction, Hm|apply ok_ok, Hm]. }
  intros m Hm'. apply (ok_bind _ _ _ _ (sound_nonNull _ Hx)). intros x Hx'.
  assert (T : sound (s_append (s_append m (chS (ch "p"))) x)) by (apply sound_append; [apply sound_append; [exact Hm'|exact I]|exact Hx']).
  destruct (hasFlag c ZERO_PAD && negb (hasFlag c LEFT_JUSTIFY)).
  - apply (ok_bind sound).
    + destruct (_ <? _); [|apply ok_ok, T]. apply (ok_bind _ _ _ _ (sound_repeated _ _)). intros r Hr. apply ok_ok. apply sound_append; assumption.
    + intros s Hs. apply ok_ok. apply sound_sign, sound_prepend; [exact Hs|apply sound_wrapS].
  - apply sound_justify, sound_sign, sound_prepend; [exact T|apply sound_wrapS].
Qed.
Lemma sound_s c s : sound s -> okP sound (fmt_s c s).
Proof.
  intros H. unfold fmt_s. apply (ok_bind sound).
  - destruct (isPrecisionSet c && (c_prec c <? s_len s)); [apply sound_sub, H|apply ok_ok, H].
  - intros t Ht. apply sound_justify, Ht.
Qed.
Lemma sound_p c r : okP sound (fmt_p c r).
Proof.
  destruct r; cbn [fmt_p]; [apply ok_err|apply sound_justify, sound_wrapS|].
  apply sound_justify, sound_prepend; [apply sound_prepend; [apply sound_wrapS|exact I]|apply sound_wrapS].
Qed.

(** ** the number forms *)
Lemma sound_simple m x : sound m -> (forall y, x = Some y -> sound y) -> okP sound_layout (Ok (mkLayout m x)).
Proof. intros Hm Hx. apply ok_ok. split; assumption. Qed.
Lemma sound_some s : sound s -> forall y, Some s = Some y -> sound y.
Proof. intros H y E. inversion E. subst. exact H. Qed.
Lemma sound_none : forall y, None = Some y -> sound y.
Proof. discriminate. Qed.
Lemma sound_seqOfArr m : sound (seqOfArr m).
Proof. unfold seqOfArr, s_forArray. pose proof (zlen_nonneg m). cbn [sound sound_atom]. lia. Qed.
Lemma sound_layoutOf r : okP sound_layout (layoutOf r).
Proof.
  unfold layoutOf. apply ok_any. intros [m x]. apply sound_simple; [apply sound_seqOfArr|]. destruct x; [|apply sound_none]. apply sound_some. apply sound_seqOfArr.
Qed.
Lemma sound_addPlus s : sound (addPlus s).
Proof. unfold addPlus. destruct (startsWithMinus s); apply sound_wrapS. Qed.
Lemma sound_simpleHex b : okP sound_layout (simpleHexLayout b).
Proof.
  unfold simpleHexLayout. apply (ok_bind _ _ _ _ (sound_wrap3 _ _ _)). intros m Hm.
  apply sound_simple; [exact Hm|]. apply sound_some, sound_addPlus.
Qed.
Lemma sound_double b : sound_form (doubleForm b).
Proof.
  intros p. cbn [doubleForm f_general f_scientific f_decimal f_hex]. split; [|split; [|split]].
  - unfold dbl_general. destruct (dbl_isZero b); [apply sound_simple; [exact I|apply sound_none]|apply sound_layoutOf].
  - unfold dbl_scientific. destruct (dbl_isZero b); [apply sound_simple; [exact I|apply sound_some, sound_wrapS]|apply sound_layoutOf].
  - apply sound_layoutOf.
  - unfold dbl_hex. destruct (negb (dbl_isFinite b) || dbl_isZero b || (p =? 0) || (13 <=? p)); [apply sound_simpleHex|].
    destruct (dbl_isInf _); [apply sound_simple; [apply sound_wrapS|apply sound_some, sound_wrapS]|].
    destruct (negb (dbl_getExponent b =? -1023)); [apply sound_simpleHex|].
    destruct (0 <=? _); [|apply ok_err]. destruct (jParseInt _) as [v|]; [|apply ok_err].
    apply (ok_bind _ _ _ _ (sound_wrap3 _ _ _)). intros m Hm. apply sound_simple; [exact Hm|]. apply sound_some, sound_addPlus.
Qed.
Lemma sound_insertDot s : okP sound (insertDot s).
Proof.
  unfold insertDot. apply ok_any. intros c. apply (ok_bind _ _ _ _ (sound_wrap3 _ _ _)). intros m Hm.
  apply ok_ok. apply sound_append; [apply sound_append; exact I|exact Hm].
Qed.
Lemma sound_scientific0 d : okP sound_layout (scientificLayout0 d).
Proof.
  unfold scientificLayout0. destruct (bd_s d =? 0).
  - destruct (1 <? _); [|apply sound_simple; [apply sound_wrapS|apply sound_some, sound_wrapS]].
    apply (ok_bind _ _ _ _ (sound_insertDot _)). intros m Hm. apply sound_simple; [exact Hm|apply sound_some, sound_wrapS].
  - apply (ok_bind sound); [destruct (1 <? _); [apply sound_insertDot|apply ok_ok, sound_wrapS]|].
    intros m Hm. apply sound_simple; [exact Hm|]. apply sound_some. destruct (negb _); [|apply sound_wrapS].
    apply sound_append; [|apply sound_wrapS]. destruct (Z.abs _ <? 10); [apply sound_append|]; exact I.
Qed.
Lemma sound_decimal0 d : okP sound_layout (decimalLayout0 d).
Proof.
  unfold decimalLayout0. destruct (bd_s d =? 0); [apply sound_simple; [apply sound_wrapS|apply sound_none]|].
  destruct (0 <=? _).
  - apply (ok_bind sound).
    + apply sound_zero_pad, sound_wrapS.
    + intros m Hm. apply sound_simple; [apply sound_prepend; [exact Hm|apply sound_wrapS]|apply sound_none].
  - destruct (_ <? _).
    + apply (ok_bind _ _ _ _ (sound_wrap3 _ _ _)). intros a Ha. apply (ok_bind _ _ _ _ (sound_wrap3 _ _ _)). intros b Hb.
      apply sound_simple; [|apply sound_none]. apply sound_append; [apply sound_append; [exact Ha|exact I]|exact Hb].
    + apply (ok_bind _ _ _ _ (sound_repeated _ _)). intros z Hz. apply sound_simple; [|apply sound_none].
      apply sound_append; [apply sound_wrapS|exact Hz].
Qed.
Lemma sound_bd_decimal v p : okP sound_layout (bd_decimal v p).
Proof. unfold bd_decimal. apply ok_any. intros w. apply sound_decimal0. Qed.
Lemma sound_bd_scientific v p : okP sound_layout (bd_scientific v p).
Proof. unfold bd_scientific. apply ok_any. intros w. apply sound_scientific0. Qed.
Lemma sound_bigdec d : sound_form (bigDecForm d).
Proof.
  intros p. cbn [bigDecForm f_general f_scientific f_decimal f_hex]. split; [|split; [|split]].
  - unfold bd_general. match goal with |- okP _ (if ?b then _ else _) => destruct b end; [apply sound_bd_decimal|apply sound_bd_scientific].
  - apply sound_bd_scientific.
  - apply sound_bd_decimal.
  - apply ok_err.
Qed.

(** ** arguments *)
Lemma sound_arg_intro J x : okP sound_form (t_asFloatForm x) -> okP sound (t_asSeq x) -> sound_arg J x.
Proof.
  intros Hf Hs sp c s.
  assert (F : forall f, (forall v, sound_form v -> okP sound (f v)) -> okP sound (withFloat x f)).
  { intros f K. apply (ok_bind _ _ _ _ Hf). exact K. }
  assert (N : forall f, (forall v, okP sound (f v)) -> okP sound (withInt x f)).
  { intros f K. apply ok_any. exact K. }
  revert s. change (okP sound (formatterFor J sp c x)).
  destruct sp; cbn [formatterFor]; try (apply sound_upperOf);
    try (apply N; intros v; first [apply sound_d|apply sound_unsigned]);
    try (apply F; intros v Hv; first [apply sound_f|apply sound_e|apply sound_g|apply sound_a]; exact Hv);
    try (apply ok_ok; exact I); try apply sound_p.
  - apply ok_any. intros v. apply sound_justify. exact I.
  - apply (ok_bind sound sound (t_asSeq x) (fmt_s c) Hs). intros t Ht. apply sound_s, Ht.
  - apply (ok_bind sound sound (t_asSeq x) (fmt_s c) Hs). intros t Ht. apply sound_s, Ht.
  - unfold fmt_t. apply ok_any. intros t. apply ok_any. intros [f u]. apply ok_any. intros z. apply sound_justify, sound_wrapS.
  - unfold fmt_t. apply ok_any. intros t. apply ok_any. intros [f u]. apply ok_any. intros z. apply sound_justify, sound_wrapS.
Qed.

Lemma sound_lazySeq t n : okP sound (lazySeq t n).
Proof.
  unfold lazySeq, s_lazy. apply (ok_bind sound_atom); [|intros a Ha; apply ok_ok; exact Ha].
  apply ok_any. intros _. destruct (n =? 0); [apply ok_ok; exact I|]. destruct (n =? 1).
  - apply ok_any. intros sb. apply ok_any. intros x. apply ok_ok. exact I.
  - apply ok_ok. exact I.
Qed.
Lemma sound_seqOfString r : okP sound (seqOfString r).
Proof. apply ok_any. intros t. apply ok_ok, sound_wrapS. Qed.
Lemma sound_null J : sound_arg J nullTraits.
Proof. apply sound_arg_intro; [apply ok_err|apply ok_ok, sound_wrapS]. Qed.
Lemma sound_value J v r : (forall q, v = VSeq q -> sound q) -> sound_arg J (traitsOf J v r).
Proof.
  intros H. destruct v; apply sound_arg_intro; cbn [traitsOf boolTraits charTraits byteTraits shortTraits intTraits longTraits
    floatTraits doubleTraits charSeqTraits bigTraits decTraits temporalTraits t_asFloatForm t_asSeq];
    try apply sound_seqOfString; try apply sound_lazySeq; try (apply ok_ok; apply sound_wrapS); try (apply ok_ok; exact I);
    try (apply ok_ok; first [apply sound_double|apply sound_bigdec]);
    try (apply ok_any; intros t; apply ok_any; intros u; apply ok_ok, sound_double).
  - apply ok_ok, H. reflexivity.
  - apply ok_any. intros u. apply ok_ok, sound_double.
  - destruct o; cbn [objTraits t_asFloatForm]; first [apply ok_err|apply ok_any; intros u; apply ok_ok, sound_double].
  - destruct o; cbn [objTraits t_asSeq]; apply sound_seqOfString.
Qed.
Lemma resolve_rest J c it c' it' : Forall (sound_arg J) it -> resolveCtx c it = Ok (c', it') -> Forall (sound_arg J) it'.
Proof.
  intros H E.
  assert (N : forall l w l', Forall (sound_arg J) l -> nextInt l = Ok (w, l') -> Forall (sound_arg J) l').
  { intros [|x l] w l' F K; cbn [nextInt] in K; [discriminate|]. destruct (t_asInt x); cbn [bind] in K; [|discriminate].
    inversion K. subst. inversion F. assumption. }
  unfold resolveCtx in E. destruct (isPrecedingWidth c).
  - destruct (nextInt it) as [[w l]|] eqn:E1; cbn [bind] in E; [|discriminate]. pose proof (N _ _ _ H E1) as H1.
    destruct (if 0 <=? w then setWidth c w else _) as [c1|]; cbn [bind] in E; [|discriminate].
    destruct (isPrecedingPrecision c1); [|inversion E; subst; exact H1].
    destruct (nextInt l) as [[p l2]|] eqn:E2; cbn [bind] in E; [|discriminate]. pose proof (N _ _ _ H1 E2) as H2.
    destruct (setPrecision c1 _); cbn [bind] in E; [|discriminate]. inversion E. subst. exact H2.
  - cbn [bind] in E. destruct (isPrecedingPrecision c); [|inversion E; subst; exact H].
    destruct (nextInt it) as [[p l2]|] eqn:E2; cbn [bind] in E; [|discriminate]. pose proof (N _ _ _ H E2) as H2.
    destruct (setPrecision c _); cbn [bind] in E; [|discriminate]. inversion E. subst. exact H2.
Qed.
Lemma appendOne_sound J a it s it' : Forall (sound_arg J) it -> appendOne J a it = Ok (s, it') -> sound s /\ Forall (sound_arg J) it'.
Proof.
  intros H E. destruct a as [t|sp c]; cbn [appendOne] in E.
  - inversion E. subst. split; [apply sound_wrapS|exact H].
  - destruct (resolveCtx c it) as [[c' l]|] eqn:E1; cbn [bind] in E; [|discriminate]. apply (resolve_rest J) in E1; [|exact H].
    destruct l as [|x l]; [discriminate|]. inversion E1 as [|? ? Hx Hl]. subst.
    destruct (formatterFor J sp c' x) as [q|] eqn:E2; cbn [bind] in E; [|discriminate]. inversion E. subst.
    split; [exact (Hx _ _ _ E2)|exact Hl].
Qed.

(** ** both targets *)
Lemma slice_whole (s : list Z) : slice s 0 (0 + zlen s) = s.
Proof. unfold slice. cbn [Z.to_nat skipn]. rewrite Z.sub_0_r, Z.add_0_l. unfold zlen. rewrite Nat2Z.id. apply firstn_all. Qed.

Lemma even_atom a sb : sound_atom a -> a_toSBZ a sb = a_toApp a sb.
Proof.
  intros H. destruct a as [|c n|s st n up|s st n up|act n]; cbn [a_toSBZ].
  - reflexivity.
  - cbn [a_toSB a_toApp]. destruct (n =? 0) eqn:E0; [apply Z.eqb_eq in E0; subst n; reflexivity|]. destruct (n <? THRESHOLD) eqn:E; [reflexivity|].
    symmetry. apply appendLoop_rep. apply Z.ltb_ge in E. unfold THRESHOLD in E. lia.
  - destruct H as (H1 & H2 & H3). cbn [a_toSB a_toApp]. destruct up.
    + rewrite appendLoop_upper, toUpperCaseArr_spec by lia. destruct (n <? THRESHOLD); reflexivity.
    + destruct ((st =? 0) && (n =? zlen s)) eqn:E; [|reflexivity]. apply andb_true_iff in E as [E1 E2]. apply Z.eqb_eq in E1, E2. subst. rewrite slice_whole. reflexivity.
  - destruct H as (H1 & H2 & H3). cbn [a_toSB a_toApp]. destruct up.
    + rewrite appendLoop_upper, toUpperCaseArr_spec by lia. destruct (n <? THRESHOLD); reflexivity.
    + rewrite appendLoop_plain by lia. reflexivity.
  - reflexivity.
Qed.
Lemma even_atoms l : Forall sound_atom l -> forall t, emitAtoms a_toSBZ l t = emitAtoms a_toApp l t.
Proof.
  intros H. induction H as [|a r Ha Hr IH]; intros t; cbn [emitAtoms]; [reflexivity|]. rewrite (even_atom a t Ha). destruct (a_toApp a t); [apply IH|reflexivity].
Qed.
Lemma even_seq s t : sound s -> emitSBZ s t = emitApp s t.
Proof.
  intros H. unfold emitSBZ, emitApp. pose proof (sound_iter s H) as Hi.
  destruct s; cbn [emitWith]; [apply even_atoms; constructor; [exact H|constructor]| |];
    (destruct (s_iter _) as [l|e]; [apply even_atoms; exact (Hi l eq_refl)|reflexivity]).
Qed.
Lemma even_run J ds : forall it t, Forall (sound_arg J) it -> run J emitSBZ ds it t = run J emitApp ds it t.
Proof.
  induction ds as [|a r IH]; intros it t H; cbn [run]; [reflexivity|].
  destruct (appendOne J a it) as [[s it']|e] eqn:E; [|reflexivity].
  destruct (appendOne_sound J a it s it' H E) as [Hs Hr]. rewrite (even_seq s t Hs).
  destruct (emitApp s t) as [o [e|]]; [reflexivity|]. apply IH. exact Hr.
Qed.

(** ** what the target held before, whatever the arguments *)
Definition appends (f : atom -> list Z -> res (list Z)) : Prop := forall a sb, f a sb = let* v := f a [] in Ok (sb ++ v).
Lemma toSBZ_appends : appends a_toSBZ.
Proof.
  intros a sb. destruct a as [|c n|s st n up|s st n up|act n]; cbn [a_toSBZ]; try (apply toSB_after; exact I).
  destruct (getCachedString act n); reflexivity.
Qed.
Lemma toApp_appends : appends a_toApp.
Proof.
  intros a sb. destruct a as [|c n|s st n up|s st n up|act n]; try (apply toApp_after; exact I).
  cbn [a_toApp]. destruct (getCachedString act n); reflexivity.
Qed.
Lemma emitAtoms_appends f l : appends f -> forall t, emitAtoms f l t = after t (emitAtoms f l []).
Proof.
  intros W. induction l as [|a r IH]; intros t; cbn [emitAtoms].
  - unfold after. cbn [fst snd]. rewrite app_nil_r. reflexivity.
  - rewrite (W a t). destruct (f a []) as [v|e]; cbn [bind].
    + rewrite (IH (t ++ v)), (IH v), after_after. reflexivity.
    + unfold after. cbn [fst snd]. rewrite app_nil_r. reflexivity.
Qed.
Lemma emitWith_appends f s t : appends f -> emitWith f s t = after t (emitWith f s []).
Proof.
  intros W. destruct s; cbn [emitWith]; [apply emitAtoms_appends; exact W| |];
    (destruct (s_iter _); [apply emitAtoms_appends; exact W|unfold after; cbn [fst snd]; rewrite app_nil_r; reflexivity]).
Qed.
Lemma run_appends J f ds : appends f -> forall it t, run J (emitWith f) ds it t = after t (run J (emitWith f) ds it []).
Proof.
  intros W. induction ds as [|a r IH]; intros it t; cbn [run].
  - unfold after. cbn [fst snd]. rewrite app_nil_r. reflexivity.
  - destruct (appendOne J a it) as [[s it']|e]; [|unfold after; cbn [fst snd]; rewrite app_nil_r; reflexivity].
    rewrite (emitWith_appends f s t W).
    destruct (emitWith f s []) as [o [e|]]; unfold after at 1; cbn [fst snd]; [reflexivity|].
    rewrite (IH it' (t ++ o)), (IH it' o), after_after. reflexivity.
Qed.
