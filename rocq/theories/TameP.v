(** What a call writes does not depend on, and does not disturb, what its target already holds. *)
From Verif Require Import Base Digits UtilsM SeqM ContextM CompilerM IntFormM FormatterM MathM DecimalM FPDecimalM DoubleM
  BigDecM RoundM TraitsM ImplM LoopSpec.

Definition okP {A} (P : A -> Prop) (r : res A) : Prop := forall x, r = Ok x -> P x.

Lemma ok_ok {A} (P : A -> Prop) x : P x -> okP P (Ok x).
Proof. intros H y E. inversion E. subst. exact H. Qed.
Lemma ok_err {A} (P : A -> Prop) e : okP P (Err e).
Proof. intros y E. discriminate. Qed.
Lemma ok_bind {A B} (P : A -> Prop) (Q : B -> Prop) r f :
  okP P r -> (forall x, P x -> okP Q (f x)) -> okP Q (bind r f).
Proof. intros H K y E. destruct r as [x|e]; cbn [bind] in E; [|discriminate]. exact (K x (H x eq_refl) y E). Qed.
Lemma ok_any {A B} (Q : B -> Prop) (r : res A) f : (forall x, okP Q (f x)) -> okP Q (bind r f).
Proof. intros K. apply (ok_bind (fun _ => True)); [intros ? ?; exact I|]. intros x _. apply K. Qed.

(** ** every operation on tame sequences gives tame sequences *)
Lemma tame_wrapS t : tame (wrapS t).
Proof. unfold wrapS, s_wrap. cbn [tame]. destruct (0 <? zlen t); [|exact I]. destruct t as [|c [|]]; exact I. Qed.
Lemma tame_chS c : tame (chS c).
Proof. exact I. Qed.
Lemma tame_wrap3 t a b : okP tame_atom (s_wrap3 t a b).
Proof.
  unfold s_wrap3. apply ok_any. intros _. destruct (a =? b); [apply ok_ok; exact I|].
  destruct (b =? a + 1); [|apply ok_ok; exact I]. apply ok_any. intros x. apply ok_ok. exact I.
Qed.
Lemma tame_repeated c n : okP tame (repeated c n).
Proof.
  unfold repeated, s_repeated. apply (ok_bind tame_atom).
  - apply ok_any. intros _. destruct (n =? 1); apply ok_ok; exact I.
  - intros a H. apply ok_ok. exact H.
Qed.
Lemma tame_concat l r : tame l -> tame r -> tame (s_concat l r).
Proof. intros Hl Hr. destruct l; cbn [s_concat concat0 tame] in *; tauto. Qed.
Lemma tame_append s x : tame s -> tame x -> tame (s_append s x).
Proof.
  intros Hs Hx. unfold s_append.
  assert (K : tame (if s_isEmpty x then s else s_concat s x)) by (destruct (s_isEmpty x); [exact Hs|apply tame_concat; assumption]).
  destruct s as [[| | | |]| |]; assumption.
Qed.
Lemma tame_prepend s x : tame s -> tame x -> tame (s_prepend s x).
Proof.
  intros Hs Hx. unfold s_prepend.
  assert (K : tame (if s_isEmpty x then s else s_concat x s)) by (destruct (s_isEmpty x); [exact Hs|apply tame_concat; assumption]).
  destruct s as [[| | | |]| |]; assumption.
Qed.

Lemma tame_descend n : forall st, tame n -> Forall tame st ->
  okP (fun p => tame_atom (fst p) /\ Forall tame (snd p)) (descend n st).
Proof.
  induction n as [a|l IHl r _ len cnt|ps len]; intros st Hn Hst; cbn [descend].
  - apply ok_ok. split; assumption.
  - destruct Hn as [H1 H2]. apply IHl; [exact H1|]. constructor; assumption.
  - destruct ps as [|p rest]; [apply ok_err|]. apply ok_ok. cbn [tame] in Hn. inversion Hn as [|? ? H1 H2]. subst.
    split; [exact H1|]. cbn [snd]. apply Forall_app. split; [|exact Hst]. clear - H2.
    induction H2; constructor; assumption.
Qed.
Lemma tame_drain f : forall st, Forall tame st -> okP (Forall tame_atom) (drain f st).
Proof.
  induction f as [|f IH]; intros [|n st] H; cbn [drain]; try (apply ok_ok; constructor); try apply ok_err.
  inversion H as [|? ? H1 H2]. subst. apply (ok_bind _ _ _ _ (tame_descend n st H1 H2)).
  intros [a st'] [K1 K2]. apply (ok_bind _ _ _ _ (IH _ K2)). intros rest K3. apply ok_ok. constructor; assumption.
Qed.
Lemma tame_iter s : tame s -> okP (Forall tame_atom) (s_iter s).
Proof.
  intros H. destruct s as [a|l r n k|ps n]; cbn [s_iter].
  - apply ok_ok. constructor; [exact H|constructor].
  - apply tame_drain. constructor; [exact H|constructor].
  - apply ok_ok. exact H.
Qed.

Lemma tame_asub a i j : okP tame_atom (a_sub a i j).
Proof.
  destruct a; cbn [a_sub].
  - destruct ((i =? 0) && (j =? 0)); [apply ok_ok; exact I|apply ok_err].
  - apply ok_any. intros _. destruct (i =? j); apply ok_ok; exact I.
  - apply ok_any. intros _. destruct (i =? j); [apply ok_ok; exact I|]. destruct (j =? i + 1); [|apply ok_ok; exact I].
    apply ok_any. intros x. apply ok_ok. exact I.
  - apply ok_any. intros _. destruct (i =? j); [apply ok_ok; exact I|]. destruct (j =? i + 1); [|apply ok_ok; exact I].
    apply ok_any. intros x. apply ok_ok. exact I.
  - apply ok_any. intros _. apply ok_any. intros v. apply tame_wrap3.
Qed.
Lemma tame_sub_loop l : forall i j buf, Forall tame_atom buf ->
  okP (fun p => Forall tame_atom (fst (fst p))) (sub_loop l i j buf).
Proof.
  induction l as [|a r IH]; intros i j buf H; cbn [sub_loop]; [apply ok_ok; exact H|].
  destruct (i <? a_len a); [|apply IH; exact H].
  destruct (j <=? a_len a); apply (ok_bind _ _ _ _ (tame_asub a _ _)); intros x Hx.
  - apply ok_ok. cbn [fst]. apply Forall_app. split; [exact H|]. constructor; [exact Hx|constructor].
  - apply IH. apply Forall_app. split; [exact H|]. constructor; [exact Hx|constructor].
Qed.
Lemma tame_sub s i j : tame s -> okP tame (s_sub s i j).
Proof.
  intros H. assert (K : okP tame
    (let* _ := checkPositionIndexes i j (s_len s) in
      if i =? j then Ok (Leaf AEmpty)
      else if (i =? 0) && (j =? s_len s) then Ok s
      else
        let* atoms := s_iter s in
        let* (buf, start', end') := sub_loop atoms i j [] in
        match buf with
        | [x] => Ok (Leaf x)
        | _ => Ok (Arr buf (wrap32 (end' - start')))
        end)).
  { apply ok_any. intros _. destruct (i =? j); [apply ok_ok; exact I|].
    destruct ((i =? 0) && (j =? s_len s)); [apply ok_ok; exact H|].
    apply (ok_bind _ _ _ _ (tame_iter s H)). intros atoms Ha.
    apply (ok_bind _ _ _ _ (tame_sub_loop atoms i j [] (Forall_nil _))). intros [[buf i'] j'] Hb. cbn [fst] in Hb.
    destruct buf as [|x [|y r]]; apply ok_ok; [exact Hb|inversion Hb; assumption|exact Hb]. }
  destruct s as [a| |]; [|exact K|exact K]. cbn [s_sub]. apply (ok_bind _ _ _ _ (tame_asub a i j)). intros x Hx. apply ok_ok. exact Hx.
Qed.
Lemma tame_aupper a : okP tame_atom (a_upper a).
Proof.
  destruct a; cbn [a_upper].
  - apply ok_ok. exact I.
  - apply ok_ok. cbn [a_upper0]. destruct (isLowerCase c); exact I.
  - apply ok_ok. cbn [a_upper0]. destruct up; exact I.
  - apply ok_ok. cbn [a_upper0]. destruct up; exact I.
  - apply ok_any. intros v. apply ok_ok. unfold s_wrap. destruct (0 <? zlen v); [|exact I].
    destruct v as [|c [|d r]]; cbn [a_upper0 s_ch]; try exact I. destruct (isLowerCase c); exact I.
Qed.
Lemma tame_mapM l : okP (Forall tame_atom) (mapM a_upper l).
Proof.
  induction l as [|a r IH]; cbn [mapM]; [apply ok_ok; constructor|].
  apply (ok_bind _ _ _ _ (tame_aupper a)). intros b Hb. apply (ok_bind _ _ _ _ IH). intros bs Hs. apply ok_ok. constructor; assumption.
Qed.
Lemma tame_upper s : okP tame (s_upper s).
Proof.
  destruct s as [a| |]; cbn [s_upper].
  - apply (ok_bind _ _ _ _ (tame_aupper a)). intros x Hx. apply ok_ok. exact Hx.
  - apply ok_any. intros atoms. apply (ok_bind _ _ _ _ (tame_mapM atoms)). intros x Hx. apply ok_ok. exact Hx.
  - apply ok_any. intros atoms. apply (ok_bind _ _ _ _ (tame_mapM atoms)). intros x Hx. apply ok_ok. exact Hx.
Qed.
Lemma tame_upperOf r : okP tame (upperOf r).
Proof. apply ok_any. intros s. apply tame_upper. Qed.

(** ** the formatter *)
Lemma tame_justify c s : tame s -> okP tame (spaceJustify c s).
Proof.
  intros H. unfold spaceJustify. destruct (s_len s <? width c); [|apply ok_ok; exact H].
  apply (ok_bind _ _ _ _ (tame_repeated _ _)). intros p Hp. apply ok_ok.
  destruct (hasFlag c LEFT_JUSTIFY); [apply tame_append|apply tame_prepend]; assumption.
Qed.
Lemma tame_sign c s n : tame s -> tame (sign c s n).
Proof.
  intros H. unfold sign. destruct n; [apply tame_prepend; [exact H|exact I]|].
  destruct (hasFlag c PLUS); [apply tame_prepend; [exact H|exact I]|].
  destruct (hasFlag c LEADING_SPACE); [apply tame_prepend; [exact H|exact I]|exact H].
Qed.
Lemma tame_zero_pad s (b : bool) n : tame s ->
  okP tame (if b then let* pad := repeated (ch "0") n in Ok (s_prepend s pad) else Ok s).
Proof.
  intros H. destruct b; [|apply ok_ok; exact H].
  apply (ok_bind _ _ _ _ (tame_repeated _ _)). intros p Hp. apply ok_ok. apply tame_prepend; assumption.
Qed.
Lemma tame_signJustify c s n : tame s -> okP tame (signAndJustify c s n).
Proof.
  intros H. unfold signAndJustify.
  destruct (negb (hasFlag c ZERO_PAD) || hasFlag c LEFT_JUSTIFY); [apply tame_justify, tame_sign, H|].
  apply (ok_bind _ _ _ _ (tame_zero_pad s _ _ H)). intros v Hv. apply ok_ok, tame_sign, Hv.
Qed.
Lemma tame_padDigits p s : tame s -> okP tame (padDigits p s).
Proof. exact (tame_zero_pad s _ _). Qed.

Lemma tame_d c v : okP tame (fmt_d c v).
Proof.
  unfold fmt_d. destruct ((i_signum v =? 0) && (c_prec c =? 0)).
  - apply tame_justify. destruct (hasFlag c PLUS); exact I.
  - apply ok_any. intros d. apply (ok_bind _ _ _ _ (tame_padDigits _ _ (tame_wrapS d))). intros s Hs. apply tame_justify, tame_sign, Hs.
Qed.
Lemma tame_unsigned c v f p : okP tame (formatUnsignedInteger c v f p).
Proof.
  unfold formatUnsignedInteger. destruct ((i_signum v =? 0) && (c_prec c =? 0)); [apply tame_justify; exact I|].
  apply ok_any. intros d. apply (ok_bind _ _ _ _ (tame_padDigits _ _ (tame_wrapS d))). intros s Hs. apply tame_justify.
  destruct (negb (i_signum v =? 0) && hasFlag c ALTERNATE); [apply tame_prepend; [exact Hs|apply tame_wrapS]|exact Hs].
Qed.

Definition tame_layout (l : layout) : Prop := tame (l_mant l) /\ forall x, l_exp l = Some x -> tame x.
Definition tame_form (v : floatform) : Prop :=
  forall p, okP tame_layout (f_general v p) /\ okP tame_layout (f_scientific v p) /\
    okP tame_layout (f_decimal v p) /\ okP tame_layout (f_hex v p).

Lemma tame_nan c v : okP tame (nanOrInfinity c v).
Proof.
  apply tame_justify. destruct (f_isNaN v); [apply tame_wrapS|]. destruct (f_signum v <? 0); [apply tame_wrapS|].
  destruct (hasFlag c PLUS); apply tame_wrapS.
Qed.
Lemma tame_fraction m p d : tame m -> okP tame (formatFractionalPart m p d).
Proof.
  intros H. unfold formatFractionalPart. apply ok_any. intros dot.
  destruct ((p =? 0) && (dot =? NOT_FOUND)).
  - apply ok_ok. destruct d; [apply tame_append; [exact H|exact I]|exact H].
  - destruct (p <=? (if 0 <=? dot then s_len m - (dot + 1) else 0)); [apply ok_ok; exact H|].
    apply (ok_bind _ _ _ _ (tame_repeated _ _)). intros z Hz. apply ok_ok. apply tame_append; [|exact Hz].
    destruct (dot <? 0); [apply tame_append; [exact H|exact I]|exact H].
Qed.
Lemma tame_nonNull x : (forall y, x = Some y -> tame y) -> okP tame (nonNull x).
Proof. intros H. destruct x as [y|]; [apply ok_ok; apply H; reflexivity|apply ok_err]. Qed.
Lemma tame_f c v : tame_form v -> okP tame (fmt_f c v).
Proof.
  intros H. unfold fmt_f. destruct (f_isNaN v || f_isInf v); [apply tame_nan|].
  destruct (H (precOr6 c)) as (_ & _ & K & _). apply (ok_bind _ _ _ _ K). intros l [Hm _].
  apply (ok_bind _ _ _ _ (tame_fraction _ _ _ Hm)). intros m Hm'. apply tame_signJustify, Hm'.
Qed.
Lemma tame_e c v : tame_form v -> okP tame (fmt_e c v).
Proof.
  intros H. unfold fmt_e. destruct (f_isNaN v || f_isInf v); [apply tame_nan|].
  destruct (H (precOr6 c)) as (_ & K & _). apply (ok_bind _ _ _ _ K). intros l [Hm Hx].
  apply (ok_bind _ _ _ _ (tame_fraction _ _ _ Hm)). intros m Hm'. apply (ok_bind _ _ _ _ (tame_nonNull _ Hx)). intros x Hx'.
  apply tame_signJustify. apply tame_append; [|exact Hx']. apply tame_append; [exact Hm'|exact I].
Qed.
Lemma tame_strip m : tame m -> okP tame (stripTrailingZeros m).
Proof.
  intros H. unfold stripTrailingZeros. apply ok_any. intros i. destruct (i =? NOT_FOUND); [apply ok_ok; exact H|].
  apply ok_any. intros k. apply tame_sub, H.
Qed.
Lemma tame_padPrec m p : tame m -> okP tame (padToPrecision m p).
Proof.
  intros H. unfold padToPrecision. apply ok_any. intros [n b]. apply ok_any. intros z. apply ok_any. intros d.
  assert (K : tame (if d =? -1 then s_append m (chS (ch ".")) else m)) by (destruct (d =? -1); [apply tame_append; [exact H|exact I]|exact H]).
  destruct (0 <? _); [|apply ok_ok; exact K].
  apply (ok_bind _ _ _ _ (tame_repeated _ _)). intros r Hr. apply ok_ok. apply tame_append; assumption.
Qed.
Lemma tame_g c v : tame_form v -> okP tame (fmt_g c v).
Proof.
  intros H. unfold fmt_g. destruct (f_isNaN v || f_isInf v); [apply tame_nan|].
  destruct (H (if isPrecisionSet c then if c_prec c =? 0 then 1 else c_prec c else 6)) as (K & _).
  apply (ok_bind _ _ _ _ K). intros l [Hm Hx]. apply (ok_bind tame).
  - destruct (l_exp l) as [x|] eqn:E.
    + unfold formatGScientific. apply (ok_bind tame).
      * destruct (negb (hasFlag c ALTERNATE)); [apply tame_strip, Hm|apply ok_ok, Hm].
      * intros m Hm'. apply ok_ok. apply tame_append; [|apply Hx; reflexivity]. apply tame_append; [exact Hm'|exact I].
    + unfold formatGDecimal. destruct (hasFlag c ALTERNATE); [apply tame_padPrec, Hm|apply tame_strip, Hm].
  - intros s Hs. apply tame_signJustify, Hs.
Qed.
Lemma tame_a c v : tame_form v -> okP tame (fmt_a c v).
Proof.
  intros H. unfold fmt_a. destruct (f_isNaN v || f_isInf v); [apply tame_nan|].
  destruct (H (if isPrecisionSet c then if c_prec c =? 0 then 1 else c_prec c else 13)) as (_ & _ & _ & K).
  apply (ok_bind _ _ _ _ K). intros l [Hm Hx]. apply (ok_bind tame).
  { destruct (isPrecisionSet c); [apply tame_fraction, Hm|apply ok_ok, Hm]. }
  intros m Hm'. apply (ok_bind _ _ _ _ (tame_nonNull _ Hx)). intros x Hx'.
  assert (T : tame (s_append (s_append m (chS (ch "p"))) x)) by (apply tame_append; [apply tame_append; [exact Hm'|exact I]|exact Hx']).
  destruct (hasFlag c ZERO_PAD && negb (hasFlag c LEFT_JUSTIFY)).
  - apply (ok_bind tame).
    + destruct (_ <? _); [|apply ok_ok, T]. apply (ok_bind _ _ _ _ (tame_repeated _ _)). intros r Hr. apply ok_ok. apply tame_append; assumption.
    + intros s Hs. apply ok_ok. apply tame_sign, tame_prepend; [exact Hs|apply tame_wrapS].
  - apply tame_justify, tame_sign, tame_prepend; [exact T|apply tame_wrapS].
Qed.
Lemma tame_s c s : tame s -> okP tame (fmt_s c s).
Proof.
  intros H. unfold fmt_s. apply (ok_bind tame).
  - destruct (isPrecisionSet c && (c_prec c <? s_len s)); [apply tame_sub, H|apply ok_ok, H].
  - intros t Ht. apply tame_justify, Ht.
Qed.
Lemma tame_p c r : okP tame (fmt_p c r).
Proof.
  destruct r; cbn [fmt_p]; [apply ok_err|apply tame_justify, tame_wrapS|].
  apply tame_justify, tame_prepend; [apply tame_prepend; [apply tame_wrapS|exact I]|apply tame_wrapS].
Qed.

(** ** the number forms *)
Lemma tame_simple m x : tame m -> (forall y, x = Some y -> tame y) -> okP tame_layout (Ok (mkLayout m x)).
Proof. intros Hm Hx. apply ok_ok. split; assumption. Qed.
Lemma tame_some s : tame s -> forall y, Some s = Some y -> tame y.
Proof. intros H y E. inversion E. subst. exact H. Qed.
Lemma tame_none : forall y, None = Some y -> tame y.
Proof. discriminate. Qed.
Lemma tame_layoutOf r : okP tame_layout (layoutOf r).
Proof.
  unfold layoutOf. apply ok_any. intros [m x]. apply tame_simple; [exact I|]. destruct x; [|apply tame_none]. apply tame_some. exact I.
Qed.
Lemma tame_addPlus s : tame (addPlus s).
Proof. unfold addPlus. destruct (startsWithMinus s); apply tame_wrapS. Qed.
Lemma tame_simpleHex b : okP tame_layout (simpleHexLayout b).
Proof.
  unfold simpleHexLayout. apply (ok_bind _ _ _ _ (tame_wrap3 _ _ _)). intros m Hm.
  apply tame_simple; [exact Hm|]. apply tame_some, tame_addPlus.
Qed.
Lemma tame_double b : tame_form (doubleForm b).
Proof.
  intros p. cbn [doubleForm f_general f_scientific f_decimal f_hex]. split; [|split; [|split]].
  - unfold dbl_general. destruct (dbl_isZero b); [apply tame_simple; [exact I|apply tame_none]|apply tame_layoutOf].
  - unfold dbl_scientific. destruct (dbl_isZero b); [apply tame_simple; [exact I|apply tame_some, tame_wrapS]|apply tame_layoutOf].
  - apply tame_layoutOf.
  - unfold dbl_hex. destruct (negb (dbl_isFinite b) || dbl_isZero b || (p =? 0) || (13 <=? p)); [apply tame_simpleHex|].
    destruct (dbl_isInf _); [apply tame_simple; [apply tame_wrapS|apply tame_some, tame_wrapS]|].
    destruct (negb (dbl_getExponent b =? -1023)); [apply tame_simpleHex|].
    destruct (0 <=? _); [|apply ok_err]. destruct (jParseInt _) as [v|]; [|apply ok_err].
    apply (ok_bind _ _ _ _ (tame_wrap3 _ _ _)). intros m Hm. apply tame_simple; [exact Hm|]. apply tame_some, tame_addPlus.
Qed.
Lemma tame_insertDot s : okP tame (insertDot s).
Proof.
  unfold insertDot. apply ok_any. intros c. apply (ok_bind _ _ _ _ (tame_wrap3 _ _ _)). intros m Hm.
  apply ok_ok. apply tame_append; [apply tame_append; exact I|exact Hm].
Qed.
Lemma tame_scientific0 d : okP tame_layout (scientificLayout0 d).
Proof.
  unfold scientificLayout0. destruct (bd_s d =? 0).
  - destruct (1 <? _); [|apply tame_simple; [apply tame_wrapS|apply tame_some, tame_wrapS]].
    apply (ok_bind _ _ _ _ (tame_insertDot _)). intros m Hm. apply tame_simple; [exact Hm|apply tame_some, tame_wrapS].
  - apply (ok_bind tame); [destruct (1 <? _); [apply tame_insertDot|apply ok_ok, tame_wrapS]|].
    intros m Hm. apply tame_simple; [exact Hm|]. apply tame_some. destruct (negb _); [|apply tame_wrapS].
    apply tame_append; [|apply tame_wrapS]. destruct (Z.abs _ <? 10); [apply tame_append|]; exact I.
Qed.
Lemma tame_decimal0 d : okP tame_layout (decimalLayout0 d).
Proof.
  unfold decimalLayout0. destruct (bd_s d =? 0); [apply tame_simple; [apply tame_wrapS|apply tame_none]|].
  destruct (0 <=? _).
  - apply (ok_bind tame).
    + apply tame_zero_pad, tame_wrapS.
    + intros m Hm. apply tame_simple; [apply tame_prepend; [exact Hm|apply tame_wrapS]|apply tame_none].
  - destruct (_ <? _).
    + apply (ok_bind _ _ _ _ (tame_wrap3 _ _ _)). intros a Ha. apply (ok_bind _ _ _ _ (tame_wrap3 _ _ _)). intros b Hb.
      apply tame_simple; [|apply tame_none]. apply tame_append; [apply tame_append; [exact Ha|exact I]|exact Hb].
    + apply (ok_bind _ _ _ _ (tame_repeated _ _)). intros z Hz. apply tame_simple; [|apply tame_none].
      apply tame_append; [apply tame_wrapS|exact Hz].
Qed.
Lemma tame_bd_decimal v p : okP tame_layout (bd_decimal v p).
Proof. unfold bd_decimal. apply ok_any. intros w. apply tame_decimal0. Qed.
Lemma tame_bd_scientific v p : okP tame_layout (bd_scientific v p).
Proof. unfold bd_scientific. apply ok_any. intros w. apply tame_scientific0. Qed.
Lemma tame_bigdec d : tame_form (bigDecForm d).
Proof.
  intros p. cbn [bigDecForm f_general f_scientific f_decimal f_hex]. split; [|split; [|split]].
  - unfold bd_general. match goal with |- okP _ (if ?b then _ else _) => destruct b end; [apply tame_bd_decimal|apply tame_bd_scientific].
  - apply tame_bd_scientific.
  - apply tame_bd_decimal.
  - apply ok_err.
Qed.

(** ** arguments *)
Lemma tame_arg_intro J x : okP tame_form (t_asFloatForm x) -> okP tame (t_asSeq x) -> tame_arg J x.
Proof.
  intros Hf Hs sp c s.
  assert (F : forall f, (forall v, tame_form v -> okP tame (f v)) -> okP tame (withFloat x f)).
  { intros f K. apply (ok_bind _ _ _ _ Hf). exact K. }
  assert (N : forall f, (forall v, okP tame (f v)) -> okP tame (withInt x f)).
  { intros f K. apply ok_any. exact K. }
  revert s. change (okP tame (formatterFor J sp c x)).
  destruct sp; cbn [formatterFor]; try apply tame_upperOf;
    try (apply N; intros v; first [apply tame_d|apply tame_unsigned]);
    try (apply F; intros v Hv; first [apply tame_f|apply tame_e|apply tame_g|apply tame_a]; exact Hv);
    try (apply ok_ok; exact I); try apply tame_p.
  - apply ok_any. intros v. apply tame_justify. exact I.
  - apply (ok_bind tame tame (t_asSeq x) (fmt_s c) Hs). intros t Ht. apply tame_s, Ht.
  - unfold fmt_t. apply ok_any. intros t. apply ok_any. intros [f u]. apply ok_any. intros z. apply tame_justify, tame_wrapS.
Qed.

Lemma tame_lazySeq t n : okP tame (lazySeq t n).
Proof.
  unfold lazySeq, s_lazy. apply (ok_bind tame_atom); [|intros a Ha; apply ok_ok; exact Ha].
  apply ok_any. intros _. destruct (n =? 0); [apply ok_ok; exact I|]. destruct (n =? 1).
  - apply ok_any. intros sb. apply ok_any. intros x. apply ok_ok. exact I.
  - apply ok_ok. intros sb. reflexivity.
Qed.
Lemma tame_seqOfString r : okP tame (seqOfString r).
Proof. apply ok_any. intros t. apply ok_ok, tame_wrapS. Qed.
Lemma tame_null J : tame_arg J nullTraits.
Proof. apply tame_arg_intro; [apply ok_err|apply ok_ok, tame_wrapS]. Qed.
Lemma tame_value J v r : (forall q, v = VSeq q -> tame q) -> tame_arg J (traitsOf J v r).
Proof.
  intros H. destruct v; apply tame_arg_intro; cbn [traitsOf boolTraits charTraits byteTraits shortTraits intTraits longTraits
    floatTraits doubleTraits charSeqTraits bigTraits decTraits temporalTraits t_asFloatForm t_asSeq];
    try apply tame_seqOfString; try apply tame_lazySeq; try (apply ok_ok; apply tame_wrapS); try (apply ok_ok; exact I);
    try (apply ok_ok; first [apply tame_double|apply tame_bigdec]);
    try (apply ok_any; intros t; apply ok_any; intros u; apply ok_ok, tame_double).
  - apply ok_ok, H. reflexivity.
  - apply ok_any. intros u. apply ok_ok, tame_double.
  - destruct o; cbn [objTraits t_asFloatForm]; first [apply ok_err|apply ok_any; intros u; apply ok_ok, tame_double].
  - destruct o; cbn [objTraits t_asSeq]; apply tame_seqOfString.
Qed.

(** ** writing *)
Lemma appendLoop_prefix f at_ : forall i e sb, appendLoop f at_ i e sb = let* v := appendLoop f at_ i e [] in Ok (sb ++ v).
Proof.
  induction f as [|f IH]; intros i e sb; cbn [appendLoop]; [cbn [bind]; rewrite app_nil_r; reflexivity|].
  destruct (i <? e); [|cbn [bind]; rewrite app_nil_r; reflexivity].
  destruct (at_ i) as [x|er]; cbn [bind]; [|reflexivity]. rewrite (IH (i + 1) e (sb ++ [x])), (IH (i + 1) e ([] ++ [x])).
  destruct (appendLoop f at_ (i + 1) e []); cbn [bind]; [|reflexivity]. cbn [app]. rewrite <- app_assoc. reflexivity.
Qed.
Definition writes_after (f : atom -> list Z -> res (list Z)) : Prop :=
  forall a sb, tame_atom a -> f a sb = let* v := f a [] in Ok (sb ++ v).
Lemma toSB_after : writes_after a_toSB.
Proof.
  intros a sb H. destruct a as [|c n|s st n up|s st n up|act n]; cbn [a_toSB].
  - cbn [bind]. rewrite app_nil_r. reflexivity.
  - destruct (n =? 0); [cbn [bind]; rewrite app_nil_r; reflexivity|].
    destruct (n <? THRESHOLD); [apply appendLoop_prefix|reflexivity].
  - destruct up; [destruct (n <? THRESHOLD); [apply appendLoop_prefix|reflexivity]|].
    destruct ((st =? 0) && (n =? zlen s)); reflexivity.
  - destruct up; [destruct (n <? THRESHOLD); [apply appendLoop_prefix|reflexivity]|]. reflexivity.
  - apply H.
Qed.
Lemma toApp_after : writes_after a_toApp.
Proof.
  intros a sb H. destruct a as [|c n|s st n up|s st n up|act n]; cbn [a_toApp].
  - cbn [bind]. rewrite app_nil_r. reflexivity.
  - apply appendLoop_prefix.
  - destruct up; [apply appendLoop_prefix|reflexivity].
  - destruct up; apply appendLoop_prefix.
  - destruct (getCachedString act n); reflexivity.
Qed.

Definition after (t : list Z) (o : outcome) : outcome := (t ++ fst o, snd o).
Lemma after_after t u o : after t (after u o) = after (t ++ u) o.
Proof. unfold after. cbn [fst snd]. rewrite app_assoc. reflexivity. Qed.

Lemma emitAtoms_after f l : writes_after f -> Forall tame_atom l -> forall t, emitAtoms f l t = after t (emitAtoms f l []).
Proof.
  intros W H. induction H as [|a r Ha Hr IH]; intros t; cbn [emitAtoms].
  - unfold after. cbn [fst snd]. rewrite app_nil_r. reflexivity.
  - rewrite (W a t Ha). destruct (f a []) as [v|e]; cbn [bind].
    + rewrite (IH (t ++ v)), (IH v), after_after. reflexivity.
    + unfold after. cbn [fst snd]. rewrite app_nil_r. reflexivity.
Qed.
Lemma emitWith_after f s t : writes_after f -> tame s -> emitWith f s t = after t (emitWith f s []).
Proof.
  intros W H.
  assert (K : (match s_iter s with Ok atoms => emitAtoms f atoms t | Err e => (t, Some e) end) =
              after t (match s_iter s with Ok atoms => emitAtoms f atoms [] | Err e => ([], Some e) end)).
  { destruct (s_iter s) as [l|e] eqn:E; [apply emitAtoms_after; [exact W|exact (tame_iter s H l E)]|].
    unfold after. cbn [fst snd]. rewrite app_nil_r. reflexivity. }
  destruct s; cbn [emitWith]; [|exact K|exact K]. apply emitAtoms_after; [exact W|]. constructor; [exact H|constructor].
Qed.

Lemma resolve_rest J c it c' it' : Forall (tame_arg J) it -> resolveCtx c it = Ok (c', it') -> Forall (tame_arg J) it'.
Proof.
  intros H E.
  assert (N : forall l w l', Forall (tame_arg J) l -> nextInt l = Ok (w, l') -> Forall (tame_arg J) l').
  { intros [|x l] w l' F K; cbn [nextInt] in K; [discriminate|]. destruct (t_asInt x); cbn [bind] in K; [|discriminate].
    inversion K. subst. inversion F. assumption. }
  unfold resolveCtx in E. destruct (isPrecedingWidth c).
  - destruct (nextInt it) as [[w l]|] eqn:E1; cbn [bind] in E; [|discriminate]. pose proof (N _ _ _ H E1) as H1.
    destruct (if 0 <=? w then setWidth c w else _) as [c1|]; cbn [bind] in E; [|discriminate].
    destruct (isPrecedingPrecision c1); [|inversion E; subst; exact H1].
    destruct (nextInt l) as [[p l2]|] eqn:E2; cbn [bind] in E; [|discriminate]. pose proof (N _ _ _ H1 E2) as H2.
    destruct (setPrecision c1 _); cbn [bind] in E; [|discriminate]. inversion E. subst. exact H2.
  - cbn [bind] in E. destruct (isPrecedingPrecision c); [|inversion E; subst; exact H].
    destruct (nextInt it) as [[p l2]|] eqn:E2; cbn [bind] in E; [|discriminate]. pose proof (N _ _ _ H E2) as H2.
    destruct (setPrecision c _); cbn [bind] in E; [|discriminate]. inversion E. subst. exact H2.
Qed.
Lemma appendOne_tame J a it s it' : Forall (tame_arg J) it -> appendOne J a it = Ok (s, it') -> tame s /\ Forall (tame_arg J) it'.
Proof.
  intros H E. destruct a as [t|sp c]; cbn [appendOne] in E.
  - inversion E. subst. split; [apply tame_wrapS|exact H].
  - destruct (resolveCtx c it) as [[c' l]|] eqn:E1; cbn [bind] in E; [|discriminate]. apply (resolve_rest J) in E1; [|exact H].
    destruct l as [|x l]; [discriminate|]. inversion E1 as [|? ? Hx Hl]. subst.
    destruct (formatterFor J sp c' x) as [q|] eqn:E2; cbn [bind] in E; [|discriminate]. inversion E. subst.
    split; [exact (Hx _ _ _ E2)|exact Hl].
Qed.
Lemma run_after J f ds : writes_after f -> forall it t, Forall (tame_arg J) it ->
  run J (emitWith f) ds it t = after t (run J (emitWith f) ds it []).
Proof.
  intros W. induction ds as [|a r IH]; intros it t H; cbn [run].
  - unfold after. cbn [fst snd]. rewrite app_nil_r. reflexivity.
  - destruct (appendOne J a it) as [[s it']|e] eqn:E; [|unfold after; cbn [fst snd]; rewrite app_nil_r; reflexivity].
    destruct (appendOne_tame J a it s it' H E) as [Hs Hr]. rewrite (emitWith_after f s t W Hs).
    destruct (emitWith f s []) as [o [e|]]; unfold after at 1; cbn [fst snd]; [reflexivity|].
    rewrite (IH it' (t ++ o) Hr), (IH it' o Hr), after_after. reflexivity.
Qed.
Lemma formatInto_after J sb ds args t : Forall (tame_arg J) args ->
  formatInto J sb ds args t = after t (formatInto J sb ds args []).
Proof.
  intros H. unfold formatInto. destruct sb; unfold emitSB, emitApp; apply run_after; try exact H; [exact toSB_after|exact toApp_after].
Qed.
