(** Proofs about the number of leaves. *)
From Verif Require Import Base Digits UtilsM SeqM SeqSpec SeqP ContextM CompilerM IntFormM FormatterM MathM DecimalM FPDecimalM DoubleM
  BigDecM RoundM TraitsM ImplM LoopSpec TameP SeqExpr SeqExprP CountM CountSpec.

Lemma size_nonneg s : 0 <= size s.
Proof. induction s; cbn [size]; [lia|lia|apply zlen_nonneg]. Qed.
Lemma wrap_idem x y : wrap32 (wrap32 x + wrap32 y) = wrap32 (x + y).
Proof. rewrite wrap32_add_l, wrap32_add_r. reflexivity. Qed.
Lemma count_is s : tallied s -> elementCount s = wrap32 (size s).
Proof.
  destruct s as [a|l r n k|ps n]; cbn [tallied elementCount size]; intros H; [reflexivity|apply H|].
  pose proof (zlen_nonneg ps). symmetry. apply wrap32_id. unfold is_int, int_min, int_max in *. lia.
Qed.

Lemma tallied_concat0 l r : tallied l -> tallied r -> tallied (concat0 l r).
Proof.
  intros Hl Hr. unfold concat0. cbn [tallied size]. split; [exact Hl|]. split; [exact Hr|].
  rewrite (count_is l Hl), (count_is r Hr). apply wrap_idem.
Qed.
Lemma concat_tallied l r : tallied l -> tallied r -> tallied (s_concat l r) /\ size (s_concat l r) = size l + size r.
Proof.
  intros Hl Hr. destruct l as [a|ll lr n k|ps n]; cbn [s_concat].
  - split; [apply tallied_concat0; assumption|reflexivity].
  - destruct Hl as (H1 & H2 & _). split; [apply tallied_concat0; [exact H1|apply tallied_concat0; assumption]|].
    unfold concat0. cbn [size]. lia.
  - split; [apply tallied_concat0; assumption|reflexivity].
Qed.
Lemma append_tallied s x : tallied s -> tallied x -> tallied (s_append s x) /\ size (s_append s x) <= size s + size x.
Proof.
  intros Hs Hx. pose proof (size_nonneg s). pose proof (size_nonneg x).
  assert (K : tallied (if s_isEmpty x then s else s_concat s x) /\ size (if s_isEmpty x then s else s_concat s x) <= size s + size x).
  { destruct (s_isEmpty x); [split; [exact Hs|lia]|]. destruct (concat_tallied s x Hs Hx) as [A ->]. split; [exact A|lia]. }
  unfold s_append. destruct s as [[| | | |]| |]; try exact K. split; [exact Hx|lia].
Qed.
Lemma prepend_tallied s x : tallied s -> tallied x -> tallied (s_prepend s x) /\ size (s_prepend s x) <= size s + size x.
Proof.
  intros Hs Hx. pose proof (size_nonneg s). pose proof (size_nonneg x).
  assert (K : tallied (if s_isEmpty x then s else s_concat x s) /\ size (if s_isEmpty x then s else s_concat x s) <= size s + size x).
  { destruct (s_isEmpty x); [split; [exact Hs|lia]|]. destruct (concat_tallied x s Hx Hs) as [A ->]. split; [exact A|lia]. }
  unfold s_prepend. destruct s as [[| | | |]| |]; try exact K. split; [exact Hx|lia].
Qed.

Lemma nleaves_size s : Z.of_nat (nleaves s) = size s.
Proof. induction s; cbn [nleaves size]; unfold zlen; lia. Qed.
Lemma drain_size f : forall st l, drain f st = Ok l -> zlen l <= Z.of_nat f.
Proof.
  induction f as [|f IH]; intros [|n st] l E; cbn [drain] in E; try (injection E as <-; unfold zlen; cbn; lia); [discriminate|].
  destruct (it_next (n :: st)) as [[a st']|]; cbn [bind] in E; [|discriminate].
  destruct (drain f st') as [r|] eqn:Er; cbn [bind] in E; [|discriminate]. injection E as <-.
  apply IH in Er. rewrite zlen_cons. lia.
Qed.
Lemma iter_size s l : s_iter s = Ok l -> zlen l <= size s.
Proof.
  destruct s as [a|x y n k|ps n]; cbn [s_iter]; intros E.
  - injection E as <-. cbn. lia.
  - apply drain_size in E. rewrite nleaves_size in E. exact E.
  - injection E as <-. cbn [size]. lia.
Qed.
Lemma sub_loop_size l : forall i j buf b i' j', sub_loop l i j buf = Ok (b, i', j') -> zlen b <= zlen buf + zlen l.
Proof.
  induction l as [|a r IH]; intros i j buf b i' j' E; cbn [sub_loop] in E.
  - injection E as <- _ _. unfold zlen. cbn. lia.
  - rewrite zlen_cons. pose proof (zlen_nonneg r).
    destruct (i <? a_len a); [|apply IH in E; lia].
    destruct (j <=? a_len a); match type of E with bind ?x _ = _ => destruct x end; cbn [bind] in E; try discriminate.
    + injection E as <- _ _. rewrite zlen_app. change (zlen [a0]) with 1. lia.
    + apply IH in E. rewrite zlen_app in E. change (zlen [a0]) with 1 in E. lia.
Qed.

(** at most [k] leaves, each [Concat] knowing how many *)
Definition few (k : Z) (s : seq) : Prop := tallied s /\ size s <= k.
Lemma few_mono j k s : few j s -> j <= k -> few k s.
Proof. intros [A B] H. split; [exact A|lia]. Qed.
Lemma few_leaf k a : 1 <= k -> few k (Leaf a).
Proof. intros H. split; [exact I|exact H]. Qed.
Lemma few_okmono j k r : okP (few j) r -> j <= k -> okP (few k) r.
Proof. intros A B x E. exact (few_mono _ _ _ (A x E) B). Qed.
Lemma few_append j k s x : few j s -> few k x -> few (j + k) (s_append s x).
Proof. intros [A B] [C D]. destruct (append_tallied s x A C) as [E F]. split; [exact E|lia]. Qed.
Lemma few_prepend j k s x : few j s -> few k x -> few (j + k) (s_prepend s x).
Proof. intros [A B] [C D]. destruct (prepend_tallied s x A C) as [E F]. split; [exact E|lia]. Qed.
Lemma few_repeated c n : okP (few 1) (repeated c n).
Proof. unfold repeated. apply (ok_bind (fun _ => True)); [intros ? _; exact I|]. intros a _. apply ok_ok, few_leaf. lia. Qed.
Lemma few_wrap3 t a b (f : atom -> seq) : (forall x, f x = Leaf x) -> okP (few 1) (let* x := s_wrap3 t a b in Ok (f x)).
Proof. intros H. apply ok_any. intros x. apply ok_ok. rewrite H. apply few_leaf. lia. Qed.
Lemma few_sub k s i j : 1 <= k -> k <= int_max -> few k s -> okP (few k) (s_sub s i j).
Proof.
  intros Hk Hm [A B]. assert (K : okP (few k)
    (let* _ := checkPositionIndexes i j (s_len s) in
      if i =? j then Ok (Leaf AEmpty)
      else if (i =? 0) && (j =? s_len s) then Ok s
      else
        let* atoms := s_iter s in
        let* (buf, start', end') := sub_loop atoms i j [] in
        match buf with
        | [x] => Ok (Leaf x)
        | _ => Ok (Arr buf (wrap32 (end' - start')))
        end)).
  { apply ok_any. intros _. destruct (i =? j); [apply ok_ok, few_leaf; lia|].
    destruct ((i =? 0) && (j =? s_len s)); [apply ok_ok; split; assumption|].
    apply (ok_bind (fun l => zlen l <= k)); [intros l E; apply iter_size in E; lia|]. intros l Hl.
    apply (ok_bind (fun p => zlen (fst (fst p)) <= k)).
    - intros [[b i'] j'] E. apply sub_loop_size in E. change (zlen (@nil atom)) with 0 in E. cbn [fst]. lia.
    - intros [[b i'] j'] Hb. cbn [fst] in Hb. destruct b as [|x [|y r]]; apply ok_ok; [split; [cbn [tallied]; lia|exact Hb]|apply few_leaf; lia|].
      split; [cbn [tallied]; lia|exact Hb]. }
  destruct s as [a| |]; [|exact K|exact K]. cbn [s_sub]. apply ok_any. intros x. apply ok_ok, few_leaf. lia.
Qed.

(** ** the formatter *)
Ltac leaf := apply few_leaf; lia.
Lemma few_justify k c s : few k s -> okP (few (k + 1)) (spaceJustify c s).
Proof.
  intros H. unfold spaceJustify. destruct (s_len s <? width c); [|apply ok_ok; apply (few_mono k); [exact H|lia]].
  apply (ok_bind _ _ _ _ (few_repeated _ _)). intros p Hp. apply ok_ok.
  destruct (hasFlag c LEFT_JUSTIFY); [apply few_append|apply few_prepend]; assumption.
Qed.
Lemma few_sign k c s n : few k s -> few (k + 1) (sign c s n).
Proof.
  intros H. unfold sign. destruct n; [apply few_prepend; [exact H|leaf]|].
  destruct (hasFlag c PLUS); [apply few_prepend; [exact H|leaf]|].
  destruct (hasFlag c LEADING_SPACE); [apply few_prepend; [exact H|leaf]|]. apply (few_mono k); [exact H|lia].
Qed.
Lemma few_zero_pad k s (b : bool) n : few k s ->
  okP (few (k + 1)) (if b then let* pad := repeated (ch "0") n in Ok (s_prepend s pad) else Ok s).
Proof.
  intros H. destruct b; [|apply ok_ok; apply (few_mono k); [exact H|lia]].
  apply (ok_bind _ _ _ _ (few_repeated _ _)). intros p Hp. apply ok_ok. apply few_prepend; assumption.
Qed.
Lemma few_signJustify k c s n : few k s -> okP (few (k + 2)) (signAndJustify c s n).
Proof.
  intros H. unfold signAndJustify.
  destruct (negb (hasFlag c ZERO_PAD) || hasFlag c LEFT_JUSTIFY).
  - apply (few_okmono (k + 1 + 1)); [|lia]. apply few_justify, few_sign, H.
  - apply (ok_bind _ _ _ _ (few_zero_pad k s _ _ H)). intros v Hv. apply ok_ok. apply (few_mono (k + 1 + 1)); [|lia]. apply few_sign, Hv.
Qed.
Lemma few_wrapS t : few 1 (wrapS t).
Proof. leaf. Qed.
Lemma few_d c v : okP (few 4) (fmt_d c v).
Proof.
  unfold fmt_d. destruct ((i_signum v =? 0) && (c_prec c =? 0)).
  - apply (few_okmono (1 + 1)); [|lia]. apply few_justify. destruct (hasFlag c PLUS); leaf.
  - apply ok_any. intros d. apply (ok_bind _ _ _ _ (few_zero_pad 1 _ _ _ (few_wrapS d))). intros s Hs. apply (few_okmono (1 + 1 + 1 + 1)); [|lia].
    apply few_justify, few_sign, Hs.
Qed.
Lemma few_unsigned c v f p : okP (few 4) (formatUnsignedInteger c v f p).
Proof.
  unfold formatUnsignedInteger. destruct ((i_signum v =? 0) && (c_prec c =? 0)).
  - apply (few_okmono (1 + 1)); [|lia]. apply few_justify. leaf.
  - apply ok_any. intros d. apply (ok_bind _ _ _ _ (few_zero_pad 1 _ _ _ (few_wrapS d))). intros s Hs. apply (few_okmono (3 + 1)); [|lia]. apply few_justify.
    destruct (negb (i_signum v =? 0) && hasFlag c ALTERNATE); [|apply (few_mono (1 + 1)); [exact Hs|lia]].
    apply (few_mono (1 + 1 + 1)); [|lia]. apply few_prepend; [exact Hs|leaf].
Qed.

Definition few_layout (l : layout) : Prop := few 3 (l_mant l) /\ forall x, l_exp l = Some x -> few 3 x.
Definition few_form (v : floatform) : Prop :=
  forall p, okP few_layout (f_general v p) /\ okP few_layout (f_scientific v p) /\
    okP few_layout (f_decimal v p) /\ okP few_layout (f_hex v p).
Lemma few_nan c v : okP (few 2) (nanOrInfinity c v).
Proof.
  apply (few_okmono (1 + 1)); [|lia]. apply few_justify. destruct (f_isNaN v); [leaf|]. destruct (f_signum v <? 0); [leaf|].
  destruct (hasFlag c PLUS); leaf.
Qed.
Lemma few_fraction k m p d : few k m -> okP (few (k + 2)) (formatFractionalPart m p d).
Proof.
  intros H. unfold formatFractionalPart. apply ok_any. intros dot.
  destruct ((p =? 0) && (dot =? NOT_FOUND)).
  - apply ok_ok. destruct d; [|apply (few_mono k); [exact H|lia]]. apply (few_mono (k + 1)); [|lia]. apply few_append; [exact H|leaf].
  - destruct (p <=? (if 0 <=? dot then s_len m - (dot + 1) else 0)); [apply ok_ok; apply (few_mono k); [exact H|lia]|].
    apply (ok_bind _ _ _ _ (few_repeated _ _)). intros z Hz. apply ok_ok. apply (few_mono (k + 1 + 1)); [|lia]. apply few_append; [|exact Hz].
    destruct (dot <? 0); [apply few_append; [exact H|leaf]|apply (few_mono k); [exact H|lia]].
Qed.
Lemma few_nonNull k x : (forall y, x = Some y -> few k y) -> okP (few k) (nonNull x).
Proof. intros H. destruct x as [y|]; [apply ok_ok; apply H; reflexivity|apply ok_err]. Qed.
Lemma few_f c v : few_form v -> okP (few 20) (fmt_f c v).
Proof.
  intros H. unfold fmt_f. destruct (f_isNaN v || f_isInf v); [apply (few_okmono 2); [apply few_nan|lia]|].
  destruct (H (precOr6 c)) as (_ & _ & K & _). apply (ok_bind _ _ _ _ K). intros l [Hm _].
  apply (ok_bind _ _ _ _ (few_fraction 3 _ _ _ Hm)). intros m Hm'. apply (few_okmono (3 + 2 + 2)); [|lia]. apply few_signJustify, Hm'.
Qed.
Lemma few_e c v : few_form v -> okP (few 20) (fmt_e c v).
Proof.
  intros H. unfold fmt_e. destruct (f_isNaN v || f_isInf v); [apply (few_okmono 2); [apply few_nan|lia]|].
  destruct (H (precOr6 c)) as (_ & K & _). apply (ok_bind _ _ _ _ K). intros l [Hm Hx].
  apply (ok_bind _ _ _ _ (few_fraction 3 _ _ _ Hm)). intros m Hm'. apply (ok_bind _ _ _ _ (few_nonNull 3 _ Hx)). intros x Hx'.
  apply (few_okmono (3 + 2 + 1 + 3 + 2)); [|lia]. apply few_signJustify. apply few_append; [|exact Hx']. apply few_append; [exact Hm'|leaf].
Qed.
Lemma few_strip k m : 1 <= k -> k <= int_max -> few k m -> okP (few k) (stripTrailingZeros m).
Proof.
  intros H1 H2 H. unfold stripTrailingZeros. apply ok_any. intros i. destruct (i =? NOT_FOUND); [apply ok_ok; exact H|].
  apply ok_any. intros z. apply few_sub; assumption.
Qed.
Lemma few_padPrec k m p : few k m -> okP (few (k + 2)) (padToPrecision m p).
Proof.
  intros H. unfold padToPrecision. apply ok_any. intros [n b]. apply ok_any. intros z. apply ok_any. intros d.
  assert (K : few (k + 1) (if d =? -1 then s_append m (chS (ch ".")) else m))
    by (destruct (d =? -1); [apply few_append; [exact H|leaf]|apply (few_mono k); [exact H|lia]]).
  destruct (0 <? _); [|apply ok_ok; apply (few_mono (k + 1)); [exact K|lia]].
  apply (ok_bind _ _ _ _ (few_repeated _ _)). intros r Hr. apply ok_ok. apply (few_mono (k + 1 + 1)); [|lia]. apply few_append; assumption.
Qed.
Lemma few_g c v : few_form v -> okP (few 20) (fmt_g c v).
Proof.
  intros H. unfold fmt_g. destruct (f_isNaN v || f_isInf v); [apply (few_okmono 2); [apply few_nan|lia]|].
  destruct (H (if isPrecisionSet c then if c_prec c =? 0 then 1 else c_prec c else 6)) as (K & _).
  apply (ok_bind _ _ _ _ K). intros l [Hm Hx]. apply (ok_bind (few 10)).
  - destruct (l_exp l) as [x|] eqn:E.
    + unfold formatGScientific. apply (ok_bind (few 3)).
      * destruct (negb (hasFlag c ALTERNATE)); [apply few_strip; [lia|unfold int_max; lia|exact Hm]|apply ok_ok, Hm].
      * intros m Hm'. apply ok_ok. apply (few_mono (3 + 1 + 3)); [|lia]. apply few_append; [|apply Hx; reflexivity]. apply few_append; [exact Hm'|leaf].
    + unfold formatGDecimal. destruct (hasFlag c ALTERNATE); [apply (few_okmono (3 + 2)); [apply few_padPrec, Hm|lia]|].
      apply (few_okmono 3); [|lia]. apply few_strip; [lia|unfold int_max; lia|exact Hm].
  - intros s Hs. apply (few_okmono (10 + 2)); [|lia]. apply few_signJustify, Hs.
Qed.
Lemma few_a c v : few_form v -> okP (few 20) (fmt_a c v).
Proof.
  intros H. unfold fmt_a. destruct (f_isNaN v || f_isInf v); [apply (few_okmono 2); [apply few_nan|lia]|].
  destruct (H (if isPrecisionSet c then if c_prec c =? 0 then 1 else c_prec c else 13)) as (_ & _ & _ & K).
  apply (ok_bind _ _ _ _ K). intros l [Hm Hx]. apply (ok_bind (few (3 + 2))).
  { destruct (isPrecisionSet c); [apply few_fraction, Hm|apply ok_ok; apply (few_mono 3); [exact Hm|lia]]. }
  intros m Hm'. apply (ok_bind _ _ _ _ (few_nonNull 3 _ Hx)). intros x Hx'.
  assert (T : few (3 + 2 + 1 + 3) (s_append (s_append m (chS (ch "p"))) x)) by (apply few_append; [apply few_append; [exact Hm'|leaf]|exact Hx']).
  destruct (hasFlag c ZERO_PAD && negb (hasFlag c LEFT_JUSTIFY)).
  - apply (ok_bind (few 10)).
    + destruct (_ <? _); [|apply ok_ok; apply (few_mono (3 + 2 + 1 + 3)); [exact T|lia]]. apply (ok_bind _ _ _ _ (few_repeated _ _)). intros r Hr. apply ok_ok.
      apply (few_mono (1 + (3 + 2 + 1 + 3))); [|lia]. apply few_append; assumption.
    + intros s Hs. apply ok_ok. apply (few_mono (10 + 1 + 1)); [|lia]. apply few_sign, few_prepend; [exact Hs|leaf].
  - apply (few_okmono (3 + 2 + 1 + 3 + 1 + 1 + 1)); [|lia]. apply few_justify, few_sign, few_prepend; [exact T|leaf].
Qed.
Lemma few_s k c s : 1 <= k -> k <= int_max -> few k s -> okP (few (k + 1)) (fmt_s c s).
Proof.
  intros H1 H2 H. unfold fmt_s. apply (ok_bind (few k)).
  - destruct (isPrecisionSet c && (c_prec c <? s_len s)); [apply few_sub; assumption|apply ok_ok, H].
  - intros t Ht. apply few_justify, Ht.
Qed.

(** ** the number forms *)
Lemma few_simple m x : few 3 m -> (forall y, x = Some y -> few 3 y) -> okP few_layout (Ok (mkLayout m x)).
Proof. intros Hm Hx. apply ok_ok. split; assumption. Qed.
Lemma few_some s : few 3 s -> forall y, Some s = Some y -> few 3 y.
Proof. intros H y E. inversion E. subst. exact H. Qed.
Lemma few_none : forall y, None = Some y -> few 3 y.
Proof. discriminate. Qed.
Lemma few_layoutOf r : okP few_layout (layoutOf r).
Proof.
  unfold layoutOf. apply ok_any. intros [m x]. apply few_simple; [leaf|]. destruct x; [|apply few_none]. apply few_some. leaf.
Qed.
Lemma few_addPlus s : few 3 (addPlus s).
Proof. unfold addPlus. destruct (startsWithMinus s); leaf. Qed.
Lemma few_simpleHex b : okP few_layout (simpleHexLayout b).
Proof.
  unfold simpleHexLayout. apply ok_any. intros m.
  apply few_simple; [leaf|]. apply few_some, few_addPlus.
Qed.
Lemma few_double b : few_form (doubleForm b).
Proof.
  intros p. cbn [doubleForm f_general f_scientific f_decimal f_hex]. split; [|split; [|split]].
  - unfold dbl_general. destruct (dbl_isZero b); [apply few_simple; [leaf|apply few_none]|apply few_layoutOf].
  - unfold dbl_scientific. destruct (dbl_isZero b); [apply few_simple; [leaf|apply few_some; leaf]|apply few_layoutOf].
  - apply few_layoutOf.
  - unfold dbl_hex. destruct (negb (dbl_isFinite b) || dbl_isZero b || (p =? 0) || (13 <=? p)); [apply few_simpleHex|].
    destruct (dbl_isInf _); [apply few_simple; [leaf|apply few_some; leaf]|].
    destruct (negb (dbl_getExponent b =? -1023)); [apply few_simpleHex|].
    destruct (0 <=? _); [|apply ok_err]. destruct (jParseInt _) as [v|]; [|apply ok_err].
    apply ok_any. intros m. apply few_simple; [leaf|]. apply few_some, few_addPlus.
Qed.
Lemma few_insertDot s : okP (few 3) (insertDot s).
Proof.
  unfold insertDot. apply ok_any. intros c. apply ok_any. intros m.
  apply ok_ok. apply (few_append (1 + 1) 1); [apply few_append|]; leaf.
Qed.
Lemma few_scientific0 d : okP few_layout (scientificLayout0 d).
Proof.
  unfold scientificLayout0. destruct (bd_s d =? 0).
  - destruct (1 <? _); [|apply few_simple; [leaf|apply few_some; leaf]].
    apply (ok_bind _ _ _ _ (few_insertDot _)). intros m Hm. apply few_simple; [exact Hm|apply few_some; leaf].
  - apply (ok_bind (few 3)); [destruct (1 <? _); [apply few_insertDot|apply ok_ok; leaf]|].
    intros m Hm. apply few_simple; [exact Hm|]. apply few_some. destruct (negb _); [|leaf].
    apply (few_append (1 + 1) 1); [|leaf]. destruct (Z.abs _ <? 10); [apply few_append; leaf|leaf].
Qed.
Lemma few_decimal0 d : okP few_layout (decimalLayout0 d).
Proof.
  unfold decimalLayout0. destruct (bd_s d =? 0); [apply few_simple; [leaf|apply few_none]|].
  destruct (0 <=? _).
  - apply (ok_bind (few (1 + 1))).
    + apply few_zero_pad. leaf.
    + intros m Hm. apply few_simple; [apply (few_prepend (1 + 1) 1); [exact Hm|leaf]|apply few_none].
  - destruct (_ <? _).
    + apply ok_any. intros a. apply ok_any. intros b.
      apply few_simple; [|apply few_none]. apply (few_append (1 + 1) 1); [apply few_append; leaf|leaf].
    + apply (ok_bind _ _ _ _ (few_repeated _ _)). intros z Hz. apply few_simple; [|apply few_none].
      apply (few_mono (1 + 1)); [|lia]. apply few_append; [leaf|exact Hz].
Qed.
Lemma few_bd_decimal v p : okP few_layout (bd_decimal v p).
Proof. unfold bd_decimal. apply ok_any. intros w. apply few_decimal0. Qed.
Lemma few_bd_scientific v p : okP few_layout (bd_scientific v p).
Proof. unfold bd_scientific. apply ok_any. intros w. apply few_scientific0. Qed.
Lemma few_bigdec d : few_form (bigDecForm d).
Proof.
  intros p. cbn [bigDecForm f_general f_scientific f_decimal f_hex]. split; [|split; [|split]].
  - unfold bd_general. match goal with |- okP _ (if ?b then _ else _) => destruct b end; [apply few_bd_decimal|apply few_bd_scientific].
  - apply few_bd_scientific.
  - apply few_bd_decimal.
  - apply ok_err.
Qed.

(** ** arguments *)
Definition few_arg (J : jdk) (x : traits) : Prop :=
  forall sp l c, lower sp = Some l -> okP (few int_max) (formatterFor J l c x).
Lemma few_arg_intro J x : okP few_form (t_asFloatForm x) -> okP (few (int_max - 1)) (t_asSeq x) -> few_arg J x.
Proof.
  intros Hf Hs sp l c E.
  assert (F : forall f, (forall v, few_form v -> okP (few 20) (f v)) -> okP (few int_max) (withFloat x f)).
  { intros f K. apply (few_okmono 20); [|unfold int_max; lia]. apply (ok_bind _ _ _ _ Hf). exact K. }
  destruct sp; cbn [lower] in E; try discriminate E; injection E as <-; cbn [formatterFor]; try (apply F; intros v Hv; first [apply few_f|apply few_e|apply few_g|apply few_a]; exact Hv).
  - apply ok_any. intros v. apply (few_okmono 4); [apply few_unsigned|unfold int_max; lia].
  - apply (ok_bind (few (int_max - 1)) _ (t_asSeq x) (fmt_s c) Hs). intros t Ht. apply (few_okmono (int_max - 1 + 1)); [|lia].
    apply few_s; [unfold int_max; lia|lia|exact Ht].
  - unfold fmt_t. apply ok_any. intros t. apply ok_any. intros [f u]. apply ok_any. intros z. apply (few_okmono (1 + 1)); [apply few_justify; leaf|unfold int_max; lia].
Qed.

Lemma few_string r : okP (few (int_max - 1)) (seqOfString r).
Proof. apply ok_any. intros t. apply ok_ok. apply few_leaf. unfold int_max. lia. Qed.
Lemma few_lazySeq t n : okP (few (int_max - 1)) (lazySeq t n).
Proof. unfold lazySeq. apply ok_any. intros a. apply ok_ok, few_leaf. unfold int_max. lia. Qed.
Lemma few_value J v r : moderate (Some (v, r)) -> few_arg J (traitsOf J v r).
Proof.
  assert (L : forall a, few (int_max - 1) (Leaf a)) by (intros a; apply few_leaf; unfold int_max; lia).
  intros H. destruct v; apply few_arg_intro; cbn [traitsOf boolTraits charTraits byteTraits shortTraits intTraits longTraits
    floatTraits doubleTraits charSeqTraits bigTraits decTraits temporalTraits t_asFloatForm t_asSeq];
    try apply few_string; try apply few_lazySeq; try (apply ok_ok; apply L);
    try (apply ok_ok; first [apply few_double|apply few_bigdec]);
    try (apply ok_any; intros t; apply ok_any; intros u; apply ok_ok, few_double).
  - apply ok_ok. destruct H as (A & B & _). split; [exact A|lia].
  - apply ok_any. intros u. apply ok_ok, few_double.
  - destruct o; cbn [objTraits t_asFloatForm]; first [apply ok_err|apply ok_any; intros u; apply ok_ok, few_double].
  - destruct o; cbn [objTraits t_asSeq]; apply few_string.
Qed.
Lemma few_loose J a : moderate a -> few_arg J (loose J a).
Proof.
  intros H. destruct a as [[v r]|]; [apply few_value; exact H|]. cbn [loose].
  apply few_arg_intro; [apply ok_err|apply ok_ok, few_leaf; unfold int_max; lia].
Qed.
Lemma strict_is J a : moderate a -> strict J a = loose J a.
Proof.
  intros H. destruct a as [[v r]|]; [|reflexivity]. destruct v as [| | | | | | | | |q| | | | |]; try reflexivity. destruct H as (_ & _ & H).
  cbn [strict loose c_traitsOf traitsOf]. replace (c_toString q) with (s_toString q); [reflexivity|].
  destruct q as [a|x y n k|ps n]; cbn [c_toString s_len] in *; [reflexivity| |]; destruct (Z.ltb_spec n 0); (reflexivity || lia).
Qed.
Lemma upper_is s : few int_max s -> c_upper s = s_upper s.
Proof.
  intros [A B]. pose proof (size_nonneg s). destruct s as [a|x y n k|ps n]; [reflexivity| |reflexivity]. destruct A as (_ & _ & E).
  cbn [c_upper]. rewrite E, wrap32_id by (unfold is_int, int_min; lia). replace (0 <=? _) with true by (symmetry; apply Z.leb_le; lia). reflexivity.
Qed.
Lemma formatter_is J sp c x : few_arg J x -> c_formatterFor J sp c x = formatterFor J sp c x.
Proof.
  intros H. unfold c_formatterFor. destruct (lower sp) as [l|] eqn:E; [|reflexivity].
  transitivity (upperOf (formatterFor J l c x)).
  - unfold upperOf. specialize (H sp l c E). destruct (formatterFor J l c x) as [s|e]; [|reflexivity]. cbn [bind]. apply upper_is, H. reflexivity.
  - destruct sp; try discriminate E; injection E as <-; reflexivity.
Qed.
Lemma resolve_few J c it c' it' : Forall (few_arg J) it -> resolveCtx c it = Ok (c', it') -> Forall (few_arg J) it'.
Proof.
  intros H E.
  assert (N : forall l w l', Forall (few_arg J) l -> nextInt l = Ok (w, l') -> Forall (few_arg J) l').
  { intros [|x l] w l' F K; cbn [nextInt] in K; [discriminate|]. destruct (t_asInt x); cbn [bind] in K; [|discriminate].
    inversion K. subst. inversion F. assumption. }
  unfold resolveCtx in E. destruct (isPrecedingWidth c).
  - destruct (nextInt it) as [[w l]|] eqn:E1; cbn [bind] in E; [|discriminate]. pose proof (N _ _ _ H E1) as H1.
    destruct (if 0 <=? w then setWidth c w else _) as [c1|]; cbn [bind] in E; [|discriminate].
    destruct (isPrecedingPrecision c1); [|inversion E; subst; exact H1].
    destruct (nextInt l) as [[p l2]|] eqn:E2; cbn [bind] in E; [|discriminate]. pose proof (N _ _ _ H1 E2) as H2.
    destruct (setPrecision c1 _); cbn [bind] in E; [|discriminate]. inversion E. subst. exact H2.
  - cbn [bind] in E. destruct (isPrecedingPrecision c); [|inversion E; subst; exact H].
    destruct (nextInt it) as [[p l2]|] eqn:E2; cbn [bind] in E; [|discriminate]. pose proof (N _ _ _ H E2) as H2.
    destruct (setPrecision c _); cbn [bind] in E; [|discriminate]. inversion E. subst. exact H2.
Qed.
Lemma c_run_is J emit ds : forall it sb, Forall (few_arg J) it -> c_run J emit ds it sb = run J emit ds it sb.
Proof.
  induction ds as [|d ds IH]; intros it sb H; cbn [c_run run]; [reflexivity|].
  assert (A : c_appendOne J d it = appendOne J d it /\ forall s it', appendOne J d it = Ok (s, it') -> Forall (few_arg J) it').
  { destruct d as [t|sp c]; cbn [c_appendOne appendOne].
    - split; [reflexivity|]. intros s it' E. injection E as _ <-. exact H.
    - destruct (resolveCtx c it) as [[c' l]|] eqn:E; cbn [bind]; [|split; [reflexivity|discriminate]].
      apply (resolve_few J) in E; [|exact H]. destruct l as [|x l]; [split; [reflexivity|discriminate]|].
      inversion E as [|? ? Hx Hl]. subst. rewrite (formatter_is J sp c' x Hx). split; [reflexivity|].
      destruct (formatterFor J sp c' x); cbn [bind]; [|discriminate]. intros s it' K. injection K as _ <-. exact Hl. }
  destruct A as [-> A]. destruct (appendOne J d it) as [[s it']|e]; [|reflexivity].
  destruct (emit s sb) as [sb' [e|]]; [reflexivity|]. apply IH. exact (A _ _ eq_refl).
Qed.
Lemma c_formatInto_is J b ds args target : Forall moderate args ->
  c_formatInto J b ds (map (strict J) args) target = formatInto J b ds (map (loose J) args) target.
Proof.
  intros H. assert (E : map (strict J) args = map (loose J) args) by (apply map_ext_in; intros a Ha; apply strict_is; rewrite Forall_forall in H; exact (H a Ha)).
  rewrite E. unfold c_formatInto, formatInto. apply c_run_is. apply Forall_map. eapply Forall_impl; [|exact H]. intros a. apply few_loose.
Qed.

(** ** doublings *)
Lemma doubled_tallied s n : tallied s -> tallied (doubled n s) /\ size (doubled n s) = 2 ^ Z.of_nat n * size s.
Proof.
  intros H. induction n as [|n [IH1 IH2]]; cbn [doubled]; [split; [exact H|change (2 ^ Z.of_nat 0) with 1; lia]|]. cbv zeta.
  destruct (concat_tallied _ _ IH1 IH1) as [A B]. split; [exact A|]. rewrite B, IH2, Nat2Z.inj_succ, Z.pow_succ_r by lia. lia.
Qed.
Lemma doubled_empty n : den (doubled n (Leaf AEmpty)) [].
Proof.
  induction n as [|n IH]; cbn [doubled]; [constructor; vm_compute; split; congruence|]. cbv zeta.
  apply (s_concat_den _ _ [] []); [exact IH|exact IH|vm_compute; discriminate].
Qed.

(** ** expressions *)
Lemma mapM_size {A B} (f : A -> res B) l : forall r, mapM f l = Ok r -> zlen r = zlen l.
Proof.
  induction l as [|a l IH]; intros r E; cbn [mapM] in E; [injection E as <-; reflexivity|].
  destruct (f a); cbn [bind] in E; [|discriminate]. destruct (mapM f l) as [q|]; cbn [bind] in E; [|discriminate]. injection E as <-.
  rewrite !zlen_cons, (IH _ eq_refl). reflexivity.
Qed.
Lemma few_upper k s : k <= int_max -> few k s -> okP (few k) (s_upper s).
Proof.
  intros Hk [A B] u E. destruct s as [a|x y n q|ps n].
  - cbn [s_upper] in E. destruct (a_upper a); cbn [bind] in E; [|discriminate]. injection E as <-. split; [exact I|exact B].
  - unfold s_upper in E. destruct (s_iter _) as [l|] eqn:Ei; cbn [bind] in E; [|discriminate]. apply iter_size in Ei.
    destruct (mapM a_upper l) as [r|] eqn:Em; cbn [bind] in E; [|discriminate]. injection E as <-. apply mapM_size in Em.
    split; cbn [tallied size]; lia.
  - unfold s_upper in E. destruct (s_iter _) as [l|] eqn:Ei; cbn [bind] in E; [|discriminate]. apply iter_size in Ei.
    destruct (mapM a_upper l) as [r|] eqn:Em; cbn [bind] in E; [|discriminate]. injection E as <-. apply mapM_size in Em.
    split; cbn [tallied size]; lia.
Qed.
Lemma parts_pos e : 1 <= parts e.
Proof. induction e; cbn [parts]; lia. Qed.
Lemma c_seval_is e : parts e <= int_max -> c_seval e = seval e /\ okP (few (parts e)) (seval e).
Proof.
  induction e as [a|l IHl r IHr|l IHl r IHr|l IHl r IHr|l|s IH]; cbn [parts c_seval seval]; intros H.
  - split; [reflexivity|]. apply ok_any. intros x. apply ok_ok. split; [exact I|cbn; lia].
  - pose proof (parts_pos l). pose proof (parts_pos r). destruct IHl as [-> Kl]; [lia|]. destruct IHr as [-> Kr]; [lia|]. split; [reflexivity|].
    apply (ok_bind _ _ _ _ Kl). intros x [A B]. apply (ok_bind _ _ _ _ Kr). intros y [C D]. apply ok_ok.
    destruct (concat_tallied x y A C) as [E F]. split; [exact E|lia].
  - pose proof (parts_pos l). pose proof (parts_pos r). destruct IHl as [-> Kl]; [lia|]. destruct IHr as [-> Kr]; [lia|]. split; [reflexivity|].
    apply (ok_bind _ _ _ _ Kl). intros x A. apply (ok_bind _ _ _ _ Kr). intros y C. apply ok_ok. apply few_append; assumption.
  - pose proof (parts_pos l). pose proof (parts_pos r). destruct IHl as [-> Kl]; [lia|]. destruct IHr as [-> Kr]; [lia|]. split; [reflexivity|].
    apply (ok_bind _ _ _ _ Kl). intros x A. apply (ok_bind _ _ _ _ Kr). intros y C. apply ok_ok. apply few_prepend; assumption.
  - split; [reflexivity|]. destruct (mapM aeval l) as [xs|] eqn:E; cbn [bind]; [|apply ok_err]. apply mapM_size in E. apply ok_ok.
    destruct xs as [|a [|b q]]; cbn [s_join]; try (apply few_leaf; lia). split; cbn [tallied size]; lia.
  - destruct (IH H) as [-> K]. split.
    + destruct (seval s) as [x|]; cbn [bind]; [|reflexivity]. apply upper_is. apply (few_mono (parts s)); [exact (K _ eq_refl)|exact H].
    + apply (ok_bind _ _ _ _ K). intros x Hx. apply few_upper; assumption.
Qed.
