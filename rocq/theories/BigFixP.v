(** What %f prints for a decimal number, as far as its denominator is within the range of BigInteger. *)
From Coq Require Import QArith.
From Verif Require Import Base Digits UtilsM SeqM SeqSpec ContextM CompilerM IntFormM FormatterM MathM DecimalM FPDecimalM DoubleM BigDecM RoundM TraitsM ImplM
  FmtSpec FmtP DirSpec DecSpec FloatSpec BigSpec FloatP FloatArgP BigDecP BigGenP PropsBig WidthP.
Open Scope Z_scope.

Definition bf_body (q : fspec) (u sc : Z) : list Z :=
  (if u =? 0 then zeros (- sc) else []) ++ with_alt (q_alt q) (hup (Z.abs u) (- (- sc + prec_or 6 q))) (prec_or 6 q).

Lemma zeros_none k : k <= 0 -> zeros k = [].
Proof. intros H. unfold zeros, rep. replace (Z.to_nat k) with O by lia. reflexivity. Qed.

Lemma hup_zero k : hup 0 k = 0.
Proof.
  unfold hup. destruct (Z.leb_spec k 0) as [L|L]; [reflexivity|]. assert (P : 0 < 10 ^ k) by (apply Z.pow_pos_nonneg; lia).
  apply Z.div_small. pose proof (Z.div_pos (10 ^ k) 2 ltac:(lia) ltac:(lia)). pose proof (Z.div_lt (10 ^ k) 2 P ltac:(lia)). lia.
Qed.

Lemma fixed_gives c u sc : rt_ok c -> java_decimal u sc -> ndigits (Z.abs u) - sc < 2000000000 -> u = 0 \/ sc - prec_or 6 (q_of c) <= 646456992 ->
  exists w, fmt_f c (bigDecForm (mkBD u sc)) = Ok w /\ den w (finite_text (q_of c) (u <? 0) (bf_body (q_of c) u sc)).
Proof.
  intros Hr Hj Hf Ht. assert (N1 : 1 <= ndigits (Z.abs u)) by (apply ndigits_pos; lia). pose proof (ndigits_fits u (proj1 Hj)) as N9.
  destruct (rt_bounds c Hr) as [W P]. pose proof (zlen_sign_text (q_of c) (u <? 0)) as LS.
  pose proof (with_alt_short (q_alt (q_of c)) (Z.abs u) (- (- sc + prec_or 6 (q_of c))) (prec_or 6 (q_of c)) ltac:(lia) ltac:(lia)) as L.
  assert (K : (u = 0 /\ sc < 0) \/ (u <> 0 \/ 0 <= sc)) by lia. destruct K as [[-> Sn]|K].
  - assert (E : bf_body (q_of c) 0 sc = zeros (- sc) ++ with_alt (q_alt (q_of c)) 0 (prec_or 6 (q_of c))).
    { unfold bf_body. change (Z.abs 0) with 0. rewrite hup_zero. reflexivity. }
    rewrite E. change (0 <? 0) with false in *. apply (fmt_f_big_zero c sc Hr Sn). rewrite zlen_finite_text, zlen_app. unfold zeros. rewrite zlen_rep.
    pose proof (with_alt_short (q_alt (q_of c)) 0 0 (prec_or 6 (q_of c)) ltac:(lia) ltac:(lia)) as L0. change (hup 0 0) with 0 in L0. change (Z.abs 0) with 0 in Hf.
    unfold with_alt in L0. rewrite int_max_val. unfold with_alt. lia.
  - assert (E : bf_body (q_of c) u sc = with_alt (q_alt (q_of c)) (hup (Z.abs u) (- (- sc + prec_or 6 (q_of c)))) (prec_or 6 (q_of c))).
    { unfold bf_body. destruct (Z.eqb_spec u 0); [rewrite zeros_none by lia|]; reflexivity. }
    rewrite E. apply (fmt_f_big c u sc Hr Hj K Ht). unfold c_f. rewrite zlen_finite_text.
    change (zlen (f_body (q_of c) (Z.abs u) (- sc))) with (zlen (with_alt (q_alt (q_of c)) (hup (Z.abs u) (- (- sc + prec_or 6 (q_of c)))) (prec_or 6 (q_of c)))). rewrite int_max_val. lia.
Qed.
