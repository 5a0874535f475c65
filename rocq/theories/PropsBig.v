(** C34-C36: floating-point conversions of BigDecimal and BigInteger arguments. *)
From Coq Require Import QArith Qabs Qpower Lqa.
From Verif Require Import Base Digits UtilsM SeqM SeqSpec SeqP SeqSubP ContextM CompilerM GrammarSpec IntFormM FormatterM MathM DecimalM FPDecimalM
  DoubleM BigDecM RoundM TraitsM ImplM FmtSpec FmtP FmtP2 DirSpec DecSpec FloatSpec BigSpec FPDecP FloatP DoubleP FloatQ FloatArgP AnnP TenP BigDecP BigGenP IntP PropsInt PropsFloat.
Open Scope Z_scope.

(** ** lemmas for this file *)

Lemma decimal_view J v u s r : is_decimal v u s -> java_decimal u s /\ t_asFloatForm (traitsOf J v r) = Ok (bigDecForm (mkBD u s)).
Proof. intros H. destruct H; split; try assumption; reflexivity. Qed.

Lemma big_prints J src s q v u sc r t : directive src s q -> is_float_spec s -> is_decimal v u sc ->
  (forall c F, rt_ok c -> q_of c = q -> float_conv c s = Some F -> exists w, F (bigDecForm (mkBD u sc)) = Ok w /\ wden w t) ->
  prints J src [traitsOf J v r] (cased s t).
Proof.
  intros Hd Hs Hv H. destruct (decimal_view J v u sc r Hv) as [_ Ev]. apply (prints_wden J src s q _ _ Hd). intros c Hr Hq _.
  assert (Up : forall F, float_conv c s = Some F -> exists w, upperOf (withFloat (traitsOf J v r) F) = Ok w /\ wden w (upper t)).
  { intros F EF. destruct (H c F Hr Hq EF) as (w & Ew & Dw). unfold upperOf, withFloat. rewrite Ev. cbn [bind]. rewrite Ew. cbn [bind].
    destruct (s_upper_wden _ _ Dw) as (x & Ex & Dx & _). exists x. split; assumption. }
  assert (Lo : forall F, float_conv c s = Some F -> exists w, withFloat (traitsOf J v r) F = Ok w /\ wden w t).
  { intros F EF. destruct (H c F Hr Hq EF) as (w & Ew & Dw). unfold withFloat. rewrite Ev. cbn [bind]. exists w. split; assumption. }
  destruct Hs as [->|[->|[->|[->|[->|[->|[->| ->]]]]]]]; cbn [formatterFor cased]; first [apply Lo; reflexivity|apply Up; reflexivity].
Qed.

Lemma big_rejects J src s q v u sc r e : directive src s q -> is_float_spec s -> is_decimal v u sc ->
  (forall c F, rt_ok c -> q_of c = q -> float_conv c s = Some F -> F (bigDecForm (mkBD u sc)) = Err e) ->
  rejects J src [traitsOf J v r] e.
Proof.
  intros Hd Hs Hv H. destruct (decimal_view J v u sc r Hv) as [_ Ev]. apply (rejects_one J src s q _ _ Hd). intros c Hr Hq.
  assert (Up : forall F, float_conv c s = Some F -> upperOf (withFloat (traitsOf J v r) F) = Err e).
  { intros F EF. unfold upperOf, withFloat. rewrite Ev. cbn [bind]. rewrite (H c F Hr Hq EF). reflexivity. }
  assert (Lo : forall F, float_conv c s = Some F -> withFloat (traitsOf J v r) F = Err e).
  { intros F EF. unfold withFloat. rewrite Ev. cbn [bind]. apply (H c F Hr Hq EF). }
  destruct Hs as [->|[->|[->|[->|[->|[->|[->| ->]]]]]]]; cbn [formatterFor]; first [apply Lo; reflexivity|apply Up; reflexivity].
Qed.

(** ** C34: %f *)

(** The value rounded half up to the precision, with exactly that many fraction digits; missing: a zero with negative scale
    (refuted below), numbers other than 0 with more than 646456992 digits after the last one printed (rejected, see below), and texts of
    2^31-1 characters or more, which no Java String can hold. *)
Theorem C34_fixed_notation_partial : forall J src s q v u sc r N,
  directive src s q -> s = Sf \/ s = SF -> is_decimal v u sc -> u <> 0 \/ 0 <= sc -> u = 0 \/ sc - prec_or 6 q <= 646456992 ->
  half_up_at (dec (Z.abs u) (- sc)) (prec_or 6 q) N ->
  let t := finite_text q (u <? 0) (if q_alt q then alt_text N (prec_or 6 q) else decimal_text N (prec_or 6 q)) in
  zlen t < 2147483647 ->
  prints J src [traitsOf J v r] (cased s t).
Proof.
  intros J src s q v u sc r N Hd Hs Hv Hz Ht HN t Hl. destruct (decimal_view J v u sc r Hv) as [Hj _].
  assert (EN : N = hup (Z.abs u) (- (- sc + prec_or 6 q))).
  { apply (half_up_unique (dec (Z.abs u) (- sc)) (prec_or 6 q)); [assumption|apply hup_half_up; lia]. }
  apply (big_prints J src s q v u sc r _ Hd); [unfold is_float_spec; tauto|exact Hv|]. intros c F Hr <- EF.
  assert (F = fmt_f c) as -> by (destruct Hs as [-> | ->]; cbn in EF; congruence).
  assert (Et : t = c_f (q_of c) (u <? 0) (Z.abs u) (- sc)) by (unfold t; rewrite EN; reflexivity). rewrite Et in *.
  destruct (fmt_f_big c u sc Hr Hj Hz Ht Hl) as (w & Ew & Dw). exists w. split; [exact Ew|apply den_wden; exact Dw].
Qed.
Print Assumptions C34_fixed_notation_partial.

Theorem C34_rounding_exists : forall u sc p, exists N, half_up_at (dec (Z.abs u) (- sc)) p N.
Proof. intros u sc p. eexists. apply hup_half_up. lia. Qed.
Print Assumptions C34_rounding_exists.

Example C34_example :
  prints J0 (txt "%+010.2f") [traitsOf J0 (VDec (mkBD (-12345) 3)) RPrimitive] (txt "-000012.35").
Proof.
  assert (D : directive (txt "%+010.2f") Sf (mkSpec false false true false true 10 (Some 2))).
  { change (txt "%+010.2f") with (pct :: txt "+0" ++ txt "10" ++ txt ".2" ++ [ch "f"]).
    is_dir (dir_text (txt "+0") (mkFlags false false true false true) (txt "10") 10 (txt ".2") 2). }
  apply (C34_fixed_notation_partial J0 _ Sf _ _ (-12345) 3 RPrimitive 1235 D); [auto|constructor; split; [reflexivity|lia]|lia|right; apply Z.leb_le; reflexivity| |reflexivity].
  apply (hup_half_up 12345 (-3) 2). lia.
Qed.

Ltac decimal_arg := constructor; split; [vm_compute; reflexivity|lia].
Definition plain_spec : fspec := mkSpec false false false false false 0 None.

Lemma dir_f : directive (txt "%f") Sf plain_spec.
Proof.
  change (txt "%f") with (pct :: [] ++ [] ++ [] ++ [ch "f"]).
  is_dir (dir_text [] (mkFlags false false false false false) [] UNSET [] UNSET).
Qed.

Lemma dir_e : directive (txt "%e") Se plain_spec.
Proof.
  change (txt "%e") with (pct :: [] ++ [] ++ [] ++ [ch "e"]).
  is_dir (dir_text [] (mkFlags false false false false false) [] UNSET [] UNSET).
Qed.

Lemma dir_g : directive (txt "%g") Sg plain_spec.
Proof.
  change (txt "%g") with (pct :: [] ++ [] ++ [] ++ [ch "g"]).
  is_dir (dir_text [] (mkFlags false false false false false) [] UNSET [] UNSET).
Qed.

(** a zero prints whatever its scale: BigDecimal.setScale divides nothing then *)
Example C34_zero_example : prints J0 (txt "%f") [traitsOf J0 (VDec (mkBD 0 2147483647)) RPrimitive] (txt "0.000000").
Proof.
  apply (C34_fixed_notation_partial J0 _ Sf _ _ 0 2147483647 RPrimitive 0 dir_f); [auto|constructor; split; [reflexivity|lia]|right; lia|left; reflexivity| |reflexivity].
  assert (Z0 : forall e p, half_up_at (dec (Z.abs 0) e) p 0).
  { intros e p. unfold half_up_at, dec. change (inject_Z (Z.abs 0)) with 0%Q. rewrite !Qmult_0_l. split; reflexivity || discriminate. }
  apply Z0.
Qed.

(** a zero with a negative scale is printed with as many superfluous zeros *)
Theorem C34_zero_with_negative_scale : forall J src s q v sc r,
  directive src s q -> s = Sf \/ s = SF -> is_decimal v 0 sc -> sc < 0 ->
  let t := finite_text q false (zeros (- sc) ++ (if q_alt q then alt_text 0 (prec_or 6 q) else decimal_text 0 (prec_or 6 q))) in
  zlen t < 2147483647 -> prints J src [traitsOf J v r] (cased s t).
Proof.
  intros J src s q v sc r Hd Hs Hv Hz t Hl. apply (big_prints J src s q v 0 sc r _ Hd); [unfold is_float_spec; tauto|exact Hv|]. intros c F Hr Hq EF.
  assert (F = fmt_f c) as -> by (destruct Hs as [-> | ->]; cbn in EF; congruence). unfold t in *. rewrite <- Hq in *.
  destruct (fmt_f_big_zero c sc Hr Hz Hl) as (w & Ew & Dw). exists w. split; [exact Ew|apply den_wden; exact Dw].
Qed.
Print Assumptions C34_zero_with_negative_scale.

Theorem C34_leading_zeros_refuted :
  exists src q u sc, directive src Sf q /\ is_decimal (VDec (mkBD u sc)) u sc /\ half_up_at (dec (Z.abs u) (- sc)) (prec_or 6 q) 0 /\
    finite_text q (u <? 0) (decimal_text 0 (prec_or 6 q)) = txt "0.000000" /\
    forall J r, prints J src [traitsOf J (VDec (mkBD u sc)) r] (txt "000.000000").
Proof.
  exists (txt "%f"), plain_spec, 0, (-2). split; [exact dir_f|]. split; [decimal_arg|]. split; [apply (hup_half_up 0 2 6); lia|]. split; [reflexivity|].
  intros J r. apply (C34_zero_with_negative_scale J _ Sf _ (VDec (mkBD 0 (-2))) (-2) r dir_f); [auto|decimal_arg|lia|reflexivity].
Qed.
Print Assumptions C34_leading_zeros_refuted.

(** A number other than 0 with a very large scale: the power of ten to divide by is not a BigInteger. *)
Theorem C34_tiny_numbers : forall J src s q v u sc r,
  directive src s q -> s = Sf \/ s = SF -> is_decimal v u sc -> u <> 0 -> 646456992 < sc - prec_or 6 q ->
  rejects J src [traitsOf J v r] (OtherExn 1).
Proof.
  intros J src s q v u sc r Hd Hs Hv Hu Ht. destruct (decimal_view J v u sc r Hv) as [Hj _].
  apply (big_rejects J src s q v u sc r _ Hd); [unfold is_float_spec; tauto|exact Hv|]. intros c F Hr <- EF.
  assert (F = fmt_f c) as -> by (destruct Hs as [-> | ->]; cbn in EF; congruence). apply fmt_f_tiny; assumption.
Qed.
Print Assumptions C34_tiny_numbers.

(** the bound: the last power of ten below 2^(2^31 - 1), the limit of BigInteger *)
Theorem C34_tiny_bound : forall n, 0 <= n -> (10 ^ n < 2 ^ 2147483647 <-> n <= 646456992).
Proof. exact ten_range. Qed.
Print Assumptions C34_tiny_bound.

Theorem C34_tiny_refuted :
  exists src q u sc, directive src Sf q /\ is_decimal (VDec (mkBD u sc)) u sc /\ (exists N, half_up_at (dec (Z.abs u) (- sc)) (prec_or 6 q) N) /\
    forall J r, rejects J src [traitsOf J (VDec (mkBD u sc)) r] (OtherExn 1).
Proof.
  exists (txt "%f"), plain_spec, 1, 700000000. split; [exact dir_f|]. split; [decimal_arg|]. split; [apply C34_rounding_exists|].
  intros J r. apply (C34_tiny_numbers J _ Sf _ (VDec (mkBD 1 700000000)) 1 700000000 r dir_f); [auto|decimal_arg|discriminate|apply Z.ltb_lt; reflexivity].
Qed.
Print Assumptions C34_tiny_refuted.

(** ** C35: %e *)

(** The scale stays above Integer.MIN_VALUE when the digits are dropped *)
Definition scale_room (u sc : Z) : Prop := - 2147483648 + ndigits (Z.abs u) <= sc.

Lemma e_prints J src s q v u sc r : directive src s q -> s = Se \/ s = SE -> is_decimal v u sc -> scale_room u sc ->
  prints J src [traitsOf J v r] (cased s (b_e q (u <? 0) (Z.abs u) (- sc))).
Proof.
  intros Hd Hs Hv Hr. destruct (decimal_view J v u sc r Hv) as [Hj _]. apply (big_prints J src s q v u sc r _ Hd); [unfold is_float_spec; tauto|exact Hv|]. intros c F Hc <- EF.
  assert (F = fmt_e c) as -> by (destruct Hs as [-> | ->]; cbn in EF; congruence).
  destruct (fmt_e_big c u sc Hc Hj Hr) as (w & Ew & Dw). exists w. split; [exact Ew|apply den_wden; exact Dw].
Qed.

Lemma e_prints_exact J src s q v u sc r : directive src s q -> s = Se \/ s = SE -> is_decimal v u sc ->
  last_exp (Z.abs u) (- sc) (prec_or 6 q + 1) <= 2147483648 -> prints J src [traitsOf J v r] (cased s (b_e q (u <? 0) (Z.abs u) (- sc))).
Proof.
  intros Hd Hs Hv Hr. destruct (decimal_view J v u sc r Hv) as [Hj _]. apply (big_prints J src s q v u sc r _ Hd); [unfold is_float_spec; tauto|exact Hv|]. intros c F Hc <- EF.
  assert (F = fmt_e c) as -> by (destruct Hs as [-> | ->]; cbn in EF; congruence).
  destruct (fmt_e_big_exact c u sc Hc Hj Hr) as (w & Ew & Dw). exists w. split; [exact Ew|apply den_wden; exact Dw].
Qed.

Lemma big_sig u sc P S X : u <> 0 -> 1 <= P -> sig_half_up (dec (Z.abs u) (- sc)) P S X -> sig (Z.abs u) (- sc) P = (S, X).
Proof.
  intros Hu HP HS. destruct (sig (Z.abs u) (- sc) P) as [S0 X0] eqn:E. pose proof (sig_right (Z.abs u) (- sc) P S0 X0 ltac:(lia) HP E) as H0.
  destruct (sig_half_up_unique _ P S X S0 X0 HP HS H0) as [-> ->]. reflexivity.
Qed.

Lemma last_sig u sc P S X : u <> 0 -> 1 <= P -> sig_half_up (dec (Z.abs u) (- sc)) P S X -> last_exp (Z.abs u) (- sc) P = X - kept (Z.abs u) P + 1.
Proof. intros Hu HP HS. unfold last_exp. rewrite (big_sig u sc P S X Hu HP HS). replace (Z.abs u =? 0) with false by (symmetry; apply Z.eqb_neq; lia). reflexivity. Qed.

(** one digit, the precision's number of fraction digits, the exponent: C's %e; missing: exponent 9 with exactly ten digits kept, zeros of
    scale other than 0, and last digits kept with an exponent above 2^31, all refuted below *)
Theorem C35_scientific_notation_partial : forall J src s q v u sc r S X,
  directive src s q -> s = Se \/ s = SE -> is_decimal v u sc -> u <> 0 ->
  sig_half_up (dec (Z.abs u) (- sc)) (prec_or 6 q + 1) S X -> X - kept (Z.abs u) (prec_or 6 q + 1) + 1 <= 2147483648 ->
  ~ (X = 9 /\ kept (Z.abs u) (prec_or 6 q + 1) = 10) ->
  prints J src [traitsOf J v r]
    (cased s (finite_text q (u <? 0) ((if q_alt q then alt_text S (prec_or 6 q) else decimal_text S (prec_or 6 q)) ++ exp_text X))).
Proof.
  intros J src s q v u sc r S X Hd Hs Hv Hu HS Hr Hx. pose proof (prec_nonneg _ _ _ Hd) as Hp. rewrite <- (last_sig u sc (prec_or 6 q + 1) S X Hu ltac:(lia) HS) in Hr.
  pose proof (e_prints_exact J src s q v u sc r Hd Hs Hv Hr) as H. unfold b_e, be_body in H. cbv zeta in H. replace (Z.abs u =? 0) with false in H by (symmetry; apply Z.eqb_neq; lia).
  rewrite (big_sig u sc (prec_or 6 q + 1) S X Hu ltac:(lia) HS) in H. unfold big_exp_text in H.
  replace ((X =? 9) && (kept (Z.abs u) (prec_or 6 q + 1) =? 10)) with false in H; [exact H|].
  symmetry. apply not_true_is_false. intros E. apply andb_prop in E as [E1 E2]. bools. tauto.
Qed.
Print Assumptions C35_scientific_notation_partial.

(** the exception: one exponent digit *)
Theorem C35_exponent_nine : forall J src s q v u sc r S,
  directive src s q -> s = Se \/ s = SE -> is_decimal v u sc -> u <> 0 ->
  sig_half_up (dec (Z.abs u) (- sc)) (prec_or 6 q + 1) S 9 -> kept (Z.abs u) (prec_or 6 q + 1) = 10 ->
  prints J src [traitsOf J v r]
    (cased s (finite_text q (u <? 0) ((if q_alt q then alt_text S (prec_or 6 q) else decimal_text S (prec_or 6 q)) ++ txt "e+9"))).
Proof.
  intros J src s q v u sc r S Hd Hs Hv Hu HS Hx. pose proof (prec_nonneg _ _ _ Hd) as Hp. pose proof (last_sig u sc (prec_or 6 q + 1) S 9 Hu ltac:(lia) HS) as Hr.
  pose proof (e_prints_exact J src s q v u sc r Hd Hs Hv ltac:(lia)) as H. unfold b_e, be_body in H. cbv zeta in H. replace (Z.abs u =? 0) with false in H by (symmetry; apply Z.eqb_neq; lia).
  rewrite (big_sig u sc (prec_or 6 q + 1) S 9 Hu ltac:(lia) HS) in H. unfold big_exp_text in H. rewrite Hx in H. exact H.
Qed.
Print Assumptions C35_exponent_nine.

(** a zero is given the exponent minus its scale *)
Theorem C35_zero : forall J src s q v sc r,
  directive src s q -> s = Se \/ s = SE -> is_decimal v 0 sc ->
  prints J src [traitsOf J v r]
    (cased s (finite_text q false ((if q_alt q then alt_text 0 (prec_or 6 q) else decimal_text 0 (prec_or 6 q)) ++ exp_text (- sc)))).
Proof.
  intros J src s q v sc r Hd Hs Hv. destruct (decimal_view J v 0 sc r Hv) as [[_ Hj] _]. apply (e_prints_exact J src s q v 0 sc r Hd Hs Hv). unfold last_exp.
  change (Z.abs 0 =? 0) with true. cbv iota. lia.
Qed.
Print Assumptions C35_zero.

(** the rounded BigDecimal would need a scale below Integer.MIN_VALUE: ArithmeticException *)
Theorem C35_overflow : forall J src s q v u sc r S X,
  directive src s q -> s = Se \/ s = SE -> is_decimal v u sc -> u <> 0 ->
  sig_half_up (dec (Z.abs u) (- sc)) (prec_or 6 q + 1) S X -> 2147483648 < X - kept (Z.abs u) (prec_or 6 q + 1) + 1 ->
  rejects J src [traitsOf J v r] (OtherExn 1).
Proof.
  intros J src s q v u sc r S X Hd Hs Hv Hu HS Hx. pose proof (prec_nonneg _ _ _ Hd) as Hp. rewrite <- (last_sig u sc (prec_or 6 q + 1) S X Hu ltac:(lia) HS) in Hx.
  destruct (decimal_view J v u sc r Hv) as [Hj _].
  apply (big_rejects J src s q v u sc r _ Hd); [unfold is_float_spec; tauto|exact Hv|]. intros c F Hr <- EF.
  assert (F = fmt_e c) as -> by (destruct Hs as [-> | ->]; cbn in EF; congruence). apply fmt_e_big_fails; assumption.
Qed.
Print Assumptions C35_overflow.

Theorem C35_rounding_exists : forall u sc P, u <> 0 -> 1 <= P -> exists S X, sig_half_up (dec (Z.abs u) (- sc)) P S X.
Proof. intros u sc P Hu HP. destruct (sig (Z.abs u) (- sc) P) as [S X] eqn:E. exists S, X. apply sig_right; [lia|exact HP|exact E]. Qed.
Print Assumptions C35_rounding_exists.

Example C35_example : prints J0 (txt "%e") [traitsOf J0 (VBig (-99999995)) RPrimitive] (txt "-1.000000e+08").
Proof.
  apply (C35_scientific_notation_partial J0 _ Se _ _ (-99999995) 0 RPrimitive 1000000 8 dir_e); [auto|decimal_arg|lia| | |].
  - apply sig_right; [lia|vm_compute; discriminate|reflexivity].
  - vm_compute. discriminate.
  - vm_compute. intros [H _]. discriminate.
Qed.

(** three ways in which %e of a decimal is not C's: a one-digit exponent, a zero with an exponent, and an exception *)
Theorem C35_scientific_notation_refuted :
  (exists src q, directive src Se q /\ sig_half_up (dec 1234567890 0) (prec_or 6 q + 1) 1234567890 9 /\
     finite_text q false (decimal_text 1234567890 (prec_or 6 q) ++ exp_text 9) = txt "1.234567890e+09" /\
     forall J r, prints J src [traitsOf J (VBig 1234567890) r] (txt "1.234567890e+9")) /\
  (directive (txt "%e") Se plain_spec /\ forall J r, prints J (txt "%e") [traitsOf J (VDec (mkBD 0 2)) r] (txt "0.000000e-02")) /\
  (is_decimal (VDec (mkBD 12345678 (-2147483648))) 12345678 (-2147483648) /\
   forall J r, rejects J (txt "%e") [traitsOf J (VDec (mkBD 12345678 (-2147483648))) r] (OtherExn 1)).
Proof.
  split; [|split; split].
  - exists (txt "%.9e"), (mkSpec false false false false false 0 (Some 9)).
    assert (D : directive (txt "%.9e") Se (mkSpec false false false false false 0 (Some 9))).
    { change (txt "%.9e") with (pct :: [] ++ [] ++ txt ".9" ++ [ch "e"]). is_dir (dir_text [] (mkFlags false false false false false) [] UNSET (txt ".9") 9). }
    split; [exact D|]. split; [apply sig_right; [lia|vm_compute; discriminate|reflexivity]|]. split; [reflexivity|]. intros J r.
    apply (C35_exponent_nine J _ Se _ _ 1234567890 0 r 1234567890 D); [auto|decimal_arg|lia| |reflexivity].
    apply sig_right; [lia|vm_compute; discriminate|reflexivity].
  - exact dir_e.
  - intros J r. apply (C35_zero J _ Se _ (VDec (mkBD 0 2)) 2 r dir_e); [auto|decimal_arg].
  - decimal_arg.
  - intros J r. apply (C35_overflow J _ Se _ (VDec (mkBD 12345678 (-2147483648))) 12345678 (-2147483648) r 1234568 2147483655 dir_e); [auto|decimal_arg|lia| |vm_compute; reflexivity].
    apply sig_right; [lia|vm_compute; discriminate|vm_compute; reflexivity].
Qed.
Print Assumptions C35_scientific_notation_refuted.

(** ** C36: %g *)

Lemma g_prints J src s q v u sc r : directive src s q -> s = Sg \/ s = SG -> is_decimal v u sc -> scale_room u sc ->
  prints J src [traitsOf J v r] (cased s (b_g q (u <? 0) (Z.abs u) (- sc))).
Proof.
  intros Hd Hs Hv Hr. destruct (decimal_view J v u sc r Hv) as [Hj _]. apply (big_prints J src s q v u sc r _ Hd); [unfold is_float_spec; tauto|exact Hv|]. intros c F Hc <- EF.
  assert (F = fmt_g c) as -> by (destruct Hs as [-> | ->]; cbn in EF; congruence). exact (fmt_g_big c u sc Hc Hj Hr).
Qed.

(** every case of %g, with the text fast-printf prints *)
Theorem C36_general_notation_characterised : forall J src s q v u sc r,
  directive src s q -> s = Sg \/ s = SG -> is_decimal v u sc ->
  bg_positional (Z.abs u) (- sc) (g_prec q) = true \/ last_exp (Z.abs u) (- sc) (g_prec q) <= 2147483648 ->
  prints J src [traitsOf J v r] (cased s (b_g q (u <? 0) (Z.abs u) (- sc))).
Proof.
  intros J src s q v u sc r Hd Hs Hv Hr. destruct (decimal_view J v u sc r Hv) as [Hj _].
  apply (big_prints J src s q v u sc r _ Hd); [unfold is_float_spec; tauto|exact Hv|]. intros c F Hc <- EF.
  assert (F = fmt_g c) as -> by (destruct Hs as [-> | ->]; cbn in EF; congruence). exact (fmt_g_big_exact c u sc Hc Hj Hr).
Qed.
Print Assumptions C36_general_notation_characterised.

(** and everything else is rejected *)
Theorem C36_overflow : forall J src s q v u sc r,
  directive src s q -> s = Sg \/ s = SG -> is_decimal v u sc ->
  bg_positional (Z.abs u) (- sc) (g_prec q) = false -> 2147483648 < last_exp (Z.abs u) (- sc) (g_prec q) ->
  rejects J src [traitsOf J v r] (OtherExn 1).
Proof.
  intros J src s q v u sc r Hd Hs Hv Hb Hl. destruct (decimal_view J v u sc r Hv) as [Hj _].
  apply (big_rejects J src s q v u sc r _ Hd); [unfold is_float_spec; tauto|exact Hv|]. intros c F Hr <- EF.
  assert (F = fmt_g c) as -> by (destruct Hs as [-> | ->]; cbn in EF; congruence). apply fmt_g_big_fails; assumption.
Qed.
Print Assumptions C36_overflow.

Example C36_overflow_example : forall J r, rejects J (txt "%g") [traitsOf J (VDec (mkBD 12345678 (-2147483648))) r] (OtherExn 1).
Proof.
  intros J r. apply (C36_overflow J _ Sg _ (VDec (mkBD 12345678 (-2147483648))) 12345678 (-2147483648) r dir_g); [auto|decimal_arg|vm_compute; reflexivity|vm_compute; reflexivity].
Qed.

Lemma decade_digits u sc X0 : u <> 0 -> (10 ^ X0 <= dec (Z.abs u) (- sc) < 10 ^ (X0 + 1))%Q -> X0 = ndigits (Z.abs u) - sc - 1.
Proof.
  intros Hu H. pose proof (dec_decade (Z.abs u) (- sc) ltac:(lia)) as D. apply (decade_unique _ _ _ H).
  replace (ndigits (Z.abs u) - sc - 1)%Z with (ndigits (Z.abs u) + - sc - 1)%Z by lia. replace (ndigits (Z.abs u) + - sc - 1 + 1)%Z with (ndigits (Z.abs u) + - sc)%Z by lia. exact D.
Qed.

Definition positional (P X : Z) : bool := (-4 <=? X) && (X <? P).

(** C's %g when rounding does not change the choice of notation; [M * 10^-k] are the [P] digits [S] without trailing zeros.
    The padding is too wide by [n] characters, the characters before the last digits of the fraction.
    Missing: the rounded value is on the other side of a limit than the value; exponent 9 (C35); zeros of scale other than 0;
    numbers whose rounding is out of range (C36_overflow). *)
Theorem C36_general_notation_partial : forall J src s q v u sc r X0 S X,
  directive src s q -> s = Sg \/ s = SG -> q_alt q = false -> is_decimal v u sc -> u <> 0 ->
  let P := g_prec q in
  (10 ^ X0 <= dec (Z.abs u) (- sc) < 10 ^ (X0 + 1))%Q -> sig_half_up (dec (Z.abs u) (- sc)) P S X -> X - kept (Z.abs u) P + 1 <= 2147483648 ->
  positional P X0 = positional P X -> ~ (P <= X /\ X = 9 /\ kept (Z.abs u) P = 10) ->
  exists M k n, prints J src [traitsOf J v r]
      (cased s (finite_text (widen q n) (u <? 0) (decimal_text M k ++ (if positional P X then [] else exp_text X)))) /\
    (let p := if positional P X then P - 1 - X else P - 1 in
     0 <= k <= p /\ S = M * 10 ^ (p - k) /\ (k = 0 \/ M mod 10 <> 0)) /\
    0 <= n <= zlen (decimal_text M k) /\ (k = 0 -> n = 0).
Proof.
  intros J src s q v u sc r X0 S X Hd Hs Ha Hv Hu P HX0 HS Hr Hst Hx. pose proof (g_prec_pos _ _ _ Hd) as HP. fold P in HP.
  rewrite <- (last_sig u sc _ S X Hu HP HS) in Hr. pose proof (C36_general_notation_characterised J src s q v u sc r Hd Hs Hv (or_intror Hr)) as H. pose proof (decade_digits u sc X0 Hu HX0) as E0.
  pose proof (big_sig u sc P S X Hu HP HS) as ES. unfold b_g, bg_parts in H. cbv zeta in H. fold P in H. rewrite Ha in H.
  assert (Ha0 : 0 < Z.abs u) by lia. set (a := Z.abs u) in *. clearbody a.
  assert (Est : bg_positional a (- sc) P = positional P X).
  { rewrite <- Hst. unfold bg_positional, positional. replace (a =? 0) with false by (symmetry; apply Z.eqb_neq; lia). rewrite E0. do 2 f_equal; lia. }
  rewrite Est in H. unfold positional in *. destruct ((-4 <=? X) && (X <? P)) eqn:Ep.
  - apply andb_prop in Ep as [Ep1 Ep2]. bools. pose proof (fixed_short a sc P S X Ha0 HP ES ltac:(lia)) as Fs.
    assert (Hp : 0 <= P - ndigits a + sc) by (unfold sig in ES; destruct (_ =? _); injection ES as <- <-; lia).
    pose proof (fixed_value a sc P Ha0 HP Hp) as Fv. destruct (bg_fixed a (- sc) P) as [N j]. destruct Fv as (Fv1 & Fv2 & Fv3).
    pose proof (cut_loss_bound N j Fv1 ltac:(lia)) as Cb. pose proof (cut_loss_nonneg N j ltac:(lia)) as C0.
    unfold short_text in H. pose proof (drop_zeros_value (Z.to_nat (P - 1 - X)) S) as V. pose proof (drop_zeros_min (Z.to_nat (P - 1 - X)) S) as M0.
    rewrite Fs in H, Cb. destruct (drop_zeros (Z.to_nat (P - 1 - X)) S) as [M k]. destruct Cb as [Cb1 Cb2]. rewrite Z2Nat.id in V by lia.
    exists M, k, (cut_loss N j). rewrite app_nil_r. split; [exact H|]. split; [cbv zeta; tauto|]. split; [lia|exact Cb2].
  - destruct (sci_short a sc P S X Ha0 HP ES) as (B1 & B2 & B3 & B4). rewrite B1 in H. set (D := S / 10 ^ (P - kept a P)) in *.
    replace (a =? 0) with false in H by (symmetry; apply Z.eqb_neq; lia). unfold big_exp_text in H.
    assert (Ex : (X =? 9) && (kept a P =? 10) = false).
    { apply not_true_is_false. intros E. apply andb_prop in E as [E1 E2]. bools. apply Hx. repeat split; try assumption.
      destruct (Z.leb_spec (-4) X), (Z.ltb_spec X P); cbn [andb] in Ep; try discriminate; lia. }
    rewrite Ex in H. pose proof (pow10_pos (P - kept a P) ltac:(lia)). assert (D0 : 0 < D) by nia.
    pose proof (cut_loss_bound D (kept a P - 1) D0 ltac:(lia)) as Cb. pose proof (cut_loss_nonneg D (kept a P - 1) ltac:(lia)) as C0.
    assert (Fs : drop_zeros (Z.to_nat (kept a P - 1)) D = drop_zeros (Z.to_nat (P - 1)) S).
    { rewrite B2. replace (P - 1) with (kept a P - 1 + (P - kept a P)) by lia. symmetry. apply dropz_shift; lia. }
    unfold short_text in H. pose proof (drop_zeros_value (Z.to_nat (P - 1)) S) as V. pose proof (drop_zeros_min (Z.to_nat (P - 1)) S) as M0.
    rewrite Fs in H, Cb. destruct (drop_zeros (Z.to_nat (P - 1)) S) as [M k]. destruct Cb as [Cb1 Cb2]. rewrite Z2Nat.id in V by lia.
    exists M, k, (cut_loss D (kept a P - 1)). split; [exact H|]. split; [cbv zeta; tauto|]. split; [lia|exact Cb2].
Qed.
Print Assumptions C36_general_notation_partial.

Lemma widen_full q n neg body : q_width q = 0 -> 0 <= n <= zlen body -> finite_text (widen q n) neg body = finite_text q neg body.
Proof.
  intros Hw Hn. unfold finite_text, pad_number, widen. cbn [q_left q_width q_zero]. change (sign_text (mkSpec _ _ _ _ _ _ _) neg) with (sign_text q neg). rewrite Hw.
  pose proof (zlen_nonneg (sign_text q neg)). destruct (q_zero q && negb (q_left q)).
  - unfold zeros. rewrite !rep_nonpos by lia. reflexivity.
  - rewrite !justify_full; [reflexivity|rewrite Hw, zlen_app; lia|cbn [q_width]; rewrite zlen_app; lia].
Qed.

(** without a width this is C's text *)
Theorem C36_general_notation_without_width_partial : forall J src s q v u sc r X0 S X,
  directive src s q -> s = Sg \/ s = SG -> q_alt q = false -> q_width q = 0 -> is_decimal v u sc -> u <> 0 ->
  let P := g_prec q in
  (10 ^ X0 <= dec (Z.abs u) (- sc) < 10 ^ (X0 + 1))%Q -> sig_half_up (dec (Z.abs u) (- sc)) P S X -> X - kept (Z.abs u) P + 1 <= 2147483648 ->
  positional P X0 = positional P X -> ~ (P <= X /\ X = 9 /\ kept (Z.abs u) P = 10) ->
  exists M k, prints J src [traitsOf J v r]
      (cased s (finite_text q (u <? 0) (decimal_text M k ++ (if positional P X then [] else exp_text X)))) /\
    let p := if positional P X then P - 1 - X else P - 1 in
    0 <= k <= p /\ S = M * 10 ^ (p - k) /\ (k = 0 \/ M mod 10 <> 0).
Proof.
  intros J src s q v u sc r X0 S X Hd Hs Ha Hw Hv Hu P HX0 HS Hr Hst Hx.
  destruct (C36_general_notation_partial J src s q v u sc r X0 S X Hd Hs Ha Hv Hu HX0 HS Hr Hst Hx) as (M & k & n & H & Hm & Hn & _).
  rewrite widen_full in H by (try assumption; rewrite zlen_app; pose proof (zlen_nonneg (if positional (g_prec q) X then [] else exp_text X)); lia).
  exists M, k. split; [exact H|exact Hm].
Qed.
Print Assumptions C36_general_notation_without_width_partial.

Lemma widen_0 q : widen q 0 = q.
Proof. destruct q. unfold widen. cbn. rewrite Z.add_0_r. reflexivity. Qed.

(** '#', positional notation: all [P] digits and the point, if rounding does not carry into a new digit or the number is at least 1 *)
Theorem C36_alternate_form_partial : forall J src s q v u sc r X0 S X,
  directive src s q -> s = Sg \/ s = SG -> q_alt q = true -> is_decimal v u sc -> u <> 0 ->
  let P := g_prec q in
  (10 ^ X0 <= dec (Z.abs u) (- sc) < 10 ^ (X0 + 1))%Q -> sig_half_up (dec (Z.abs u) (- sc)) P S X ->
  -4 <= X0 -> X < P -> X0 = X \/ 0 <= X0 ->
  prints J src [traitsOf J v r] (cased s (finite_text q (u <? 0) (alt_text S (P - 1 - X)))).
Proof.
  intros J src s q v u sc r X0 S X Hd Hs Ha Hv Hu P HX0 HS H4 HX HC. pose proof (g_prec_pos _ _ _ Hd) as HP. fold P in HP.
  pose proof (decade_digits u sc X0 Hu HX0) as E0. pose proof (big_sig u sc P S X Hu HP HS) as ES.
  assert (EX : X0 <= X) by (clear - ES E0; set (a := Z.abs u) in *; clearbody a; unfold sig in ES; cbv zeta in ES; destruct (hup a (ndigits a - P) =? 10 ^ P); injection ES as _ <-; lia).
  assert (Est : bg_positional (Z.abs u) (- sc) P = true).
  { unfold bg_positional. replace (Z.abs u =? 0) with false by (symmetry; apply Z.eqb_neq; lia). apply andb_true_intro. split; [apply Z.leb_le|apply Z.ltb_lt]; lia. }
  pose proof (C36_general_notation_characterised J src s q v u sc r Hd Hs Hv (or_introl Est)) as H.
  unfold b_g, bg_parts in H. cbv zeta in H. fold P in H. rewrite Ha in H.
  assert (Ha0 : 0 < Z.abs u) by lia. set (a := Z.abs u) in *. clearbody a. rewrite Est in H. pose proof (fixed_alt a sc P S X Ha0 HP ES HX ltac:(lia)) as Fa. destruct (bg_fixed a (- sc) P) as [N j]. cbv zeta in Fa. destruct Fa as [Fa1 Fa2].
  rewrite Fa1, Fa2, widen_0 in H. exact H.
Qed.
Print Assumptions C36_alternate_form_partial.

(** zeros of scale 0, in particular BigInteger.ZERO *)
Theorem C36_zero : forall J src s q v r,
  directive src s q -> s = Sg \/ s = SG -> is_decimal v 0 0 ->
  prints J src [traitsOf J v r] (cased s (finite_text q false (if q_alt q then alt_text 0 (g_prec q - 1) else txt "0"))).
Proof.
  intros J src s q v r Hd Hs Hv. pose proof (g_prec_pos _ _ _ Hd) as HP. pose proof (g_prints J src s q v 0 0 r Hd Hs Hv ltac:(vm_compute; discriminate)) as H.
  unfold b_g, bg_parts, bg_fixed in H. cbv zeta in H. cbn [bg_positional Z.abs Z.eqb Z.opp Z.ltb Z.compare] in H. change (ndigits 0) with 1 in H.
  replace (1 <=? g_prec q) with true in H by (symmetry; apply Z.leb_le; lia). rewrite Z.mul_0_l in H. change (Z.max 0 0) with 0 in H. change (ndigits 0) with 1 in H.
  change (0 * 10 ^ 0) with 0 in H. change (ndigits 0) with 1 in H. rewrite (Z.max_r 0 (g_prec q - 1)), Z.add_0_l in H by lia. rewrite <- (widen_0 q) at 1. destruct (q_alt q); exact H.
Qed.
Print Assumptions C36_zero.

Example C36_example : prints J0 (txt "%g") [traitsOf J0 (VDec (mkBD (-12345678) 4)) RPrimitive] (txt "-1234.57").
Proof.
  destruct (C36_general_notation_without_width_partial J0 _ Sg _ (VDec (mkBD (-12345678) 4)) (-12345678) 4 RPrimitive 3 123457 3 dir_g) as (M & k & H & Hk & E & Hm);
    [auto|reflexivity|reflexivity|decimal_arg|lia|vm_compute; split; congruence|apply sig_right; [lia|vm_compute; discriminate|reflexivity]|vm_compute; discriminate|reflexivity|vm_compute; intros [_ [X _]]; discriminate|].
  change (if positional _ _ then _ else _) with 2 in Hk, E. assert (k = 0 \/ k = 1 \/ k = 2) as [->|[->| ->]] by lia.
  - change (10 ^ (2 - 0)) with 100 in E. lia.
  - change (10 ^ (2 - 1)) with 10 in E. lia.
  - change (10 ^ (2 - 2)) with 1 in E. assert (M = 123457) as -> by lia. exact H.
Qed.

(** five ways in which %g of a decimal is not C's *)
Theorem C36_general_notation_refuted :
  let arg u sc := VDec (mkBD u sc) in
  (* notation chosen before rounding *)
  (sig_half_up (dec 9999995 (-1)) 6 100000 6 /\ finite_text plain_spec false (decimal_text 1 0 ++ exp_text 6) = txt "1e+06" /\
   forall J r, prints J (txt "%g") [traitsOf J (arg 9999995 1) r] (txt "1000000")) /\
  (sig_half_up (dec 99999996 (-12)) 6 100000 (-4) /\ finite_text plain_spec false (decimal_text 1 4) = txt "0.0001" /\
   forall J r, prints J (txt "%g") [traitsOf J (arg 99999996 12) r] (txt "1e-04")) /\
  (* zero with a scale *)
  (forall J r, prints J (txt "%g") [traitsOf J (arg 0 2) r] (txt "0e-02")) /\
  (* '#': one digit too many; none of the zeros in exponent notation *)
  (exists q, directive (txt "%#.2g") Sg q /\ sig_half_up (dec 996 (-4)) 2 10 (-1) /\ finite_text q false (alt_text 10 2) = txt "0.10" /\
   forall J r, prints J (txt "%#.2g") [traitsOf J (arg 996 4) r] (txt "0.100")) /\
  (exists q, directive (txt "%#g") Sg q /\ sig_half_up (dec 1 10) 6 100000 10 /\ finite_text q false (alt_text 100000 5 ++ exp_text 10) = txt "1.00000e+10" /\
   forall J r, prints J (txt "%#g") [traitsOf J (arg 1 (-10)) r] (txt "1e+10")) /\
  (* padding *)
  (exists q, directive (txt "%10g") Sg q /\ finite_text q false (decimal_text 1005 1) = txt "     100.5" /\
   forall J r, prints J (txt "%10g") [traitsOf J (arg 10050 2) r] (txt "         100.5")).
Proof.
  cbv zeta. assert (G : forall src q u sc t, directive src Sg q -> java_decimal u sc -> scale_room u sc -> b_g q (u <? 0) (Z.abs u) (- sc) = t ->
    forall J r, prints J src [traitsOf J (VDec (mkBD u sc)) r] t).
  { intros src q u sc t D Hj Hr <- J r. apply (g_prints J src Sg q _ u sc r D); [auto|constructor; exact Hj|exact Hr]. }
  assert (S : forall f e P S X, 0 < f -> 1 <= P -> sig f e P = (S, X) -> sig_half_up (dec f e) P S X) by (intros; apply sig_right; assumption).
  repeat split; try reflexivity.
  - apply S; [lia|lia|reflexivity].
  - apply (G _ _ 9999995 1 _ dir_g); [split; [reflexivity|lia]|vm_compute; discriminate|reflexivity].
  - apply S; [lia|lia|reflexivity].
  - apply (G _ _ 99999996 12 _ dir_g); [split; [reflexivity|lia]|vm_compute; discriminate|reflexivity].
  - apply (G _ _ 0 2 _ dir_g); [split; [reflexivity|lia]|vm_compute; discriminate|reflexivity].
  - exists (mkSpec false true false false false 0 (Some 2)). assert (D : directive (txt "%#.2g") Sg (mkSpec false true false false false 0 (Some 2))).
    { change (txt "%#.2g") with (pct :: txt "#" ++ [] ++ txt ".2" ++ [ch "g"]). is_dir (dir_text (txt "#") (mkFlags false true false false false) [] UNSET (txt ".2") 2). }
    split; [exact D|]. split; [apply S; [lia|lia|reflexivity]|]. split; [reflexivity|]. apply (G _ _ 996 4 _ D); [split; [reflexivity|lia]|vm_compute; discriminate|reflexivity].
  - exists (mkSpec false true false false false 0 None). assert (D : directive (txt "%#g") Sg (mkSpec false true false false false 0 None)).
    { change (txt "%#g") with (pct :: txt "#" ++ [] ++ [] ++ [ch "g"]). is_dir (dir_text (txt "#") (mkFlags false true false false false) [] UNSET [] UNSET). }
    split; [exact D|]. split; [apply S; [lia|lia|reflexivity]|]. split; [reflexivity|]. apply (G _ _ 1 (-10) _ D); [split; [reflexivity|lia]|vm_compute; discriminate|reflexivity].
  - exists (mkSpec false false false false false 10 None). assert (D : directive (txt "%10g") Sg (mkSpec false false false false false 10 None)).
    { change (txt "%10g") with (pct :: [] ++ txt "10" ++ [] ++ [ch "g"]). is_dir (dir_text [] (mkFlags false false false false false) (txt "10") 10 [] UNSET). }
    split; [exact D|]. split; [reflexivity|]. apply (G _ _ 10050 2 _ D); [split; [reflexivity|lia]|vm_compute; discriminate|reflexivity].
Qed.
Print Assumptions C36_general_notation_refuted.

(** %a of a decimal is an exception *)
Theorem C36_hexadecimal_rejected : forall J src s q v u sc r,
  directive src s q -> s = Sa \/ s = SA -> is_decimal v u sc -> rejects J src [traitsOf J v r] (Printf NotHex).
Proof.
  intros J src s q v u sc r Hd Hs Hv. apply (big_rejects J src s q v u sc r _ Hd); [unfold is_float_spec; tauto|exact Hv|]. intros c F Hr Hq EF.
  assert (F = fmt_a c) as -> by (destruct Hs as [-> | ->]; cbn in EF; congruence). reflexivity.
Qed.
Print Assumptions C36_hexadecimal_rejected.
