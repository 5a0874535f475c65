(** C105: repairs for the findings about printed texts, and what the repaired library does. *)
From Coq Require Import QArith.
From Verif Require DiffP.
From Verif Require Import Base Digits UtilsM SeqM SeqSpec SeqP ContextM CompilerM GrammarSpec CompilerP2 IntFormM FormatterM MathM DecimalM FPDecimalM
  DoubleM BigDecM RoundM TraitsM ImplM ImplP FmtSpec FmtP DecSpec FloatSpec BigSpec DirSpec LoopSpec LoopP IntP PropsInt NearP FloatP FloatQ DoubleP FloatArgP PropsFloat
  ExactSpec ScaleSpec ScaleP ValueSpec ValueP PropsValue WholeSpec WholeP PropsWhole RepairM RepairSpec RepairP RepairP2 RepairP3 RepairP4 RepairP5.
From Verif Require BoundP ReadFP2 FPDecP.
Open Scope Z_scope.

(** ** The repaired calls *)

Theorem C105_repaired_calls_follow_the_reference : forall J dtf src ds args t o,
  jdk_ok J -> GrammarSpec.format dtf src ds -> means J ds args t o ->
  compile dtf src = Ok ds /\
  format' J ds args = match o with None => Ok t | Some e => Err e end /\
  forall sb target, formatInto' J sb ds args target = (target ++ t, o).
Proof.
  intros J dtf src ds args t o HJ F S. apply compile_iff in F. pose proof (means_runs J ds args t o HJ (compiled_sane _ _ _ F) S) as R.
  split; [exact F|]. split.
  - unfold format'. rewrite (R _ emits_sb []). destruct o; reflexivity.
  - intros sb target. apply R. destruct sb; [left|right]; reflexivity.
Qed.
Print Assumptions C105_repaired_calls_follow_the_reference.

(** the reference says exactly one thing about every format string and all arguments *)
Theorem C105_the_reference_is_complete : forall J dtf src ds args,
  jdk_ok J -> GrammarSpec.format dtf src ds -> Forall allowed args ->
  exists t o, means J ds args t o /\ forall t' o', means J ds args t' o' -> t' = t /\ o' = o.
Proof.
  intros J dtf src ds args HJ F Ha. apply compile_iff, compiled_sane in F. destruct (means_total J ds HJ F args Ha) as (t & o & S).
  exists t, o. split; [exact S|]. intros t' o' S'. exact (means_unique J ds args t' o' t o HJ F S' S).
Qed.
Print Assumptions C105_the_reference_is_complete.

Theorem C105_repaired_calls_give_exactly_the_reference : forall J dtf src ds args t o target,
  jdk_ok J -> GrammarSpec.format dtf src ds -> Forall allowed args ->
  (means J ds args t o <-> forall sb, formatInto' J sb ds args target = (target ++ t, o)).
Proof.
  intros J dtf src ds args t o target HJ F Ha. split.
  - intros S sb. apply (C105_repaired_calls_follow_the_reference J dtf src ds args t o HJ F S).
  - intros E. destruct (C105_the_reference_is_complete J dtf src ds args HJ F Ha) as (t' & o' & S & _).
    pose proof (proj2 (proj2 (C105_repaired_calls_follow_the_reference J dtf src ds args t' o' HJ F S)) true target) as E'.
    rewrite (E true) in E'. injection E' as E1 E2. apply app_inv_head in E1. subst. exact S.
Qed.
Print Assumptions C105_repaired_calls_give_exactly_the_reference.

(** ** What stays as it is *)

(** calls in which no repaired case occurs: the same text and the same exception as before *)
Theorem C105_other_calls_do_not_change : forall J dtf src ds args,
  jdk_ok J -> GrammarSpec.format dtf src ds -> Forall allowed args -> spared J ds args ->
  forall sb target, formatInto' J sb ds args target = formatInto J sb ds (map (traitsGiven J) args) target.
Proof.
  intros J dtf src ds args HJ F Ha Sp sb target. destruct (C105_the_reference_is_complete J dtf src ds args HJ F Ha) as (t & o & S & _).
  rewrite (proj2 (proj2 (C105_repaired_calls_follow_the_reference J dtf src ds args t o HJ F S)) sb target). symmetry.
  pose proof (compiled_sane _ _ _ (proj2 (compile_iff _ _ _) F)) as Hs.
  apply (C74_calls_follow_the_reference J dtf src ds (map (traitsGiven J) args) t o HJ F (spared_says J ds Hs args t o Sp S)).
Qed.
Print Assumptions C105_other_calls_do_not_change.

(** ** What holds after the repairs and not before *)

(** C19, C12: subSequence returns the slice, with its length *)
Theorem C105_subSequence : forall s t i j, den s t -> 0 <= i -> i <= j -> j <= zlen t -> exists u, s_sub' s i j = Ok u /\ den u (slice t i j).
Proof. exact s_sub'_den. Qed.
Print Assumptions C105_subSequence.
Theorem C105_subSequence_errors : forall s t i j, den s t -> ~ (0 <= i /\ i <= j /\ j <= zlen t) -> s_sub' s i j = s_sub s i j.
Proof. exact s_sub'_bad. Qed.
Print Assumptions C105_subSequence_errors.

Definition in_bounds (q : fspec) : Prop := 0 <= q_width q <= 65536 /\ match q_prec q with Some p => 0 <= p <= 65536 | None => True end.

(** one conversion shows every argument in exactly one way *)
Theorem C105_conversions_are_complete : forall J s d q g, jdk_ok J -> allowed g -> in_bounds q ->
  exists o, meant J s d q g o /\ forall o', meant J s d q g o' -> o' = o.
Proof.
  intros J s d q g HJ Hx [Hw Hp]. destruct (meant_total J g s d q HJ Hx) as [o S]. exists o. split; [exact S|]. intros o' S'.
  set (c := mkCtx (mkFlags (q_left q) (q_alt q) (q_plus q) (q_space q) (q_zero q)) (q_width q) (match q_prec q with Some p => p | None => UNSET end) d).
  assert (Hc : rt_ok c).
  { split; cbn; [right; left; exact Hw|]. destruct (q_prec q); [right; exact Hp|left; reflexivity]. }
  assert (Hq : q_of c = q).
  { unfold q_of. cbn. destruct q as [l a p s0 z w pr]. cbn in *. rewrite Z.max_r by lia. f_equal. destruct pr as [n|]; [|reflexivity].
    replace (n <? 0) with false by (symmetry; apply Z.ltb_ge; lia). reflexivity. }
  pose proof (meant_gives J s d q g o c HJ S Hc Hq eq_refl) as G. pose proof (meant_gives J s d q g o' c HJ S' Hc Hq eq_refl) as G'.
  unfold gives' in *. destruct o as [t|e], o' as [t'|e'].
  - destruct G as (u & E & W), G' as (u' & E' & W'). rewrite E in E'. injection E' as <-. f_equal.
    pose proof (emitSB_wden u t [] (den_wden _ _ W)) as A. rewrite (emitSB_wden u t' [] (den_wden _ _ W')) in A. cbn [app] in A. congruence.
  - destruct G as (u & E & W). congruence.
  - destruct G' as (u & E & W). congruence.
  - congruence.
Qed.
Print Assumptions C105_conversions_are_complete.

Lemma shown_once J s d q x o o' : jdk_ok J -> in_bounds q -> shown J s d q x o -> shown J s d q x o' -> o' = o.
Proof.
  intros HJ [Hw Hp] S S'.
  set (c := mkCtx (mkFlags (q_left q) (q_alt q) (q_plus q) (q_space q) (q_zero q)) (q_width q) (match q_prec q with Some p => p | None => UNSET end) d).
  assert (Hc : rt_ok c).
  { split; cbn; [right; left; exact Hw|]. destruct (q_prec q); [right; exact Hp|left; reflexivity]. }
  assert (Hq : q_of c = q).
  { unfold q_of. cbn. destruct q as [l a p s0 z w pr]. cbn in *. rewrite Z.max_r by lia. f_equal. destruct pr as [n|]; [|reflexivity].
    replace (n <? 0) with false by (symmetry; apply Z.ltb_ge; lia). reflexivity. }
  pose proof (shown_gives J s d q x o c HJ S Hc Hq eq_refl) as G. pose proof (shown_gives J s d q x o' c HJ S' Hc Hq eq_refl) as G'.
  unfold WholeP.gives in *. destruct o as [t|e], o' as [t'|e'].
  - destruct G as (u & E & W), G' as (u' & E' & W'). rewrite E in E'. injection E' as <-. f_equal.
    pose proof (emitSB_wden u t [] W) as A. rewrite (emitSB_wden u t' [] W') in A. cbn [app] in A. congruence.
  - destruct G as (u & E & W). congruence.
  - destruct G' as (u & E & W). congruence.
  - congruence.
Qed.

(** the repairs change what a conversion makes of an argument exactly if the argument is one of the touched *)
Theorem C105_exactly_the_touched_arguments_change : forall J s d q g, jdk_ok J -> allowed g -> in_bounds q ->
  exists o o', (forall p, meant J s d q g p <-> p = o) /\ (forall p, shown J s d q (traitsGiven J g) p <-> p = o') /\ (o <> o' <-> touched J s q g).
Proof.
  intros J s d q g HJ Ha Hb. destruct (C105_conversions_are_complete J s d q g HJ Ha Hb) as (o & M & U).
  assert (Hq : q_ok q) by (destruct Hb as [Hw Hp]; split; [|lia]; unfold prec_or; destruct (q_prec q); [exact Hp|lia]).
  assert (E : exists o', shown J s d q (traitsGiven J g) o' /\ (o <> o' <-> touched J s q g)).
  { destruct (meant_cases J s d q g o Hq M) as [S|T].
    - exists o. split; [exact S|]. split; [congruence|]. intros T. destruct (touched_differs J s d q g Hq T) as (p & p' & Mp & Sp & N).
      rewrite (U p Mp) in N. exact (fun _ => N (eq_sym (shown_once J s d q _ o p' HJ Hb S Sp))).
    - destruct (touched_differs J s d q g Hq T) as (p & p' & Mp & Sp & N). rewrite (U p Mp) in N. exists p'. split; [exact Sp|]. split; [intros _; exact T|intros _; exact N]. }
  destruct E as (o' & S & I). exists o, o'. split; [intros p; split; [apply U|intros ->; exact M]|]. split; [|exact I].
  intros p; split; [intros Sp; exact (shown_once J s d q _ o' p HJ Hb S Sp)|intros ->; exact S].
Qed.
Print Assumptions C105_exactly_the_touched_arguments_change.

(** %g of BigDecimals and BigIntegers: when fast-printf's text is C's *)
Theorem C105_general_notation_of_decimals : forall s q neg f e, 0 <= f -> 1 <= g_prec q ->
  (in_case s (b_g q neg f e) = in_case s (c_g q neg f e) <-> g_differs q neg f e = false).
Proof. intros s q neg f e Hf HP. rewrite <- (Z.opp_involutive e). apply DiffP.g_seen; assumption. Qed.
Print Assumptions C105_general_notation_of_decimals.

(** each condition of [g_differs] is met by some number: a zero with a scale, a style changed by rounding, the two of '#', the padding *)
Example C105_general_notation_example :
  let q w p a := mkSpec false a false false false w (Some p) in
  map (fun x => g_differs (fst x) false (fst (snd x)) (snd (snd x)))
    [(q 0 6 false, (0, 2)); (q 0 6 false, (9999996, -1)); (q 0 2 true, (996, -4)); (q 0 6 true, (15, 9)); (q 9 6 false, (1250, -2)); (q 9 6 false, (125, -1)); (q 4 6 false, (1250, -2))]
  = [true; true; true; true; true; false; true] /\
  b_g (q 9 6 false) false 1250 (-2) = txt "        12.5" /\ c_g (q 9 6 false) false 1250 (-2) = txt "     12.5" /\
  b_g (q 9 6 false) false 125 (-1) = c_g (q 9 6 false) false 125 (-1).
Proof. repeat split. Qed.

Lemma case_len s t : zlen (in_case s t) = zlen t.
Proof. unfold in_case. destruct (is_upper s); [unfold zlen; rewrite map_length|]; reflexivity. Qed.
(** C07: the width is a minimum; %n and %% take none *)
Theorem C105_the_width_is_a_minimum : forall J s d q g t, meant J s d q g (Ok t) -> s <> Sn -> s <> Spct -> q_width q <= zlen t.
Proof.
  intros J s d q g t H N1 N2.
  assert (F : forall neg body, q_width q <= zlen (in_case s (finite_text q neg body))) by (intros; rewrite case_len; unfold finite_text; rewrite BoundP.pad_number_len; lia).
  assert (Jx : forall u, q_width q <= zlen (in_case s (justify q u))) by (intros; rewrite case_len, zlen_justify; lia).
  assert (K : forall u, q_width q <= zlen (justify q u)) by (intros; rewrite zlen_justify; lia).
  assert (P : forall zp a b, q_width q <= zlen (pad_number q zp a b)) by (intros; rewrite BoundP.pad_number_len; lia).
  inversion H; subst; try contradiction; try apply F; try apply Jx; try apply K; try apply P; rewrite case_len; try apply P; apply K.
Qed.
Print Assumptions C105_the_width_is_a_minimum.

(** C36, C64, C65: a BigDecimal, a BigInteger and a double that stand for the same decimal print the same *)
Inductive decimal_of (J : jdk) : value -> bool -> Q -> Prop :=
| do_double v b f e : is_double J v b -> its_digits b f e -> decimal_of J v (b <? 0) (dec f e)
| do_big v u sc : is_decimal v u sc -> decimal_of J v (u <? 0) (dec (Z.abs u) (- sc)).

Lemma hup_same f e f' e' p : 0 <= f -> 0 <= f' -> (dec f e == dec f' e')%Q -> hup f (- (e + p)) = hup f' (- (e' + p)).
Proof.
  intros Hf Hf' E. apply (half_up_unique (dec f' e') p); [apply (half_up_eq (dec f e)); [exact E|]|]; apply hup_half_up; assumption.
Qed.
Lemma dec_zero_iff f e : 0 <= f -> (dec f e == 0)%Q <-> f = 0.
Proof.
  intros Hf. split.
  - intros E. destruct (Z.eq_dec f 0) as [|N]; [assumption|]. exfalso. assert (P : (0 < dec f e)%Q) by (apply ReadFP2.dec_pos; lia).
    rewrite E in P. exact (Qlt_irrefl _ P).
  - intros ->. unfold dec. apply Qmult_0_l.
Qed.
Lemma sig0_same f e f' e' P : 0 <= f -> 0 <= f' -> 1 <= P -> (dec f e == dec f' e')%Q -> sig0 f e P = sig0 f' e' P.
Proof.
  intros Hf Hf' HP E. unfold sig0. destruct (Z.eqb_spec f 0) as [F|F], (Z.eqb_spec f' 0) as [F'|F']; [reflexivity| | |].
  - exfalso. apply F'. apply (dec_zero_iff f' e' Hf'). rewrite <- E. apply dec_zero_iff; assumption.
  - exfalso. apply F. apply (dec_zero_iff f e Hf). rewrite E. apply dec_zero_iff; assumption.
  - destruct (sig f e P) as [S X] eqn:S1, (sig f' e' P) as [S' X'] eqn:S2. apply sig_right in S1; [|lia|lia]. apply sig_right in S2; [|lia|lia].
    apply (sig_half_up_eq _ _ _ _ _ E) in S1. destruct (sig_half_up_unique _ _ _ _ _ _ HP S1 S2) as [-> ->]. reflexivity.
Qed.

Lemma ok_inv {A} (a b : A) : Ok a = Ok b -> a = b.
Proof. congruence. Qed.
Definition conv_text (s : spec) (q : fspec) (neg : bool) (f e : Z) : list Z :=
  in_case s (if fixed_conv s then c_f q neg f e else if exp_conv s then c_e q neg f e else c_g q neg f e).

Lemma conv_text_same s q neg f e f' e' : in_bounds q -> 0 <= f -> 0 <= f' -> (dec f e == dec f' e')%Q -> conv_text s q neg f e = conv_text s q neg f' e'.
Proof.
  intros [_ Hp] Hf Hf' E. assert (P0 : 0 <= prec_or 6 q) by (unfold prec_or; destruct (q_prec q); lia).
  assert (P1 : 1 <= g_prec q) by (unfold g_prec; cbv zeta; destruct (Z.eqb_spec (prec_or 6 q) 0); lia).
  unfold conv_text. f_equal. destruct (fixed_conv s); [|destruct (exp_conv s)].
  - unfold c_f, f_body. rewrite (hup_same f e f' e' _ Hf Hf' E). reflexivity.
  - unfold c_e, e_body. rewrite (sig0_same f e f' e' _ Hf Hf') by (assumption || lia). reflexivity.
  - unfold c_g, g_body. rewrite (sig0_same f e f' e' _ Hf Hf') by assumption. reflexivity.
Qed.

Lemma decimal_meant J s d q v r neg x t : jdk_ok J -> allowed (Given v r) -> in_bounds q -> decimal_of J v neg x ->
  fixed_conv s || exp_conv s || general_conv s = true -> meant J s d q (Given v r) (Ok t) ->
  exists f e, 0 <= f /\ (dec f e == x)%Q /\ t = conv_text s q neg f e.
Proof.
  intros HJ Ha Hq D Hs M. destruct (C105_conversions_are_complete J s d q (Given v r) HJ Ha Hq) as (o & _ & U).
  assert (U' : forall o', meant J s d q (Given v r) o' -> Ok t = o') by (intros o' M'; rewrite (U _ M), (U _ M'); reflexivity).
  assert (G : fixed_conv s = true \/ fixed_conv s = false /\ exp_conv s = true \/ fixed_conv s = false /\ exp_conv s = false /\ general_conv s = true) by (destruct s; try discriminate Hs; auto).
  destruct D as [v b f e Hv Hi|v u sc Hd].
  - exists f, e. split; [exact (ReadFP2.its_nonneg _ _ _ (digits_decimal _ _ _ Hi))|]. split; [reflexivity|]. unfold conv_text.
    destruct G as [G|[[G1 G2]|[G1 [G2 G3]]]]; [rewrite G|rewrite G1, G2|rewrite G1, G2]; apply ok_inv; apply U'; [apply mn_fixed|apply mn_exp|apply mn_general]; assumption.
  - exists (Z.abs u), (- sc). split; [lia|]. split; [reflexivity|]. unfold conv_text.
    destruct G as [G|[[G1 G2]|[G1 [G2 G3]]]]; [rewrite G|rewrite G1, G2|rewrite G1, G2]; apply ok_inv.
    + apply U', mn_big_fixed; [assumption|apply Ha|assumption].
    + destruct (scale_fits_or u sc (prec_or 6 q + 1)) as [F|F]; [apply U', mn_big_exp; assumption|].
      pose proof (U' _ (mn_big_exp_huge J s d q v u sc r G2 Hd F)). discriminate.
    + destruct (scale_fits_or u sc (g_prec q)) as [F|F]; [apply U', mn_big_general; assumption|].
      pose proof (U' _ (mn_big_general_huge J s d q v u sc r G3 Hd F)). discriminate.
Qed.

Theorem C105_same_number_same_text : forall J s d q v r v' r' neg x y t t', jdk_ok J -> in_bounds q ->
  allowed (Given v r) -> allowed (Given v' r') -> decimal_of J v neg x -> decimal_of J v' neg y -> (x == y)%Q ->
  fixed_conv s || exp_conv s || general_conv s = true ->
  meant J s d q (Given v r) (Ok t) -> meant J s d q (Given v' r') (Ok t') -> t = t'.
Proof.
  intros J s d q v r v' r' neg x y t t' HJ Hq Ha Ha' D D' E Hs M M'.
  destruct (decimal_meant J s d q v r neg x t HJ Ha Hq D Hs M) as (f & e & F & Ex & ->).
  destruct (decimal_meant J s d q v' r' neg y t' HJ Ha' Hq D' Hs M') as (f' & e' & F' & Ey & ->).
  apply conv_text_same; try assumption. rewrite Ex, Ey. exact E.
Qed.
Print Assumptions C105_same_number_same_text.

(** ** Examples: before and after *)

Definition before (src : list Z) (args : list given) : res (list Z) :=
  match compile (fun _ => true) src with Ok ds => ImplM.format J2 ds (map (traitsGiven J2) args) | Err e => Err e end.
Definition after (src : list Z) (args : list given) : res (list Z) :=
  match compile (fun _ => true) src with Ok ds => format' J2 ds args | Err e => Err e end.
Definition G (v : value) : given := Given v RPrimitive.

Definition two_parts : seq := s_append (wrapS (txt "ab")) (wrapS (txt "cd")).
Example C105_texts : (* findings 1, 9, 10, 13 *)
  (before (txt "[%5.3s]") [G (VSeq two_parts)], after (txt "[%5.3s]") [G (VSeq two_parts)]) = (Ok (txt "[    abc]"), Ok (txt "[  abc]")) /\
  (before (txt "% .0d") [G (VInt 0)], after (txt "% .0d") [G (VInt 0)]) = (Ok [], Ok (txt " ")) /\
  (before (txt "%#05x") [G (VInt 0)], after (txt "%#05x") [G (VInt 0)]) = (Ok (txt "  000"), Ok (txt "00000")) /\
  (before (txt "%#.0o") [G (VInt 0)], after (txt "%#.0o") [G (VInt 0)]) = (Ok [], Ok (txt "0")) /\
  (before (txt "% f") [G (VDouble inf_bits)], after (txt "% f") [G (VDouble inf_bits)]) = (Ok (txt "Infinity"), Ok (txt " Infinity")).
Proof. vm_compute. repeat split. Qed.

Example C105_numbers : (* findings 3, 4, 5, 6, 7, 11 *)
  (before (txt "%.9e") [G (VBig 1234567890)], after (txt "%.9e") [G (VBig 1234567890)]) = (Ok (txt "1.234567890e+9"), Ok (txt "1.234567890e+09")) /\
  (before (txt "%.1f") [G (VDec (mkBD 0 (-3)))], after (txt "%.1f") [G (VDec (mkBD 0 (-3)))]) = (Ok (txt "0000.0"), Ok (txt "0.0")) /\
  (before (txt "%.1e") [G (VDec (mkBD 0 3))], after (txt "%.1e") [G (VDec (mkBD 0 3))]) = (Ok (txt "0.0e-03"), Ok (txt "0.0e+00")) /\
  (before (txt "%.2g") [G (VDec (mkBD 996 1))], after (txt "%.2g") [G (VDec (mkBD 996 1))]) = (Ok (txt "100"), Ok (txt "1e+02")) /\
  (before (txt "%#.3g") [G (VDec (mkBD 1 (-5)))], after (txt "%#.3g") [G (VDec (mkBD 1 (-5)))]) = (Ok (txt "1e+05"), Ok (txt "1.00e+05")) /\
  (before (txt "%*d") [G (VInt int_min); G (VInt 7)], after (txt "%*d") [G (VInt int_min); G (VInt 7)]) = (Ok (txt "7"), Err (Printf WidthRange)).
Proof. vm_compute. repeat split. Qed.

(** finding 34: a number too small for any division *)
Example C105_tiny : forall ds dtf, GrammarSpec.format dtf (txt "%f") ds ->
  ImplM.format J2 ds [traitsOf J2 (VDec (mkBD 1 2147483647)) RNull] = Err (OtherExn 1) /\
  format' J2 ds [Given (VDec (mkBD 1 2147483647)) RNull] = Ok (txt "0.000000").
Proof.
  intros ds dtf F. apply compile_iff in F. pose proof (compiled_sane _ _ _ F) as Hs. assert (F' : ds = [Default Sf (mkCtx noFlags UNSET UNSET None)]) by (cbv in F; injection F as <-; reflexivity).
  subst ds. assert (D : is_decimal (VDec (mkBD 1 2147483647)) 1 2147483647) by (constructor; split; [vm_compute; reflexivity|lia]).
  apply compile_iff in F. split.
  - refine (proj1 (proj2 (C74_calls_follow_the_reference J2 dtf _ _ _ [] (Some _) J2_ok F _))). apply sy_stop. eapply pc_refused; [apply wi_none|apply pi_none|].
    eapply sh_big_tiny; [reflexivity|exact D|lia|]. cbn. lia.
  - refine (proj1 (proj2 (C105_repaired_calls_follow_the_reference J2 dtf _ _ _ (txt "0.000000" ++ []) None J2_ok F _))). eapply ms_piece; [|apply ms_end].
    eapply pn_shown; [apply wm_none|apply pm_none|]. change (txt "0.000000") with (in_case Sf (finite_text (asked noFlags false 0 None) false (decimal_text 0 6))).
    assert (Hp : printable (VDec (mkBD 1 2147483647))) by (vm_compute; reflexivity).
    pose proof (mn_big_fixed J2 Sf None (asked noFlags false 0 None) (VDec (mkBD 1 2147483647)) 1 2147483647 RNull eq_refl Hp D) as M.
    assert (E : c_f (asked noFlags false 0 None) (1 <? 0) (Z.abs 1) (Z.opp 2147483647) = finite_text (asked noFlags false 0 None) false (decimal_text 0 6)).
    { unfold c_f, f_body. cbv zeta. change (Z.abs 1) with 1. change (prec_or 6 (asked noFlags false 0 None)) with 6. rewrite (FPDecP.hup_beyond 1 1) by (reflexivity || lia). reflexivity. }
    rewrite E in M. exact M.
Qed.

(** the hypotheses of [C105_other_calls_do_not_change] can be met: a padded number, a text, a double *)
Example C105_unchanged_example :
  let args := [G (VInt 42); G (VStr (txt "abc")); G (VDouble 4612811918334230528)] in
  exists ds, GrammarSpec.format (fun _ => true) (txt "%05d|%.2s|%.1f") ds /\ spared J2 ds args /\ format' J2 ds args = Ok (txt "00042|ab|2.5").
Proof.
  cbv zeta. eexists. split; [apply compile_iff; reflexivity|]. split; [|vm_compute; reflexivity].
  cbn [spared]. split; [intros rest E; discriminate E|]. intros l w' a1 p' x rest W P.
  inversion W as [|? ? ? | | | |]; subst; inversion P as [?|? ? ?| | | |]; subst; try (unfold UNSET in *; lia).
  split; [intros T; inversion T; subst; discriminate|].
  cbn [spared]. split; [intros rest0 E; discriminate E|]. intros l0 w0 a0 p0 x0 rest0 W0 P0.
  inversion W0; subst; try (unfold UNSET in *; lia). inversion P0; subst.
  split; [intros T; inversion T; subst; discriminate|].
  cbn [spared]. split; [intros rest1 E; discriminate E|]. intros l1 w1 a2 p1 x1 rest1 W1 P1.
  inversion W1; subst; try (unfold UNSET in *; lia). inversion P1; subst.
  split; [|exact I]. intros T. inversion T; subst; try discriminate; match goal with D : is_decimal _ _ _ |- _ => inversion D end.
Qed.

(** the double 2.5 and the BigDecimals 2.5 and 2.500 stand for the same decimal *)
Example C105_same_number_example :
  decimal_of J2 (VDouble 4612811918334230528) false (dec 25000000000000000 (-16)) /\ decimal_of J2 (VDec (mkBD 25 1)) false (dec 25 (-1)) /\
  decimal_of J2 (VDec (mkBD 2500 3)) false (dec 2500 (-3)) /\ (dec 25000000000000000 (-16) == dec 25 (-1))%Q /\ (dec 25 (-1) == dec 2500 (-3))%Q /\
  (after (txt "%#.9g") [G (VDouble 4612811918334230528)] = Ok (txt "2.50000000") /\ after (txt "%#.9g") [G (VDec (mkBD 25 1))] = Ok (txt "2.50000000") /\
   after (txt "%#.9g") [G (VDec (mkBD 2500 3))] = Ok (txt "2.50000000")).
Proof.
  split; [apply (do_double J2 (VDouble 4612811918334230528) 4612811918334230528); [apply id_double; split; vm_compute; congruence|exact digits_2_5]|].
  split; [apply (do_big J2 (VDec (mkBD 25 1)) 25 1); constructor; split; [vm_compute; reflexivity|lia]|].
  split; [apply (do_big J2 (VDec (mkBD 2500 3)) 2500 3); constructor; split; [vm_compute; reflexivity|lia]|].
  vm_compute. repeat split.
Qed.
Example C105_width_example : meant J2 Sg None (mkSpec false false false false false 12 (Some 3)) (G (VDec (mkBD 25 1))) (Ok (txt "         2.5")).
Proof.
  change (txt "         2.5") with (in_case Sg (c_g (mkSpec false false false false false 12 (Some 3)) (25 <? 0) (Z.abs 25) (- (1)))).
  apply mn_big_general; [reflexivity|constructor; split; [vm_compute; reflexivity|lia]|right; vm_compute; discriminate].
Qed.
Example C105_subSequence_example : exists u, s_sub' two_parts 1 3 = Ok u /\ den u (txt "bc") /\ s_len u = 2.
Proof.
  destruct (C105_subSequence two_parts (txt "abcd") 1 3) as (u & E & D); try (vm_compute; congruence).
  - apply (s_append_den (wrapS (txt "ab")) (wrapS (txt "cd")) (txt "ab") (txt "cd")); try (apply wrapS_den; vm_compute; congruence); vm_compute; congruence.
  - exists u. split; [exact E|]. split; [exact D|]. rewrite (den_len _ _ D). reflexivity.
Qed.
