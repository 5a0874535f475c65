(** C74: the complete reference for whole calls. C32: the exact text of %g and %#g. *)
From Coq Require Import QArith.
From Verif Require Import Base Digits UtilsM SeqM SeqSpec SeqP ContextM CompilerM GrammarSpec CompilerP2 IntFormM FormatterM MathM DecimalM FPDecimalM
  DoubleM BigDecM RoundM TraitsM ImplM ImplP FmtSpec FmtP DecSpec FloatSpec BigSpec DirSpec LoopSpec LoopP IntP PropsInt NearP FloatP DoubleP FloatArgP PropsFloat
  ExactSpec ScaleSpec ScaleP ValueSpec ValueP PropsValue WholeSpec WholeP.
Open Scope Z_scope.

(** ** C32: which digits %g prints *)

(** every finite double has exactly one such decimal *)
Theorem C32_digits_exist : forall b, finite b -> exists f e, its_digits b f e /\ forall f' e', its_digits b f' e' -> f' = f /\ e' = e.
Proof.
  intros b H. destruct (digits_exist b H) as (f & e & D). exists f, e. split; [exact D|]. intros f' e' D'. exact (digits_unique b f' e' f e D' D).
Qed.
Print Assumptions C32_digits_exist.

(** %g, with and without '#', for every finite double, precision and flag *)
Theorem C32_general_exact : forall J src s q v b r f e,
  directive src s q -> s = Sg \/ s = SG -> is_double J v b -> its_digits b f e ->
  prints J src [traitsOf J v r] (cased s (j_g q (b <? 0) f e)).
Proof.
  intros J src s q v b r f e Hd Hs Hv Hi. apply digits_printed in Hi.
  apply (conv_prints J _ s _ v b r _ Hd); [unfold is_float_spec; tauto|exact Hv|].
  intros c F Hr Hq EF. assert (F = fmt_g c) as -> by (destruct Hs as [-> | ->]; cbn in EF; congruence).
  destruct (fmt_g_double c b f e Hr Hi) as (u & Eu & Du). exists u. split; [exact Eu|]. rewrite Hq in Du. exact Du.
Qed.
Print Assumptions C32_general_exact.

(** 2.5 is written with the digits 25000000000000000: the interval around it is 2^-51, so 10^-16 fits and 10^-15 does not *)
Lemma digits_2_5 : its_digits 4612811918334230528 25000000000000000 (-16).
Proof. apply digits_printed. apply printed_by; [vm_compute; split; reflexivity|vm_compute; reflexivity]. Qed.
Example C32_exact_example : prints J2 (txt "%#.3g") [traitsOf J2 (VDouble 4612811918334230528) RPrimitive] (txt "2.50").
Proof.
  assert (D : directive (txt "%#.3g") Sg (mkSpec false true false false false 0 (Some 3))).
  { change (txt "%#.3g") with (pct :: txt "#" ++ [] ++ txt ".3" ++ [ch "g"]).
    is_dir (dir_text (txt "#") (mkFlags false true false false false) [] UNSET (txt ".3") 3). }
  exact (C32_general_exact J2 _ Sg _ (VDouble 4612811918334230528) 4612811918334230528 RPrimitive _ _ D (or_introl eq_refl)
    (id_double J2 4612811918334230528 ltac:(vm_compute; split; congruence)) digits_2_5).
Qed.

(** ** C74: whole calls *)

(** what the reference says is what happens: the text in the target, and the exception *)
Theorem C74_calls_follow_the_reference : forall J dtf src ds args t o,
  jdk_ok J -> GrammarSpec.format dtf src ds -> says J ds args t o ->
  compile dtf src = Ok ds /\
  ImplM.format J ds args = match o with None => Ok t | Some e => Err e end /\
  forall sb target, formatInto J sb ds args target = (target ++ t, o).
Proof.
  intros J dtf src ds args t o HJ F S. apply compile_iff in F. pose proof (says_runs J ds args t o HJ (compiled_sane _ _ _ F) S) as R.
  split; [exact F|]. split.
  - unfold ImplM.format. rewrite (R _ emits_sb []). destruct o; reflexivity.
  - intros sb target. apply R. destruct sb; [left|right]; reflexivity.
Qed.
Print Assumptions C74_calls_follow_the_reference.

(** the reference says exactly one thing about every format string and all arguments *)
Theorem C74_the_reference_is_complete : forall J dtf src ds args,
  jdk_ok J -> GrammarSpec.format dtf src ds -> Forall (argument J) args ->
  exists t o, says J ds args t o /\ forall t' o', says J ds args t' o' -> t' = t /\ o' = o.
Proof.
  intros J dtf src ds args HJ F Ha. apply compile_iff, compiled_sane in F. destruct (says_total J ds HJ F args Ha) as (t & o & S).
  exists t, o. split; [exact S|]. intros t' o' S'. exact (says_unique J ds args t' o' t o HJ F S' S).
Qed.
Print Assumptions C74_the_reference_is_complete.

(** so a call gives exactly what the reference says *)
Theorem C74_calls_give_exactly_the_reference : forall J dtf src ds args t o target,
  jdk_ok J -> GrammarSpec.format dtf src ds -> Forall (argument J) args ->
  (says J ds args t o <-> forall sb, formatInto J sb ds args target = (target ++ t, o)).
Proof.
  intros J dtf src ds args t o target HJ F Ha. split.
  - intros S sb. apply (C74_calls_follow_the_reference J dtf src ds args t o HJ F S).
  - intros E. destruct (C74_the_reference_is_complete J dtf src ds args HJ F Ha) as (t' & o' & S & _).
    pose proof (proj2 (proj2 (C74_calls_follow_the_reference J dtf src ds args t' o' HJ F S)) true target) as E'.
    rewrite (E true) in E'. injection E' as E1 E2. apply app_inv_head in E1. subst. exact S.
Qed.
Print Assumptions C74_calls_give_exactly_the_reference.

(** for every text: a format string is refused, or every call is as the reference says *)
Theorem C74_every_call : forall J dtf src args, jdk_ok J -> Forall (argument J) args ->
  (exists e, compile dtf src = Err e /\ forall ds, ~ GrammarSpec.format dtf src ds) \/
  (exists ds t o, GrammarSpec.format dtf src ds /\ says J ds args t o /\ forall sb target, formatInto J sb ds args target = (target ++ t, o)).
Proof.
  intros J dtf src args HJ Ha. destruct (compile dtf src) as [ds|e] eqn:E.
  - right. apply compile_iff in E. destruct (C74_the_reference_is_complete J dtf src ds args HJ E Ha) as (t & o & S & _). exists ds, t, o.
    split; [exact E|]. split; [exact S|]. apply (C74_calls_follow_the_reference J dtf src ds args t o HJ E S).
  - left. exists e. split; [reflexivity|]. intros ds F. apply compile_iff in F. congruence.
Qed.
Print Assumptions C74_every_call.

(** one conversion shows every argument in exactly one way *)
Theorem C74_conversions_are_complete : forall J s d q x, jdk_ok J -> argument J x -> 0 <= q_width q <= 65536 ->
  (match q_prec q with Some p => 0 <= p <= 65536 | None => True end) ->
  exists o, shown J s d q x o /\ forall o', shown J s d q x o' -> o' = o.
Proof.
  intros J s d q x HJ Hx Hw Hp. destruct (shown_total J x s d q HJ Hx) as [o S]. exists o. split; [exact S|]. intros o' S'.
  set (c := mkCtx (mkFlags (q_left q) (q_alt q) (q_plus q) (q_space q) (q_zero q)) (q_width q) (match q_prec q with Some p => p | None => UNSET end) d).
  assert (Hc : rt_ok c).
  { split; cbn; [right; left; exact Hw|]. destruct (q_prec q); [right; exact Hp|left; reflexivity]. }
  assert (Hq : q_of c = q).
  { unfold q_of. cbn. destruct q as [l a p s0 z w pr]. cbn in *. rewrite Z.max_r by lia. f_equal. destruct pr as [n|]; [|reflexivity].
    replace (n <? 0) with false by (symmetry; apply Z.ltb_ge; lia). reflexivity. }
  pose proof (shown_gives J s d q x o c HJ S Hc Hq eq_refl) as G. pose proof (shown_gives J s d q x o' c HJ S' Hc Hq eq_refl) as G'.
  unfold gives in *. destruct o as [t|e], o' as [t'|e'].
  - destruct G as (u & E & W), G' as (u' & E' & W'). rewrite E in E'. injection E' as <-. f_equal.
    pose proof (emitSB_wden u t [] W) as A. rewrite (emitSB_wden u t' [] W') in A. cbn [app] in A. congruence.
  - destruct G as (u & E & W). congruence.
  - destruct G' as (u & E & W). congruence.
  - congruence.
Qed.
Print Assumptions C74_conversions_are_complete.

(** examples: a width from an argument, literal text, a text, a double; then an argument that is refused *)
Example C74_example :
  let args := [traitsOf J2 (VInt (-4)) RPrimitive; traitsOf J2 (VInt 42) RPrimitive; traitsOf J2 (VStr (txt "ab")) RNull;
               traitsOf J2 (VDouble 4612811918334230528) RPrimitive; traitsOf J2 (VBig (-1)) RNull] in
  exists ds, GrammarSpec.format (fun _ => true) (txt "%*d|%S|%.2f<%x>") ds /\
    says J2 ds args (txt "42  |AB|2.50<") (Some (Printf NegativeUnsigned)).
Proof.
  cbv zeta. eexists. split; [apply compile_iff; reflexivity|].
  change (txt "42  |AB|2.50<") with (txt "42  " ++ txt "|" ++ txt "AB" ++ txt "|" ++ txt "2.50" ++ txt "<" ++ []).
  eapply sy_piece.
  { eapply pc_shown.
    - apply (wi_negative J2 false 4); [apply tk_int, st_int, iv_int; split; vm_compute; congruence|lia].
    - apply pi_none.
    - apply (sh_signed J2 Sd None (asked noFlags true 4 None) (VInt 42) 42); [reflexivity|]. exists (Some 32). apply ii_int. split; vm_compute; congruence. }
  eapply sy_piece; [apply pc_literal|].
  eapply sy_piece.
  { eapply pc_shown; [apply wi_none|apply pi_none|]. apply (sh_text J2 SS None (asked noFlags false 0 None) (VStr (txt "ab")) (txt "ab"));
      [reflexivity|discriminate|constructor|vm_compute; discriminate]. }
  eapply sy_piece; [apply pc_literal|].
  eapply sy_piece.
  { eapply pc_shown; [apply wi_none|apply (pi_number J2 2); lia|].
    apply (sh_fixed J2 Sf None (asked noFlags false 0 (Some 2)) (VDouble 4612811918334230528) 4612811918334230528 25000000000000000 (-16) RPrimitive eq_refl);
      [apply id_double; split; vm_compute; congruence|exact digits_2_5]. }
  eapply sy_piece; [apply pc_literal|]. apply sy_stop.
  eapply pc_refused; [apply wi_none|apply pi_none|]. apply (sh_negative J2 Sx None _ (VBig (-1)) (-1)); [reflexivity|apply ii_big; vm_compute; reflexivity|lia].
Qed.
(** and so the call, by the theorem; the model agrees *)
Example C74_example_call :
  let args := [traitsOf J2 (VInt (-4)) RPrimitive; traitsOf J2 (VInt 42) RPrimitive; traitsOf J2 (VStr (txt "ab")) RNull;
               traitsOf J2 (VDouble 4612811918334230528) RPrimitive; traitsOf J2 (VBig (-1)) RNull] in
  exists ds, compile (fun _ => true) (txt "%*d|%S|%.2f<%x>") = Ok ds /\ ImplM.format J2 ds args = Err (Printf NegativeUnsigned) /\
    formatInto J2 true ds args (txt ">") = (txt ">42  |AB|2.50<", Some (Printf NegativeUnsigned)).
Proof. cbv zeta. eexists. split; [reflexivity|]. split; vm_compute; reflexivity. Qed.
