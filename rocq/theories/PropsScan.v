(** C97: fields separated by other text can be found again in the printed line. *)
From Coq Require Import QArith.
From Verif Require Import Base Digits SeqM SeqSpec ContextM CompilerM GrammarSpec FormatterM MathM DecimalM BigDecM TraitsM ImplM
  FmtSpec DecSpec FloatSpec BigSpec DirSpec LoopSpec LoopP ExactSpec ScaleSpec ValueSpec PropsValue WholeSpec CompilerP2 IntP PropsInt PropsWhole
  ReadSpec ReadFSpec ScanSpec ScanP ScanP2 ScanP3.
Open Scope Z_scope.

(** if every directive prints one word, and what follows it does not go on with a word, the scanner finds these words: it needs the
    literals of the format only, so widths, precisions and '*' make no difference *)
Theorem C97_fields_are_found : forall W J dtf src ds args ws,
  W 32 = false -> jdk_ok J -> GrammarSpec.format dtf src ds -> separated W ds -> worded W J ds args ws ->
  exists t, ImplM.format J ds args = Ok t /\ (forall sb target, formatInto J sb ds args target = (target ++ t, None)) /\
    scan W ds t = Some ws /\ length ws = length (convs ds).
Proof.
  intros W J dtf src ds args ws HW HJ F S H. destruct (worded_scan W HW J ds args ws H S) as (t & Y & C & _). exists t.
  destruct (C74_calls_follow_the_reference J dtf src ds args t None HJ F Y) as (_ & A & B). repeat split; try assumption. apply (worded_length W J ds args ws H).
Qed.
Print Assumptions C97_fields_are_found.

(** what a number conversion prints is one word, whatever the argument (infinities, NaN and big decimals included), the flags and the width;
    the blank of the ' ' flag counts as padding. Integers need a precision other than 0. *)
Theorem C97_numbers_are_words : forall J s pat q x t,
  shown J s pat q x (Ok t) -> integer_conv s || float_spec s = true -> (integer_conv s = true -> q_prec q <> Some 0) ->
  exists w, field (of_chars number_chars) t w.
Proof. exact shown_field. Qed.
Print Assumptions C97_numbers_are_words.

(** decimal and octal integers use digits and signs only, so letters may separate them *)
Theorem C97_integers_are_digits : forall J s pat q x t,
  shown J s pat q x (Ok t) -> s = Sd \/ s = Su \/ s = So -> q_prec q <> Some 0 -> exists w, field (of_chars digit_chars) t w.
Proof. exact shown_digits. Qed.
Print Assumptions C97_integers_are_digits.

(** numbers printed without loss come back: every integer, and every finite double printed with enough digits *)
Theorem C97_numbers_come_back : forall J dtf src ds args xs,
  jdk_ok J -> GrammarSpec.format dtf src ds -> separated (of_chars number_chars) ds -> numbers J ds args xs ->
  exists t ws, ImplM.format J ds args = Ok t /\ (forall sb target, formatInto J sb ds args target = (target ++ t, None)) /\
    scan (of_chars number_chars) ds t = Some ws /\ all_tell (convs ds) ws xs.
Proof.
  intros J dtf src ds args xs HJ F S H. pose proof F as F'. apply compile_iff, compiled_sane in F'.
  destruct (numbers_worded J ds args xs HJ F' H) as (ws & A & B).
  destruct (C97_fields_are_found wordb J dtf src ds args ws eq_refl HJ F S A) as (t & E1 & E2 & E3 & _). exists t, ws. repeat split; assumption.
Qed.
Print Assumptions C97_numbers_come_back.

(** so the line printed determines all the numbers, even when widths and precisions are arguments *)
Theorem C97_same_line_same_numbers : forall J dtf src ds args xs args' xs' t,
  jdk_ok J -> GrammarSpec.format dtf src ds -> separated (of_chars number_chars) ds -> numbers J ds args xs -> numbers J ds args' xs' ->
  ImplM.format J ds args = Ok t -> ImplM.format J ds args' = Ok t -> xs = xs'.
Proof.
  intros J dtf src ds args xs args' xs' t HJ F S H H' E E'.
  destruct (C97_numbers_come_back J dtf src ds args xs HJ F S H) as (t1 & ws & E1 & _ & C1 & T1).
  destruct (C97_numbers_come_back J dtf src ds args' xs' HJ F S H') as (t2 & ws2 & E2 & _ & C2 & T2).
  assert (t1 = t) by congruence. assert (t2 = t) by congruence. subst t1 t2. assert (ws2 = ws) by congruence. subst ws2.
  exact (all_tell_once _ _ _ _ T1 T2).
Qed.
Print Assumptions C97_same_line_same_numbers.

(** without a separator this is false: "%d%d" of 1, 23 and of 12, 3 *)
Theorem C97_adjacent_fields_refuted : exists src ds args xs args' xs' t,
  GrammarSpec.format (fun _ => true) src ds /\ xs <> xs' /\ numbers J2 ds args xs /\ numbers J2 ds args' xs' /\
  ImplM.format J2 ds args = Ok t /\ ImplM.format J2 ds args' = Ok t.
Proof.
  set (i := fun z => traitsOf J2 (VInt z) RPrimitive). set (c := mkCtx noFlags UNSET UNSET None).
  exists (txt "%d%d"), [Default Sd c; Default Sd c], [i 1; i 23], [NInt 1; NInt 23], [i 12; i 3], [NInt 12; NInt 3], (txt "123").
  split; [apply compile_iff; reflexivity|]. split; [discriminate|].
  assert (G : forall a b, in_range 32 a -> in_range 32 b -> numbers J2 [Default Sd c; Default Sd c] [i a; i b] [NInt a; NInt b]).
  { intros a b Ha Hb. assert (I : forall z, in_range 32 z -> integer_of J2 Sd (VInt z) z) by (intros z Hz; left; split; [reflexivity|]; exists (Some 32); apply ii_int; exact Hz).
    eapply nu_integer; [apply wi_none|apply pi_none|discriminate|apply I, Ha|]. eapply nu_integer; [apply wi_none|apply pi_none|discriminate|apply I, Hb|constructor]. }
  split; [apply G; split; vm_compute; congruence|]. split; [apply G; split; vm_compute; congruence|]. split; vm_compute; reflexivity.
Qed.
Print Assumptions C97_adjacent_fields_refuted.

(** with precision 0 a zero prints nothing, and there is no word to be found: "%.0d,%d" *)
Theorem C97_precision_zero_refuted : exists src ds args t,
  GrammarSpec.format (fun _ => true) src ds /\ separated (of_chars number_chars) ds /\ ImplM.format J2 ds args = Ok t /\ scan (of_chars number_chars) ds t = None.
Proof.
  exists (txt "%.0d,%d"), [Default Sd (mkCtx noFlags UNSET 0 None); Fixed (txt ","); Default Sd (mkCtx noFlags UNSET UNSET None)],
    [traitsOf J2 (VInt 0) RPrimitive; traitsOf J2 (VInt 5) RPrimitive], (txt ",5").
  split; [apply compile_iff; reflexivity|]. split; [repeat split|]. split; vm_compute; reflexivity.
Qed.
Print Assumptions C97_precision_zero_refuted.

(** "%*d, % 06d; %#x" of (-6, 42), 7, 255 *)
Example C97_example :
  let i z := traitsOf J2 (VInt z) RPrimitive in
  exists ds, GrammarSpec.format (fun _ => true) (txt "%*d, % 06d; %#x") ds /\ separated (of_chars number_chars) ds /\
    numbers J2 ds [i (-6); i 42; i 7; i 255] [NInt 42; NInt 7; NInt 255] /\
    ImplM.format J2 ds [i (-6); i 42; i 7; i 255] = Ok (txt "42    ,  00007; 0xff") /\
    scan (of_chars number_chars) ds (txt "42    ,  00007; 0xff") = Some [txt "42"; txt "00007"; txt "0xff"] /\
    all_tell (convs ds) [txt "42"; txt "00007"; txt "0xff"] [NInt 42; NInt 7; NInt 255].
Proof.
  cbv zeta. eexists. split; [apply compile_iff; reflexivity|]. split; [repeat split|]. split; [|repeat split; vm_compute; reflexivity].
  assert (R : forall z, 0 <= z < 1000 -> in_range 32 z) by (intros z Hz; unfold in_range; change (2 ^ (32 - 1)) with 2147483648; lia).
  assert (I : forall z, in_range 32 z -> is_integer J2 (VInt z) z) by (intros z Hz; exists (Some 32); apply ii_int; exact Hz).
  eapply nu_integer; [apply (wi_negative J2 false 6); [apply tk_int, st_int, iv_int; split; vm_compute; congruence|lia]|apply pi_none|discriminate|left; split; [reflexivity|apply I, R; lia]|].
  apply nu_literal. eapply nu_integer; [apply wi_number; vm_compute; discriminate|apply pi_none|discriminate|left; split; [reflexivity|apply I, R; lia]|].
  apply nu_literal. eapply nu_integer; [apply wi_none|apply pi_none|discriminate|right; split; [reflexivity|]|constructor].
  exists (Some 32), 255. split; [apply ii_int, R; lia|reflexivity].
Qed.

(** 2.5 twice, in decimal and in hexadecimal *)
Example C97_double_example :
  let d b := traitsOf J2 (VDouble b) RPrimitive in
  exists ds, GrammarSpec.format (fun _ => true) (txt "x = %+.17e, y = %a") ds /\ separated (of_chars number_chars) ds /\
    numbers J2 ds [d 4612811918334230528; d 4612811918334230528] [NDouble 4612811918334230528; NDouble 4612811918334230528] /\
    ImplM.format J2 ds [d 4612811918334230528; d 4612811918334230528] = Ok (txt "x = +2.50000000000000000e+00, y = 0x1.4p+1") /\
    scan (of_chars number_chars) ds (txt "x = +2.50000000000000000e+00, y = 0x1.4p+1") = Some [txt "+2.50000000000000000e+00"; txt "0x1.4p+1"].
Proof.
  cbv zeta. eexists. split; [apply compile_iff; reflexivity|]. split; [repeat split|]. split; [|repeat split; vm_compute; reflexivity].
  assert (D : is_double J2 (VDouble 4612811918334230528) 4612811918334230528) by (constructor; split; vm_compute; congruence).
  assert (Fi : finite 4612811918334230528) by (vm_compute; reflexivity).
  apply nu_literal. eapply nu_double; [apply wi_none|apply pi_number; vm_compute; discriminate|left; vm_compute; discriminate|exact D|exact Fi|].
  apply nu_literal. eapply nu_double; [apply wi_none|apply pi_none|right; split; [reflexivity|discriminate]|exact D|exact Fi|constructor].
Qed.
