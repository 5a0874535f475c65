(** C07, C08, C14, C45 for the floating-point conversions. *)
From Coq Require Import QArith.
From Verif Require Import Base Digits UtilsM SeqM SeqSpec ContextM CompilerM GrammarSpec IntFormM FormatterM MathM DecimalM FPDecimalM
  DoubleM BigDecM RoundM TraitsM ImplM FmtSpec DirSpec DecSpec FloatSpec BigSpec LoopSpec IntP PropsInt PropsFloat PropsBig WidthP.
Open Scope Z_scope.

(** C07: the text has the length of the text printed without a width, or the width, whichever is longer.
    Covered ([float_arg], WidthP.v): all eight conversions of every double, infinity and NaN; %f %F %e %E of BigDecimal and BigInteger.
    Missing: %g and %G of BigDecimal and BigInteger, for which it is false. *)
Theorem C07_width_is_a_minimum_floating_partial :
  forall J s v r src src0 q, float_arg J s v -> directive src s q -> directive src0 s (no_width q) ->
  exists t t0, prints J src [traitsOf J v r] t /\ prints J src0 [traitsOf J v r] t0 /\ zlen t = Z.max (q_width q) (zlen t0).
Proof. exact float_width. Qed.
Print Assumptions C07_width_is_a_minimum_floating_partial.

(** width 10 asked, 14 characters printed, although the number needs 5 *)
Theorem C07_decimal_general_notation_refuted :
  exists src src0 q, directive src Sg q /\ directive src0 Sg (no_width q) /\ q_width q = 10 /\
    forall J r, prints J src0 [traitsOf J (VDec (mkBD 10050 2)) r] (txt "100.5") /\
      prints J src [traitsOf J (VDec (mkBD 10050 2)) r] (txt "         100.5").
Proof.
  exists (txt "%10g"), (txt "%g"), (mkSpec false false false false false 10 None).
  assert (D : directive (txt "%10g") Sg (mkSpec false false false false false 10 None)).
  { change (txt "%10g") with (pct :: [] ++ txt "10" ++ [] ++ [ch "g"]).
    is_dir (dir_text [] (mkFlags false false false false false) (txt "10") 10 [] UNSET). }
  split; [exact D|]. split; [exact dir_g|]. split; [reflexivity|]. intros J r. split.
  - apply (g_prints J _ Sg _ (VDec (mkBD 10050 2)) 10050 2 r dir_g); [auto|decimal_arg|vm_compute; discriminate].
  - apply (g_prints J _ Sg _ (VDec (mkBD 10050 2)) 10050 2 r D); [auto|decimal_arg|vm_compute; discriminate].
Qed.
Print Assumptions C07_decimal_general_notation_refuted.

(** C08: without zero padding only spaces are added, on the side '-' selects *)
Theorem C08_justification_floating_partial :
  forall J s v r src src0 q, float_arg J s v -> directive src s q -> directive src0 s (no_width q) -> q_zero q = false \/ q_left q = true ->
  exists t0, prints J src0 [traitsOf J v r] t0 /\ prints J src [traitsOf J v r] (justify q t0).
Proof. exact float_justified. Qed.
Print Assumptions C08_justification_floating_partial.

(** C45: zeros between the sign (and 0x) and the digits, up to the width *)
Theorem C45_floating_zero_padding_partial :
  forall J s v r src src0 q, finite_arg J s v -> directive src s q -> directive src0 s (no_width q) -> q_zero q = true -> q_left q = false ->
  exists pre body, float_prefix s q pre /\ prints J src0 [traitsOf J v r] (pre ++ body) /\
    prints J src [traitsOf J v r] (pre ++ zeros (q_width q - zlen (pre ++ body)) ++ body).
Proof. exact finite_zeros. Qed.
Print Assumptions C45_floating_zero_padding_partial.

(** C14: a '*' width of zero is no width *)
Theorem C14_star_width_zero_floating_partial :
  forall J s v r w0 F fl P p c, float_arg J s v -> flags_text F fl -> prec_text P p -> p <> PRECEDING -> conv_char c s ->
  t_asInt w0 = Ok 0 ->
  exists t, prints J (pct :: F ++ txt "*" ++ P ++ [c]) [w0; traitsOf J v r] t /\ prints J (pct :: F ++ P ++ [c]) [traitsOf J v r] t.
Proof. exact float_star_zero. Qed.
Print Assumptions C14_star_width_zero_floating_partial.

(** the hypotheses are met: "%012.3E" of -0.0, of an infinity, of a BigDecimal *)
Example C07_floating_example :
  float_arg J0 SE (VDouble (-9223372036854775808)) /\ finite_arg J0 SE (VDouble (-9223372036854775808)) /\
  float_arg J0 SE (VDouble inf_bits) /\ float_arg J0 SE (VDec (mkBD (-5) 400)) /\ float_arg J0 SF (VBig (10 ^ 50)) /\
  directive (txt "%012.3E") SE (mkSpec false false false false true 12 (Some 3)) /\
  directive (txt "%0.3E") SE (no_width (mkSpec false false false false true 12 (Some 3))) /\
  prints J0 (txt "%012.3E") [traitsOf J0 (VDouble (-9223372036854775808)) RPrimitive] (txt "-000.000E+00").
Proof.
  assert (D : directive (txt "%012.3E") SE (mkSpec false false false false true 12 (Some 3))).
  { change (txt "%012.3E") with (pct :: txt "0" ++ txt "12" ++ txt ".3" ++ [ch "E"]).
    is_dir (dir_text (txt "0") (mkFlags false false false false true) (txt "12") 12 (txt ".3") 3). }
  assert (I : is_double J0 (VDouble (-9223372036854775808)) (-9223372036854775808)) by (constructor; vm_compute; split; congruence).
  assert (S : is_float_spec SE) by (unfold is_float_spec; tauto).
  split; [apply (fa_double J0 _ _ _ S I)|]. split; [apply (fi_double J0 _ _ _ S I); reflexivity|].
  split; [apply (fa_double J0 SE (VDouble inf_bits) inf_bits S); constructor; vm_compute; split; congruence|].
  split; [apply (fa_exp J0 SE _ (-5) 400); [auto|decimal_arg|vm_compute; discriminate]|].
  split; [apply (fa_fixed J0 SF _ (10 ^ 50) 0); [auto|decimal_arg|split; [vm_compute; reflexivity|lia]]|].
  split; [exact D|]. split.
  { change (txt "%0.3E") with (pct :: txt "0" ++ [] ++ txt ".3" ++ [ch "E"]).
    is_dir (dir_text (txt "0") (mkFlags false false false false true) [] UNSET (txt ".3") 3). }
  apply (C30_scientific_zero J0 _ SE _ (VDouble (-9223372036854775808)) (-9223372036854775808) RPrimitive D); [auto|exact I|reflexivity].
Qed.
