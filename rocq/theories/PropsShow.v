(** C71: the debugging texts of number wrappers and layouts. *)
From Verif Require Import Base Digits UtilsM SeqM SeqSpec SeqP ContextM IntFormM FormatterM
  MathM DecimalM FPDecimalM DoubleM BigDecM RoundM TraitsM ImplM FmtSpec FmtP DirSpec IntP PropsInt ShowM.

(** An integer wrapper: the sign and the digits the formatter uses, together the decimal text of the number. [fits w z]: the
    number [z] is one of [w] bits (None: a BigInteger). *)
Theorem C71_integers : forall w z, fits w z ->
  let shown := match w with None => bigText z | Some _ => machineText z end in
  shown = dec_text z /\
  exists digits, i_dec (form_of w z) = Ok digits /\ shown = (if i_signum (form_of w z) <? 0 then txt "-" else []) ++ digits.
Proof.
  intros w z H. destruct (form_view w z H) as ((Es & Ed) & _).
  assert (B : bigText z = dec_text z).
  { unfold bigText, signedText, dec_text. destruct z; cbn [Z.sgn Z.abs]; reflexivity. }
  cbv zeta. assert (S : match w with None => bigText z | Some _ => machineText z end = dec_text z) by (destruct w; [reflexivity|exact B]).
  split; [exact S|]. exists (numeral 10 (Z.abs z)). split; [exact Ed|]. rewrite S, Es. unfold dec_text.
  destruct z; cbn [Z.sgn Z.abs Z.opp]; reflexivity.
Qed.
Print Assumptions C71_integers.

(** A BigDecimal wrapper shows the number, provided BigDecimal.toString gives a negative number the text of the positive one
    behind a '-' *)
Theorem C71_decimals : forall J d, (forall u s, u < 0 -> j_bigDecText J (mkBD u s) = txt "-" ++ j_bigDecText J (mkBD (- u) s)) ->
  decText J d = j_bigDecText J d.
Proof.
  intros J [u s] H. unfold decText, signedText, bd_abs. cbn [bd_u bd_s]. destruct u as [|p|p]; cbn [Z.sgn Z.abs].
  - reflexivity.
  - reflexivity.
  - rewrite (H (Z.neg p) s) by lia. reflexivity.
Qed.
Print Assumptions C71_decimals.

(** A layout shows its parts. *)
Theorem C71_layouts : forall l m, wden (l_mant l) m ->
  (l_exp l = None -> layoutText l = Ok m) /\
  (forall x e, l_exp l = Some x -> wden x e -> layoutText l = Ok (m ++ txt "e" ++ e)).
Proof.
  intros l m Hm. unfold layoutText. rewrite (s_toSB_wden _ _ [] Hm). cbn [bind app]. split.
  - intros ->. reflexivity.
  - intros x e -> He. rewrite (s_toSB_wden _ _ _ He). rewrite <- app_assoc. reflexivity.
Qed.
Print Assumptions C71_layouts.

Example C71_example :
  machineText int_min = txt "-2147483648" /\ bigText (-7) = txt "-7" /\
  (let* l := dbl_scientific 0x40c81c8000000000 3 in layoutText l) = Ok (txt "1.235e+04") /\
  (let* l := dbl_decimal 0x40c81c8000000000 2 in layoutText l) = Ok (txt "12345").
Proof. repeat split; vm_compute; reflexivity. Qed.
