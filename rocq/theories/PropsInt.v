(** Properties C07-C12, C21, C45: integer, character and string conversions. *)
From Verif Require Import Base Digits SeqM SeqSpec ContextM CompilerM GrammarSpec IntFormM FormatterM FmtSpec FmtP2 BigDecM TraitsM UtilsM
  ImplM DirSpec ReadSpec SeqExpr ReadP IntP.

Definition J0 : jdk := mkJdk (fun _ => []) (fun _ => []) (fun _ => None) (fun _ _ => Err NullPtr) (fun _ => Err NullPtr)
  (fun _ => None) (fun _ => []) (fun _ => []) (fun c => if (48 <=? c) && (c <=? 57) then Some (c - 48) else None).

(** C07: the text a directive prints is as long as the width or as what the same directive prints without
    width, whichever is longer. [renders] lists the conversions covered (DirSpec.v). *)
Theorem C07_width_is_a_minimum :
  forall J s x T, renders J s x T ->
  forall src src0 q, directive src s q -> directive src0 s (no_width q) ->
    prints J src [x] (T q) /\ prints J src0 [x] (T (no_width q)) /\
    zlen (T q) = Z.max (q_width q) (zlen (T (no_width q))).
Proof.
  exact (fun J s x T H src src0 q D D0 =>
    conj (renders_prints J src s q x T D H) (conj (renders_prints J src0 s _ x T D0 H) (renders_width J s x T q H))).
Qed.
Print Assumptions C07_width_is_a_minimum.

Example C07_example : directive (txt "%+08.3d") Sd (mkSpec false false true false true 8 (Some 3)) /\
  prints J0 (txt "%+08.3d") [traitsOf J0 (VInt 7) RPrimitive] (txt "    +007").
Proof.
  assert (D : directive (txt "%+08.3d") Sd (mkSpec false false true false true 8 (Some 3))).
  { change (txt "%+08.3d") with (pct :: txt "+0" ++ txt "8" ++ txt ".3" ++ [ch "d"]).
    is_dir (dir_text (txt "+0") (mkFlags false false true false true) (txt "8") 8 (txt ".3") 3). }
  split; [exact D|].
  apply (renders_prints J0 _ Sd _ _ (fun q => j_d q 7) D). constructor. exists (Some 32). constructor. vm_compute; split; congruence.
Qed.

(** C08: without the '0' flag the text is the unpadded one with spaces on one side: [justify] (FmtSpec.v). *)
Theorem C08_justification_adds_spaces_on_one_side :
  forall J s x T, renders J s x T ->
  forall src src0 q, directive src s q -> directive src0 s (no_width q) -> q_zero q = false ->
    prints J src0 [x] (T (no_width q)) /\
    prints J src [x] (if q_left q then T (no_width q) ++ rep 32 (q_width q - zlen (T (no_width q)))
                      else rep 32 (q_width q - zlen (T (no_width q))) ++ T (no_width q)).
Proof.
  exact (fun J s x T H src src0 q D D0 Hz =>
    conj (renders_prints J src0 s _ x T D0 H)
         (eq_ind (T q) (prints J src [x]) (renders_prints J src s q x T D H) _ (renders_justified J s x T q H Hz))).
Qed.
Print Assumptions C08_justification_adds_spaces_on_one_side.

Example C08_example :
  map (fun q => c_s q (txt "abc")) [mkSpec true false false false false 6 None; mkSpec false false false false false 6 (Some 2)]
  = [txt "abc   "; txt "    ab"].
Proof. reflexivity. Qed.

(** C09: %d is C's %d, except for "% .0d" of 0 (C09_space_with_zero_precision_refuted). *)
Theorem C09_decimal_is_C :
  forall J v z r src q, is_integer J v z -> directive src Sd q ->
    ~ (z = 0 /\ q_prec q = Some 0 /\ q_space q = true /\ q_plus q = false) ->
    prints J src [traitsOf J v r] (c_d q z).
Proof. exact d_is_C. Qed.
Print Assumptions C09_decimal_is_C.

(** C09: the printed text always reads back as the integer. *)
Theorem C09_decimal_reads_back :
  forall J v z r src q, is_integer J v z -> directive src Sd q ->
    exists t, prints J src [traitsOf J v r] t /\ read_int t = z.
Proof. exact d_reads_back. Qed.
Print Assumptions C09_decimal_reads_back.

(** C09 is false for "% .0d" of 0: C prints the space, fast-printf nothing. *)
Theorem C09_space_with_zero_precision_refuted :
  exists src q, directive src Sd q /\ forall J, prints J src [traitsOf J (VInt 0) RPrimitive] [] /\ c_d q 0 = txt " ".
Proof.
  exists (txt "% .0d"), (mkSpec false false false true false 0 (Some 0)). split.
  - is_dir (dir_text (txt " ") (mkFlags false false false true false) [] UNSET (txt ".0") 0 (ch "d")).
  - intros J. split; [|reflexivity]. intros dtf. eexists. split; [reflexivity|]. split; [reflexivity|].
    intros [] target; cbn; rewrite app_nil_r; reflexivity.
Qed.
Print Assumptions C09_space_with_zero_precision_refuted.

Example C09_example : c_d (mkSpec false false true false true 8 None) (-42) = txt "-0000042" /\
  is_integer J0 (VByte (-42)) (-42).
Proof. split; [reflexivity|]. exists (Some 8). constructor. vm_compute; split; congruence. Qed.

(** C10: the digits of %u, %x, %X, %o denote the argument as an unsigned integer of its own width
    ([is_unsigned] in DirSpec.v), whatever the flags, width and precision. *)
Theorem C10_unsigned_conversions_denote_the_unsigned_value :
  forall J v n r src q, is_unsigned J v n ->
    (directive src Su q -> exists t, prints J src [traitsOf J v r] t /\ read_uint 10 t = n) /\
    (directive src Sx q -> exists t, prints J src [traitsOf J v r] t /\ read_uint 16 t = n) /\
    (directive src SX q -> exists t, prints J src [traitsOf J v r] t /\ read_uint 16 t = n) /\
    (directive src So q -> exists t, prints J src [traitsOf J v r] t /\ read_uint 8 t = n).
Proof. exact unsigned_read_back. Qed.
Print Assumptions C10_unsigned_conversions_denote_the_unsigned_value.

(** a negative BigInteger, or BigDecimal with a negative integer part, has no such value: PrintfException *)
Theorem C10_negative_big_integer_is_rejected :
  forall J src s q v z r, directive src s q -> (s = Su \/ s = Sx \/ s = SX \/ s = So) -> integral J v None z -> z < 0 ->
    rejects J src [traitsOf J v r] (Printf NegativeUnsigned).
Proof. exact negative_rejected. Qed.
Print Assumptions C10_negative_big_integer_is_rejected.

Example C10_example : is_unsigned J0 (VByte (-1)) 255 /\ is_unsigned J0 (VLong (-1)) 18446744073709551615 /\
  integral J0 (VBig (-5)) None (-5) /\
  ImplM.format J0 [Default Sx (mkCtx noFlags UNSET UNSET None)] [traitsOf J0 (VByte (-1)) RPrimitive] = Ok (txt "ff").
Proof.
  split; [exists (Some 8), (-1); split; [constructor; vm_compute; split; congruence|reflexivity]|].
  split; [exists (Some 64), (-1); split; [constructor; vm_compute; split; congruence|reflexivity]|].
  split; [constructor; reflexivity|reflexivity].
Qed.

(** C11: %u, %x, %X and %o print what C prints, except for a zero argument with '#' and zero padding or
    (for %o) a precision. *)
Theorem C11_unsigned_conversions_are_C_partial :
  forall J v n r src q, is_unsigned J v n ->
    (directive src Su q -> prints J src [traitsOf J v r] (c_u q n)) /\
    (directive src Sx q -> (q_alt q = false \/ n <> 0 \/ q_prec q <> None \/ q_zero q = false \/ q_left q = true) ->
       prints J src [traitsOf J v r] (c_x q n)) /\
    (directive src SX q -> (q_alt q = false \/ n <> 0 \/ q_prec q <> None \/ q_zero q = false \/ q_left q = true) ->
       prints J src [traitsOf J v r] (upper (c_x q n))) /\
    (directive src So q -> (q_alt q = false \/ n <> 0 \/ (q_prec q = None /\ (q_zero q = false \/ q_left q = true))) ->
       prints J src [traitsOf J v r] (c_o q n)).
Proof. exact unsigned_is_C. Qed.
Print Assumptions C11_unsigned_conversions_are_C_partial.

(** C11 is false for a zero argument: "%#08x" gives "  000000" (C: "00000000"), "%#.5o" gives "0000"
    (C: "00000"), "%#.0o" gives "" (C: "0"). *)
Theorem C11_zero_with_alternate_form_refuted :
  exists srcx qx srco qo srco0 qo0,
    directive srcx Sx qx /\ directive srco So qo /\ directive srco0 So qo0 /\
    forall J, let zero := traitsOf J (VInt 0) RPrimitive in
      prints J srcx [zero] (txt "  000000") /\ c_x qx 0 = txt "00000000" /\
      prints J srco [zero] (txt "0000") /\ c_o qo 0 = txt "00000" /\
      prints J srco0 [zero] [] /\ c_o qo0 0 = txt "0".
Proof.
  exists (txt "%#08x"), (mkSpec false true false false true 8 None), (txt "%#.5o"), (mkSpec false true false false false 0 (Some 5)),
    (txt "%#.0o"), (mkSpec false true false false false 0 (Some 0)).
  cut (directive (txt "%#08x") Sx (mkSpec false true false false true 8 None));
    [|is_dir (dir_text (txt "#0") (mkFlags false true false false true) (txt "8") 8 [] UNSET (ch "x"))].
  cut (directive (txt "%#.5o") So (mkSpec false true false false false 0 (Some 5)));
    [|is_dir (dir_text (txt "#") (mkFlags false true false false false) [] UNSET (txt ".5") 5 (ch "o"))].
  cut (directive (txt "%#.0o") So (mkSpec false true false false false 0 (Some 0)));
    [|is_dir (dir_text (txt "#") (mkFlags false true false false false) [] UNSET (txt ".0") 0 (ch "o"))].
  refine (fun Do0 Do Dx => conj Dx (conj Do (conj Do0 (fun J => _)))).
  assert (U : is_unsigned J (VInt 0) 0) by (exists (Some 32), 0; split; [constructor; vm_compute; split; congruence|reflexivity]).
  pose proof (renders_prints J _ _ _ _ _ Dx (rn_x J _ _ RPrimitive U)).
  pose proof (renders_prints J _ _ _ _ _ Do (rn_o J _ _ RPrimitive U)).
  pose proof (renders_prints J _ _ _ _ _ Do0 (rn_o J _ _ RPrimitive U)).
  repeat split; assumption || reflexivity.
Qed.
Print Assumptions C11_zero_with_alternate_form_refuted.

Example C11_example : c_x (mkSpec false true false false true 10 None) 255 = txt "0x000000ff" /\
  c_o (mkSpec false true false false false 0 None) 8 = txt "010".
Proof. split; reflexivity. Qed.

(** C12: %s prints the argument's text cut to the precision and padded ([c_s]), %S the same upper-cased, for
    null and every kind of argument other than a composite Seq. *)
Theorem C12_string_conversion_partial :
  forall J v t r src q, is_text J v t -> zlen t <= int_max ->
    (directive src Ss q ->
       prints J src [traitsOf J v r] (justify q (match q_prec q with Some p => firstn (Z.to_nat p) t | None => t end))) /\
    (directive src SS q ->
       prints J src [traitsOf J v r] (upper (justify q (match q_prec q with Some p => firstn (Z.to_nat p) t | None => t end)))).
Proof. exact string_conversion. Qed.
Print Assumptions C12_string_conversion_partial.

Theorem C12_string_conversion_of_null :
  forall J src q, directive src Ss q -> prints J src [nullTraits] (c_s q (txt "null")).
Proof. exact string_of_null. Qed.
Print Assumptions C12_string_conversion_of_null.

(** C12 for composite sequences: right if no width is given or nothing is cut. *)
Theorem C12_composite_sequence_partial :
  forall J src q s t r, directive src Ss q -> den s t ->
    (q_width q = 0 \/ (match q_prec q with Some p => zlen t <= p | None => True end)) ->
    prints J src [traitsOf J (VSeq s) r] (c_s q t).
Proof. exact composite_string. Qed.
Print Assumptions C12_composite_sequence_partial.

(** C12 is false for a composite sequence cut by the precision inside a field: the padding is too long. *)
Theorem C12_composite_sequence_in_field_refuted :
  exists src q s t, directive src Ss q /\ den s t /\
    forall J r, prints J src [traitsOf J (VSeq s) r] (txt "    abc") /\ c_s q t = txt "  abc".
Proof.
  exists (txt "%5.3s"), (mkSpec false false false false false 5 (Some 3)),
    (Cat (Leaf (AStr (txt "ab") 0 2 false)) (Leaf (AStr (txt "cd") 0 2 false)) 4 2), (txt "abcd").
  split; [|split].
  - is_dir (dir_text [] noFlags (txt "5") 5 (txt ".3") 3 (ch "s")).
  - apply (den_cat _ _ (txt "ab") (txt "cd")); [constructor; vm_compute; intuition congruence|constructor; vm_compute; intuition congruence|].
    vm_compute. discriminate.
  - intros J r. split; [|reflexivity]. intros dtf. eexists. split; [reflexivity|]. split; [reflexivity|].
    intros [] target; cbn; unfold Pos.to_nat; cbn; rewrite <- ?app_assoc; reflexivity.
Qed.
Print Assumptions C12_composite_sequence_in_field_refuted.

Example C12_example : is_text J0 (VLong (-9223372036854775808)) (txt "-9223372036854775808").
Proof. exact (it_long J0 (-9223372036854775808) ltac:(vm_compute; split; congruence)). Qed.

(** C21: the length announced for an int or long before rendering is the length of its text. *)
Theorem C21_announced_length_is_exact :
  (forall z, is_int z -> stringSizeI z = zlen (dec_text z)) /\
  (forall z, is_long z -> stringSizeL z = zlen (dec_text z)).
Proof. exact (conj stringSizeI_spec stringSizeL_spec). Qed.
Print Assumptions C21_announced_length_is_exact.

(** C21: so a lazily rendered int or long is accepted by every target. *)
Theorem C21_lazy_numbers_are_never_rejected :
  forall J v z r dtf, (v = VInt z /\ is_int z) \/ (v = VLong z /\ is_long z) ->
  exists apps, compile dtf (txt "%s") = Ok apps /\ ImplM.format J apps [traitsOf J v r] = Ok (dec_text z) /\
    forall sb target, formatInto J sb apps [traitsOf J v r] target = (target ++ dec_text z, None).
Proof. exact lazy_numbers. Qed.
Print Assumptions C21_lazy_numbers_are_never_rejected.

Example C21_example : stringSizeL (-9223372036854775808) = 20 /\ stringSizeI 1000000000 = 10.
Proof. split; reflexivity. Qed.

(** C45, integers: with '0', no '-' and no precision the padding is zeros after the sign or prefix. *)
Theorem C45_integer_zero_padding_partial :
  forall J v z n r src src0 s q, q_zero q = true -> q_left q = false -> q_prec q = None ->
  directive src s q -> directive src0 s (no_width q) ->
  (s = Sd /\ is_integer J v z) \/ (s = Su /\ is_unsigned J v n) \/
  ((s = Sx \/ s = SX \/ s = So) /\ is_unsigned J v n /\ (q_alt q = false \/ n <> 0)) ->
  exists t t0, prints J src [traitsOf J v r] t /\ prints J src0 [traitsOf J v r] t0 /\ zero_padded q t0 t.
Proof. exact int_zero_prints. Qed.
Print Assumptions C45_integer_zero_padding_partial.

(** C45 is false for "%#08x" of 0 (see C11). *)
Theorem C45_zero_with_alternate_form_refuted :
  exists q, q_zero q = true /\ q_left q = false /\ q_prec q = None /\ ~ zero_padded q (j_x (no_width q) 0) (j_x q 0).
Proof.
  exists (mkSpec false true false false true 8 None). repeat split. intros (pre & body & Hin & E0 & E).
  vm_compute in E0. cbn in Hin.
  destruct Hin as [<-|[<-|[<-|[<-|[<-|[<-|[]]]]]]]; vm_compute in E0, E; try discriminate.
  all: subst body; discriminate.
Qed.
Print Assumptions C45_zero_with_alternate_form_refuted.

Example C45_example : j_d (mkSpec false false false true true 8 None) 42 = txt " 0000042" /\
  zero_padded (mkSpec false false false true true 8 None) (txt " 42") (txt " 0000042").
Proof. split; [reflexivity|]. exists (txt " "), (txt "42"). repeat split. cbn. tauto. Qed.
