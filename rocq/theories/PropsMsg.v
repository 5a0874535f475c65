(** C70: what the messages of PrintfException say. *)
From Verif Require Import Base Digits UtilsM SeqM SeqSpec SeqP ContextM CompilerM GrammarSpec CompilerP CompilerP2 PatternP IntFormM FormatterM
  MathM DecimalM FPDecimalM DoubleM BigDecM RoundM TraitsM ImplM FmtSpec FmtP DirSpec IntP PropsInt LoopSpec LoopP MiscSpec MiscP CtxSpec CtxP MsgM MsgSpec MsgP.

(** The model of the messages has one exactly where the model of the conversions throws. *)
Theorem C70_every_failed_conversion_has_a_message : forall J K v r a, plain_value v ->
  ((exists m, accessMessage J K v a = Some m) <-> fails (traitsOf J v r) a (Printf BadConversion)).
Proof. exact access_iff. Qed.
Print Assumptions C70_every_failed_conversion_has_a_message.

Theorem C70_message_of_a_rejected_call : forall J K src s q v r m, directive src s q -> directiveMessage J K s v r = Some m ->
  exists k, rejects J src [traitsOf J v r] (Printf k).
Proof. exact message_rejects. Qed.
Print Assumptions C70_message_of_a_rejected_call.

(** ** The texts *)

(** strings: the text in quotes, whatever is in it; the NumberFormatException is the cause *)
Theorem C70_string_messages : forall J K t n a m, charSeqMessage J K t n a = Some m ->
  m = match a with
      | AIntForm | AInt => mkMsg (txt "Cannot convert """ ++ t ++ txt """ to int") true
      | AFloatForm => mkMsg (txt "Cannot convert """ ++ t ++ txt """ to float") true
      | ATemporal => mkMsg (txt "Cannot convert [" ++ k_slot K ++ txt "] to TemporalAccessor") false
      | AChar => mkMsg (txt "Empty string cannot be converted to char") false
      end.
Proof.
  intros J K t n a m. destruct a; cbn [charSeqMessage]; unfold because, noTemporal, printf.
  - destruct (parseJava (j_digit J) 64 t); [discriminate|]. intros [= <-]. reflexivity.
  - destruct (j_parseDouble J t); [discriminate|]. intros [= <-]. reflexivity.
  - destruct (parseJava (j_digit J) 32 t); [discriminate|]. intros [= <-]. reflexivity.
  - intros [= <-]. reflexivity.
  - destruct (1 <=? n); [discriminate|]. intros [= <-]. reflexivity.
Qed.
Print Assumptions C70_string_messages.

(** other objects *)
Theorem C70_object_messages : forall J K o t a m, objMessage K o a = Some m -> own_text J K (VObj o) t ->
  m = mkMsg (t ++ match a with
                            | AIntForm | AFloatForm => txt " is not a number"
                            | ATemporal => txt " cannot be converted to TemporalAccessor"
                            | AInt | AChar => txt " cannot be converted to int"
                            end) false.
Proof.
  intros J K o t a m H Ho.
  assert (Et : t = lenient K o) by (inversion Ho; subst; try reflexivity; destruct e; try reflexivity; congruence). subst t.
  assert (E : m = printf (ph ++ match a with
                                | AIntForm | AFloatForm => txt " is not a number"
                                | ATemporal => txt " cannot be converted to TemporalAccessor"
                                | AInt | AChar => txt " cannot be converted to int"
                                end) [lenient K o]).
  { destruct o, a; cbn [objMessage] in H; try discriminate H; injection H as <-; reflexivity. }
  rewrite E. destruct a; reflexivity.
Qed.
Print Assumptions C70_object_messages.

(** dates and times: the DateTimeException is not the cause but stands in brackets behind the text *)
Theorem C70_temporal_messages : forall J K t a m, temporalMessage J K t a = Some m ->
  m = mkMsg (match a with
             | AIntForm => txt "Can't get epoch milliseconds from: " ++ j_temporalText J t ++ txt " [" ++ k_exception K ++ txt "]"
             | AFloatForm | AInt => txt "Can't get epoch seconds from: " ++ j_temporalText J t ++ txt " [" ++ k_exception K ++ txt "]"
             | ATemporal | AChar => txt "Can't convert TemporalAccessor to char"
             end) false.
Proof.
  intros J K t a m H. destruct a; cbn [temporalMessage] in H; try (destruct (instantFrom J t); [discriminate H|]); try discriminate H; injection H as <-; unfold printf;
    try reflexivity; f_equal.
  - exact (one_and_more (txt "Can't get epoch milliseconds from: ") _ _ ltac:(no_ph)).
  - exact (one_and_more (txt "Can't get epoch seconds from: ") _ _ ltac:(no_ph)).
  - exact (one_and_more (txt "Can't get epoch seconds from: ") _ _ ltac:(no_ph)).
Qed.
Print Assumptions C70_temporal_messages.

(** numbers, null, and what has no argument to show *)
Theorem C70_other_messages : forall J K,
  (forall z, z < 0 -> negativeMessage z = mkMsg (txt "Negative BigInteger(" ++ dec_text z ++ txt ") cannot be converted to unsigned") false) /\
  (forall u s, hexMessage J (mkBD u s) = mkMsg (txt "hexLayout not supported for BigDecimal: " ++ j_bigDecText J (mkBD (Z.abs u) s)) false) /\
  (forall t, noFormatterMessage K t = mkMsg (txt "No default DateTimeFormatter for type: " ++ k_class K t) false) /\
  noTemporal K = Some (mkMsg (txt "Cannot convert [" ++ k_slot K ++ txt "] to TemporalAccessor") false) /\
  (forall s, missingMessage s = mkMsg (txt "Missing argument for specifier: " ++ [letter s]) false /\ missingMessage2 s = missingMessage s) /\
  pointerMessage = mkMsg (txt "The '%p' specifier cannot be used with primitive types.") false /\
  (forall a m, nullMessage a = Some m -> names m (txt "null")).
Proof.
  intros J K. repeat apply conj.
  - intros z Hz. unfold negativeMessage, printf. f_equal.
    change (txt "Negative BigInteger(-%s) cannot be converted to unsigned") with (txt "Negative BigInteger(-" ++ ph ++ txt ") cannot be converted to unsigned").
    rewrite one_placeholder by no_ph. unfold dec_text at 2. replace (z <? 0) with true by lia. rewrite Z.abs_neq by lia.
    unfold dec_text. replace (- z <? 0) with false by lia. reflexivity.
  - intros u s. unfold hexMessage, printf. f_equal.
    change (txt "hexLayout not supported for BigDecimal: %s") with (txt "hexLayout not supported for BigDecimal: " ++ ph ++ []).
    rewrite one_placeholder by no_ph. rewrite app_nil_r. reflexivity.
  - intros t. unfold noFormatterMessage, printf. f_equal.
    change (txt "No default DateTimeFormatter for type: %s") with (txt "No default DateTimeFormatter for type: " ++ ph ++ []).
    rewrite one_placeholder by no_ph. rewrite app_nil_r. reflexivity.
  - reflexivity.
  - intros s. destruct s; split; reflexivity.
  - reflexivity.
  - intros a m H. destruct a; injection H as <-; exists []; eexists; reflexivity.
Qed.
Print Assumptions C70_other_messages.

(** the numbers a directive rejects after converting them *)
Theorem C70_big_messages : forall J K r s z d,
  (s = Sa \/ s = SA -> directiveMessage J K s (VBig z) r = Some (mkMsg (txt "hexLayout not supported for BigDecimal: " ++ j_bigDecText J (mkBD (Z.abs z) 0)) false) /\
    directiveMessage J K s (VDec d) r = Some (mkMsg (txt "hexLayout not supported for BigDecimal: " ++ j_bigDecText J (mkBD (Z.abs (bd_u d)) (bd_s d))) false)) /\
  (s = Su \/ s = So \/ s = Sx \/ s = SX -> directiveMessage J K s (VBig z) r =
    if z <? 0 then Some (mkMsg (txt "Negative BigInteger(" ++ dec_text z ++ txt ") cannot be converted to unsigned") false) else None).
Proof.
  intros J K r s z d. destruct (C70_other_messages J K) as (N & X & _). split; intros Hs.
  - destruct d as [u sc]. cbn [bd_u bd_s]. rewrite <- !X. destruct Hs as [-> | ->]; split; reflexivity.
  - destruct (z <? 0) eqn:Hz; [rewrite <- N by lia|]; destruct Hs as [-> |[-> |[-> | ->]]]; cbn [directiveMessage accessorOf accessMessage]; rewrite ?Hz; reflexivity.
Qed.
Print Assumptions C70_big_messages.

(** the primitive types and numbers fail as dates only; integers that count as times not at all *)
Theorem C70_primitive_messages : forall J K a,
  (forall c, accessMessage J K (VChar c) a = match a with ATemporal => Some (mkMsg (txt "Cannot convert Character to TemporalAccessor") false) | _ => None end) /\
  (forall v, (exists b, v = VBool b) \/ (exists z, v = VByte z \/ v = VShort z \/ v = VFloat z \/ v = VDouble z) \/ (exists d, v = VDec d) ->
    accessMessage J K v a = match a with ATemporal => Some (mkMsg (txt "Cannot convert [" ++ k_slot K ++ txt "] to TemporalAccessor") false) | _ => None end) /\
  (forall z, accessMessage J K (VInt z) a = None /\ accessMessage J K (VLong z) a = None /\ accessMessage J K (VBig z) a = None).
Proof.
  intros J K a. split; [intros c; destruct a; reflexivity|]. split; [|intros z; repeat split].
  assert (N : noTemporal K = Some (mkMsg (txt "Cannot convert [" ++ k_slot K ++ txt "] to TemporalAccessor") false)) by apply (C70_other_messages J K).
  intros v [(b & ->)|[(z & [-> |[-> |[-> | ->]]])|(d & ->)]]; cbn [accessMessage]; destruct a; exact N || reflexivity.
Qed.
Print Assumptions C70_primitive_messages.

(** a width or precision out of range *)
Theorem C70_range_messages : forall name v, allowed v = false ->
  rangeMessage name v = mkMsg (if v <? 0 then name ++ txt " cannot be negative, but was: " ++ dec_text v
                               else name ++ txt " " ++ dec_text v ++ txt " exceeds the maximum allowed value of 65536") false.
Proof.
  intros name v H. unfold rangeMessage, printf.
  assert (C : (v <? 0) && negb (v =? UNSET) && negb (v =? PRECEDING) = (v <? 0)).
  { unfold allowed in H. change UNSET with (-1). change PRECEDING with int_min.
    destruct (v =? -1) eqn:A; [discriminate H|]. destruct (v =? int_min) eqn:B; [discriminate H|]. destruct (v <? 0); reflexivity. }
  rewrite C. destruct (v <? 0); f_equal.
  - change (txt "%s cannot be negative, but was: %s") with (template [] [txt " cannot be negative, but was: "; []]).
    rewrite lenientFormat_spec; [|no_ph|repeat constructor; no_ph]. cbn [weave app]. rewrite app_nil_r. reflexivity.
  - change (txt "%s %s exceeds the maximum allowed value of %s") with (template [] [txt " "; txt " exceeds the maximum allowed value of "; []]).
    rewrite lenientFormat_spec; [|no_ph|repeat constructor; no_ph]. cbn [weave app]. rewrite <- ?app_assoc. reflexivity.
Qed.
Print Assumptions C70_range_messages.

(** ** The property *)

(** where a string, another object, a date or a BigInteger is rejected as a number, and where another object is rejected at all,
    the message contains the text of the argument *)
Theorem C70_argument_is_named_partial : forall J K s v r m t, directiveMessage J K s v r = Some m -> named s v -> own_text J K v t -> names m t.
Proof.
  intros J K s v r m t Hm Hn Ho. unfold directiveMessage in Hm.
  assert (HI : forall a, integer_conv s \/ float_conv s -> accessorOf s = Some a -> a = AIntForm \/ a = AFloatForm).
  { intros a [H|H]; cbn in H; intuition subst; cbn in *; intuition congruence. }
  assert (S : forall t n a m, (a = AIntForm \/ a = AFloatForm) -> charSeqMessage J K t n a = Some m -> names m t).
  { intros t0 n a m0 Ha E. apply C70_string_messages in E. subst m0. destruct Ha as [-> | ->]; eexists; eexists; cbn [m_text]; reflexivity. }
  destruct Hn as [s x Hs|s x Hs|s q Hs|s n Hs|s x Hs|s o Hs].
  - inversion Ho; subst. destruct (accessorOf s) as [a|] eqn:Ea; [|destruct Hs as [H|H]; cbn in H; intuition subst; discriminate].
    cbn [accessMessage] in Hm. destruct (charSeqMessage J K t (zlen t) a) as [m'|] eqn:Em; [|destruct s; try discriminate Ea; discriminate Hm].
    injection Hm as <-. exact (S t _ a _ (HI a Hs eq_refl) Em).
  - inversion Ho; subst. destruct (accessorOf s) as [a|] eqn:Ea; [|destruct Hs as [H|H]; cbn in H; intuition subst; discriminate].
    cbn [accessMessage] in Hm. destruct (charSeqMessage J K t (zlen t) a) as [m'|] eqn:Em; [|destruct s; try discriminate Ea; discriminate Hm].
    injection Hm as <-. exact (S t _ a _ (HI a Hs eq_refl) Em).
  - inversion Ho; subst. destruct (accessorOf s) as [a|] eqn:Ea; [|destruct Hs as [H'|H']; cbn in H'; intuition subst; discriminate].
    cbn [accessMessage] in Hm. match goal with H : s_toString q = Ok t |- _ => rewrite H in Hm end.
    destruct (charSeqMessage J K t (s_len q) a) as [m'|] eqn:Em; [|destruct s; try discriminate Ea; discriminate Hm].
    injection Hm as <-. exact (S t _ a _ (HI a Hs eq_refl) Em).
  - inversion Ho; subst. cbn [accessMessage] in Hm.
    assert (E : n < 0 /\ m = negativeMessage n).
    { destruct Hs as [<-|[<-|[<-|[<-|[<-|[]]]]]]; cbn in Hm; try discriminate Hm; destruct (n <? 0) eqn:Z0; try discriminate Hm; injection Hm as <-; (split; [lia|reflexivity]). }
    destruct E as (Hz & ->). destruct (C70_other_messages J K) as (E & _). rewrite (E n Hz). eexists; eexists; cbn [m_text]; reflexivity.
  - inversion Ho; subst. destruct (accessorOf s) as [a|] eqn:Ea; [|destruct Hs as [H|H]; cbn in H; intuition subst; discriminate].
    cbn [accessMessage] in Hm. destruct (temporalMessage J K x a) as [m'|] eqn:Em.
    + injection Hm as <-. apply C70_temporal_messages in Em. subst m'. destruct (HI a Hs eq_refl) as [-> | ->]; eexists; eexists; cbn [m_text]; reflexivity.
    + destruct Hs as [H|H]; cbn in H; intuition subst; discriminate Hm.
  - destruct (accessorOf s) as [a|] eqn:Ea; [|destruct s; try discriminate Hm; contradiction].
    cbn [accessMessage] in Hm. destruct (objMessage K o a) as [m'|] eqn:Em; [|destruct s; try discriminate Ea; discriminate Hm].
    injection Hm as <-. pose proof (C70_object_messages J K o t a m' Em Ho) as E. subst m'.
    exists []; eexists; cbn [m_text app]; reflexivity.
Qed.
Print Assumptions C70_argument_is_named_partial.

Definition K0 : shown := mkShown (fun _ => txt "[B@1b6d3586") (fun _ => txt "<A@1 threw E>") (txt "io.fastprintf.traits.RefSlot@4554617c")
  (txt "java.time.DateTimeException: no") (fun _ => txt "java.time.Year").

(** "%d" of a text that looks like a template *)
Example C70_example :
  directiveMessage J0 K0 Sd (VStr (txt "50%s")) (RObj [] 0) = Some (mkMsg (txt "Cannot convert ""50%s"" to int") true) /\
  directiveMessage J0 K0 Sd (VObj (OOther (Ok (txt "a%s")))) (RObj [] 0) = Some (mkMsg (txt "a%s is not a number") false) /\
  directiveMessage J0 K0 Sx (VBig (-255)) (RObj [] 0) = Some (mkMsg (txt "Negative BigInteger(-255) cannot be converted to unsigned") false) /\
  rangeMessage (txt "Width") 70000 = mkMsg (txt "Width 70000 exceeds the maximum allowed value of 65536") false /\
  missingMessage Spct = mkMsg (txt "Missing argument for specifier: %") false.
Proof. repeat split. Qed.

(** C70 is false: "%t" of a number that has no time names the RefSlot object and not the number ... *)
Theorem C70_slot_instead_of_argument_refuted :
  exists J K src b m, rejects J src [traitsOf J (VDouble b) RPrimitive] (Printf BadConversion) /\
    directiveMessage J K St (VDouble b) RPrimitive = Some m /\ directive src St (mkSpec false false false false false 0 None) /\
    own_text J K (VDouble b) (txt "0.5") /\ ~ names m (txt "0.5").
Proof.
  set (J := mkJdk (fun _ => txt "0.5") (j_floatToString J0) (j_parseDouble J0) (j_format J0) (j_atSystemZone J0) (j_instantFrom J0) (j_temporalText J0)
              (j_bigDecText J0) (j_digit J0)).
  exists J, K0, (txt "%t"), 0x3fe0000000000000, (mkMsg (txt "Cannot convert [io.fastprintf.traits.RefSlot@4554617c] to TemporalAccessor") false).
  assert (D : directive (txt "%t") St (mkSpec false false false false false 0 None)) by (is_dir (dir_text [] noFlags [] UNSET [] UNSET (ch "t") St)).
  split; [apply (rejects_plain J _ St _ _ _ D); reflexivity|]. split; [reflexivity|]. split; [exact D|]. split; [apply (ow_double J K0 0x3fe0000000000000)|].
  intros (a & b & E). cbn [m_text] in E. assert (H : In 53 (txt "Cannot convert [io.fastprintf.traits.RefSlot@4554617c] to TemporalAccessor") /\
    In 48 (txt "Cannot convert [io.fastprintf.traits.RefSlot@4554617c] to TemporalAccessor")).
  { rewrite E. split; apply in_or_app; right; apply in_or_app; left; cbn; auto. }
  destruct H as (_ & H). vm_compute in H. intuition discriminate.
Qed.
Print Assumptions C70_slot_instead_of_argument_refuted.

(** ... and "%a" of a negative BigDecimal names its absolute value. *)
Theorem C70_sign_is_lost_refuted :
  exists J K src d m, rejects J src [traitsOf J (VDec d) (RObj [] 0)] (Printf NotHex) /\
    directiveMessage J K Sa (VDec d) (RObj [] 0) = Some m /\ directive src Sa (mkSpec false false false false false 0 None) /\
    own_text J K (VDec d) (txt "-1.5") /\ ~ names m (txt "-1.5").
Proof.
  set (J := mkJdk (j_doubleToString J0) (j_floatToString J0) (j_parseDouble J0) (j_format J0) (j_atSystemZone J0) (j_instantFrom J0) (j_temporalText J0)
              (fun d => if bd_u d <? 0 then txt "-1.5" else txt "1.5") (j_digit J0)).
  exists J, K0, (txt "%a"), (mkBD (-15) 1), (mkMsg (txt "hexLayout not supported for BigDecimal: 1.5") false).
  assert (D : directive (txt "%a") Sa (mkSpec false false false false false 0 None)) by (is_dir (dir_text [] noFlags [] UNSET [] UNSET (ch "a") Sa)).
  split; [apply (rejects_plain J _ Sa _ _ _ D); reflexivity|]. split; [reflexivity|]. split; [exact D|]. split; [apply (ow_dec J K0 (mkBD (-15) 1))|].
  intros (a & b & E). cbn [m_text] in E. assert (H : In 45 (txt "hexLayout not supported for BigDecimal: 1.5")).
  { rewrite E. apply in_or_app; right; apply in_or_app; left; cbn; auto. }
  vm_compute in H. intuition discriminate.
Qed.
Print Assumptions C70_sign_is_lost_refuted.

(** A conversion that failed because of an exception of the JDK should have it as its cause. Strings do, dates do not. *)
Theorem C70_cause_refuted : exists J K t a m, point J t = None /\ temporalMessage J K t a = Some m /\ m_cause m = false.
Proof. exists J0, K0, (TLocalDate 0), AInt. eexists. split; [reflexivity|]. split; reflexivity. Qed.
Print Assumptions C70_cause_refuted.
