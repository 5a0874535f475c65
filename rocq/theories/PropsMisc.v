(** Properties C38-C41, C43, C44: literal rendering, templates, Args, CharArray, timestamps, error messages. *)
From Verif Require Import Base Digits UtilsM SeqM SeqSpec ContextM CompilerM TraitsM ImplM FmtSpec ArgsM ArgsP MiscM MiscSpec MiscP PropsInt.

(** C38 *)
Theorem C38_literal_rendering_reads_back : forall s, read_literal (fixed_toString s) = s.
Proof. exact fixed_toString_reads_back. Qed.
Print Assumptions C38_literal_rendering_reads_back.

Theorem C38_literal_rendering_is_injective : forall s t, fixed_toString s = fixed_toString t -> s = t.
Proof. exact (fun s t H => eq_trans (eq_sym (fixed_toString_reads_back s)) (eq_trans (f_equal read_literal H) (fixed_toString_reads_back t))). Qed.
Print Assumptions C38_literal_rendering_is_injective.

Theorem C38_no_control_characters :
  forall s c, In c (fixed_toString s) -> c <> 10 /\ c <> 13 /\ c <> 9 /\ c <> 8 /\ c <> 12.
Proof. exact escape_clean. Qed.
Print Assumptions C38_no_control_characters.

Example C38_example : fixed_toString [ch "a"; 10; 92; 34] = [34; ch "a"; 92; ch "n"; 92; 92; 92; 34; 34].
Proof. reflexivity. Qed.

(** C39: every text is a template in exactly this sense, so the first theorem covers every template *)
Theorem C39_template_substitution :
  forall g gs args, plain_text g -> Forall plain_text gs -> lenientFormat (template g gs) args = weave g gs args.
Proof. exact lenientFormat_spec. Qed.
Print Assumptions C39_template_substitution.

Theorem C39_every_text_is_a_template :
  forall t, exists g gs, plain_text g /\ Forall plain_text gs /\ t = template g gs.
Proof. exact (fun t => template_exists (List.length t) t (le_n _)). Qed.
Print Assumptions C39_every_text_is_a_template.

Example C39_example :
  lenientFormat (txt "a%sb%s") [txt "1"] = txt "a1b%s" /\
  lenientFormat (txt "a%sb") [txt "1"; txt "%s"; txt "3"] = txt "a1b [%s, 3]" /\
  weave (txt "a") [txt "b"] [txt "1"; txt "%s"; txt "3"] = txt "a1b [%s, 3]".
Proof. repeat split; reflexivity. Qed.

(** C40 *)
Theorem C40_values_in_insertion_order :
  forall J calls, values (fold_left (do_put J) calls []) = map recorded calls.
Proof. exact values_in_order. Qed.
Print Assumptions C40_values_in_insertion_order.

Theorem C40_iteration_in_insertion_order :
  forall J calls, iterator (fold_left (do_put J) calls []) = map (given J) calls.
Proof. exact iterator_in_order. Qed.
Print Assumptions C40_iteration_in_insertion_order.

Theorem C40_put_picks_the_specific_method :
  forall J l c h,
    (forall x, put J l (JRef (VBool x) c h) = putBooleanOrNull l (Some (x, c, h))) /\
    (forall x, put J l (JRef (VChar x) c h) = putCharOrNull l (Some (x, c, h))) /\
    (forall x, put J l (JRef (VByte x) c h) = putByteOrNull l (Some (x, c, h))) /\
    (forall x, put J l (JRef (VShort x) c h) = putShortOrNull l (Some (x, c, h))) /\
    (forall x, put J l (JRef (VInt x) c h) = putIntOrNull l (Some (x, c, h))) /\
    (forall x, put J l (JRef (VLong x) c h) = putLongOrNull l (Some (x, c, h))) /\
    (forall x, put J l (JRef (VFloat x) c h) = putFloatOrNull J l (Some (x, c, h))) /\
    (forall x, put J l (JRef (VDouble x) c h) = putDoubleOrNull J l (Some (x, c, h))) /\
    (forall x, put J l (JRef (cs_value x) c h) = putCharSequence J l (Some (x, c, h))) /\
    (forall x, put J l (JRef (VBig x) c h) = putBigInteger l (Some (x, c, h))) /\
    (forall x, put J l (JRef (VDec x) c h) = putBigDecimal J l (Some (x, c, h))) /\
    (forall x, put J l (JRef (VTemporal x) c h) = putDateTime J l (Some (x, c, h))) /\
    (forall x, put J l (JRef (VObj x) c h) = putObject l (JRef (VObj x) c h)) /\
    (forall t id, put J l (JTraits t id) = putObject l (JTraits t id)) /\
    put J l JNull = putNull l.
Proof. exact put_specific. Qed.
Print Assumptions C40_put_picks_the_specific_method.

Theorem C40_of_is_the_chain_of_puts :
  forall J vs, argsOf J (Some vs) = fold_left (do_put J) (map Put vs) [] /\
    argsOfIterable J (Some vs) = Ok (argsOf J (Some vs)) /\
    argsOf J None = putNull [] /\ argsOfIterable J None = Err NullPtr.
Proof. exact (fun J vs => conj (argsOf_puts J vs) (conj eq_refl (conj eq_refl eq_refl))). Qed.
Print Assumptions C40_of_is_the_chain_of_puts.

(** A boxed value and the primitive print the same, in every target, unless the format has a %p. *)
Theorem C40_boxing_is_irrelevant_without_p :
  forall J ds calls, Forall no_p ds ->
    let args := iterator (fold_left (do_put J) calls []) in
    let args' := iterator (fold_left (do_put J) (map unboxed calls) []) in
    ImplM.format J ds args = ImplM.format J ds args' /\
    forall sb target, formatInto J sb ds args target = formatInto J sb ds args' target.
Proof. exact boxing_irrelevant. Qed.
Print Assumptions C40_boxing_is_irrelevant_without_p.

(** toString(): the texts of the arguments in order; the first text that cannot be had fails it *)
Theorem C40_toString :
  (forall l ts, Forall2 (fun a t => t_asString (a_traits a) = Ok t) l ts ->
    args_toString l = Ok (txt "[" ++ comma ts ++ txt "]")) /\
  (forall before a after_ e, Forall (fun b => exists t, t_asString (a_traits b) = Ok t) before ->
    t_asString (a_traits a) = Err e -> args_toString (before ++ a :: after_) = Err e).
Proof.
  split.
  - intros l ts H. unfold args_toString. assert (E : joinTexts l = Ok (comma ts)); [|rewrite E; reflexivity].
    induction H as [|a t l ts Ha Hl IH]; [reflexivity|]. cbn [joinTexts comma]. rewrite Ha.
    destruct Hl as [|b u l' ts' Hb Hl']; [reflexivity|]. rewrite IH. reflexivity.
  - intros before a rest e H Ha. unfold args_toString. assert (E : joinTexts (before ++ a :: rest) = Err e); [|rewrite E; reflexivity].
    induction H as [|b l [t Hb] Hl IH]; cbn [app joinTexts].
    + rewrite Ha. destruct rest; reflexivity.
    + rewrite Hb, IH. destruct (l ++ a :: rest) eqn:E; [destruct l; discriminate|reflexivity].
Qed.
Print Assumptions C40_toString.

Example C40_example :
  let l := put J0 (putPrimitive J0 (putNull []) (VInt 7)) (JRef (VStr (txt "a")) (txt "java.lang.String") 1) in
  values l = [ONull; OBox (VInt 7); OSame (VStr (txt "a")) (txt "java.lang.String") 1] /\
  args_toString l = Ok (txt "[null, 7, a]").
Proof. split; reflexivity. Qed.

(** C41: [AArr a st n up] is a CharArray; [den_atom x t] says its text is [t] *)
Theorem C41_hash_is_that_of_the_text :
  forall a st n up t cached, den_atom (AArr a st n up) t -> cached = 0 \/ cached = string_hash t ->
    ca_hashCode a st n up cached = Ok (string_hash t).
Proof. exact hash_spec. Qed.
Print Assumptions C41_hash_is_that_of_the_text.

Theorem C41_equals_compares_the_texts :
  forall x y t u, den_atom x t -> den_atom y u -> exists b, ca_equals x y = Ok b /\ (b = true <-> t = u).
Proof. exact equals_spec. Qed.
Print Assumptions C41_equals_compares_the_texts.

Theorem C41_equal_arrays_have_equal_hashes :
  forall a st n up b st' n' up' t u c c',
    den_atom (AArr a st n up) t -> den_atom (AArr b st' n' up') u ->
    c = 0 \/ c = string_hash t -> c' = 0 \/ c' = string_hash u ->
    ca_equals (AArr a st n up) (AArr b st' n' up') = Ok true ->
    ca_hashCode a st n up c = ca_hashCode b st' n' up' c'.
Proof. exact equal_hash. Qed.
Print Assumptions C41_equal_arrays_have_equal_hashes.

Example C41_example :
  ca_hashCode (txt "xAbcd") 1 3 true 0 = Ok (string_hash (txt "ABC")) /\
  string_hash (txt "ABC") = 64578 /\
  ca_equals (AArr (txt "xAbcd") 1 3 true) (AArr (txt "ABC") 0 3 false) = Ok true.
Proof. repeat split; reflexivity. Qed.

(** C43 holds within seconds and within milliseconds ... *)
Theorem C43_monotone_partial :
  forall a b, 0 <= a <= b -> (b <= 4294967295 \/ 4294967295 < a) ->
    exists i j, longToInstant a = Ok i /\ longToInstant b = Ok j /\ instant_le i j.
Proof. exact longToInstant_mono. Qed.
Print Assumptions C43_monotone_partial.

Theorem C43_negative_is_rejected : forall a, a < 0 -> longToInstant a = Err IllegalArg.
Proof. exact longToInstant_negative. Qed.
Print Assumptions C43_negative_is_rejected.

(** ... and is false across the unsigned int maximum: 4294967295 is in the year 2106, 4294967296 in February 1970. *)
Theorem C43_monotone_refuted :
  exists a b i j, a < b /\ longToInstant a = Ok i /\ longToInstant b = Ok j /\ ~ instant_le i j.
Proof.
  exists 4294967295, 4294967296, (4294967295, 0), (4294967, 296000000). repeat split.
  unfold instant_le. cbn [fst snd]. lia.
Qed.
Print Assumptions C43_monotone_refuted.

(** C44 *)
Theorem C44_message_partial :
  forall nl desc pattern i, 0 <= i < zlen pattern ->
    syntaxMessage nl desc pattern i = desc ++ txt " near index " ++ dec_text i ++ nl ++ pattern ++ nl ++ spaces i ++ txt "^".
Proof. exact message_spec. Qed.
Print Assumptions C44_message_partial.

Theorem C44_caret_column :
  forall i, 0 <= i -> zlen (spaces i) = i /\ znth (spaces i ++ txt "^") i = Some (ch "^").
Proof. exact caret_column. Qed.
Print Assumptions C44_caret_column.

(** C44 is false for an error at the end of the source: compile reports an index for which no caret is printed. *)
Theorem C44_caret_at_end_refuted :
  exists f k i, (forall dtf, compile dtf f = Err (Syntax k i)) /\
    forall nl desc, syntaxMessage nl desc f i = desc ++ txt " near index " ++ dec_text i ++ nl ++ f.
Proof.
  exists (txt "ab%"), UnexpectedEnd, 3. split; [reflexivity|]. intros nl desc. unfold syntaxMessage. cbn.
  rewrite <- !app_assoc. reflexivity.
Qed.
Print Assumptions C44_caret_at_end_refuted.

Example C44_example : compile (fun _ => true) (txt "ab%!d") = Err (Syntax BadSpecifier 3) /\
  syntaxMessage [10] (txt "bad") (txt "ab%!d") 3 = txt "bad near index 3" ++ [10] ++ txt "ab%!d" ++ [10] ++ txt "   ^".
Proof. split; reflexivity. Qed.
