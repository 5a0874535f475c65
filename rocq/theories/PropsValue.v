(** C46-C52: what every conversion does with every argument. *)
From Coq Require Import QArith.
From Verif Require Import Base Digits UtilsM SeqM SeqSpec ContextM CompilerM GrammarSpec IntFormM FormatterM MathM DecimalM FPDecimalM
  DoubleM BigDecM RoundM TraitsM ImplM FmtSpec DirSpec DecSpec FloatSpec BigSpec LoopSpec FmtP IntP PropsInt LoopP FloatArgP PropsFloat PropsBig ValueSpec ValueP ValueP2.
Open Scope Z_scope.

(** a JDK for the examples: a date is shown as its pattern *)
Definition J1 : jdk := mkJdk (fun _ => []) (fun _ => []) (fun _ => None)
  (fun f t => Ok (match f with Pattern p => p | IsoOffset => txt "offset" | IsoLocalDateTime => txt "local" | IsoLocalDate => txt "date" end))
  (fun i => Ok (TZoned 7)) (fun _ => None) (fun _ => []) (fun _ => []) (fun c => if (48 <=? c) && (c <=? 57) then Some (c - 48) else None).

(** ** C46: %d %i %u %x %X %o *)

(** every value is exactly one integer (C09-C11 give the text), or rejected with exactly the error named by [not_integer] *)
Theorem C46_every_value_is_an_integer_or_not :
  forall J v, java_value v -> (exists z, is_integer J v z /\ forall z', is_integer J v z' -> z' = z) \/ (exists e, not_integer J v e).
Proof.
  intros J v H. destruct (integer_or_not J v H) as [(w & z & E)|E]; [left|right; exact E].
  assert (A : is_integer J v z) by (exists w; exact E). exists z. split; [exact A|]. intros z' B. exact (is_integer_unique J v z' z B A).
Qed.
Print Assumptions C46_every_value_is_an_integer_or_not.

Theorem C46_rejected :
  forall J v e r src s q, is_int_spec s -> not_integer J v e -> directive src s q ->
    rejects J src [traitsOf J v r] e /\ forall z, ~ is_integer J v z.
Proof.
  intros J v e r src s q Hs H D. split; [exact (not_integer_rejected J v e r src s q Hs H D)|].
  intros z A. exact (is_integer_exclusive J v z e A H).
Qed.
Print Assumptions C46_rejected.

Theorem C46_null_rejected :
  forall J src s q, is_int_spec s -> directive src s q -> rejects J src [nullTraits] (Printf BadConversion).
Proof. exact (fun J src s q H D => null_rejected J src s q (or_introl H) D). Qed.
Print Assumptions C46_null_rejected.

Example C46_example :
  (forall r, rejects J1 (txt "%08x") [traitsOf J1 (VStr (txt "12a")) r] (Printf BadConversion)) /\
  (forall r, rejects J1 (txt "%d") [traitsOf J1 (VObj (OOther (Ok (txt "12")))) r] (Printf BadConversion)) /\
  (forall r, rejects J1 (txt "%d") [traitsOf J1 (VTemporal (TInstant (2 ^ 62, 0))) r] (OtherExn 1)) /\
  is_integer J1 (VStr (txt "-12")) (-12) /\ is_integer J1 (VDec (mkBD (-1299) 2)) (-12).
Proof.
  split; [|split; [|split; [|split]]].
  - intros r dtf. eexists. split; [reflexivity|]. split; [reflexivity|]. intros [] target; reflexivity.
  - intros r dtf. eexists. split; [reflexivity|]. split; [reflexivity|]. intros [] target; reflexivity.
  - intros r dtf. eexists. split; [reflexivity|]. split; [reflexivity|]. intros [] target; reflexivity.
  - exists (Some 64). apply (ii_chars J1 _ (txt "-12")); [constructor| |unfold in_range; lia].
    change (txt "-12") with (ch "-" :: txt "12"). apply (nt_minus _ (txt "12") 12). change (txt "12") with ([ch "1"] ++ [ch "2"]).
    apply (dt_more _ _ 1 _ 2); [apply dt_one; reflexivity|reflexivity].
  - exists None. apply ii_dec; [lia| |vm_compute; reflexivity]. unfold truncated. change (dec (-1299) (- 2)) with (inject_Z (-1299) * (1 # 100))%Q.
    split; intros H; [exfalso; revert H|]; vm_compute; [|split]; congruence.
Qed.

(** ** C47: '*' *)

Theorem C47_every_value_is_an_int_or_not :
  forall J v, java_value v -> (exists w, int_value J v w /\ in_range 32 w /\ forall w', int_value J v w' -> w' = w) \/ not_int J v \/
    (exists o e, v = VObj o /\ fails_int o e).
Proof.
  intros J v H. destruct (int_or_not J v H) as [[w E]|E]; [left|right; exact E]. exists w. split; [exact E|].
  split; [exact (proj2 (int_of J v w RNull E))|]. intros w' B. exact (int_value_unique J v w' w B E).
Qed.
Print Assumptions C47_every_value_is_an_int_or_not.

(** an argument used for a '*' works as the int it stands for (C14 gives the rest) *)
Theorem C47_star_takes_the_int :
  forall J v w r r', int_value J v w ->
  (forall dtf F fl P p c s, flags_text F fl -> prec_text P p -> conv_char c s -> s <> Spct ->
    exists ds, compile dtf (pct :: F ++ txt "*" ++ P ++ [c]) = Ok ds /\
      forall sb rest target, formatInto J sb ds (traitsOf J v r :: rest) target = formatInto J sb ds (traitsOf J (VInt w) r' :: rest) target) /\
  (forall dtf F fl W n c s, flags_text F fl -> width_text W n -> n <> PRECEDING -> conv_char c s -> s <> Spct ->
    exists ds, compile dtf (pct :: F ++ W ++ txt ".*" ++ [c]) = Ok ds /\
      forall sb rest target, formatInto J sb ds (traitsOf J v r :: rest) target = formatInto J sb ds (traitsOf J (VInt w) r' :: rest) target).
Proof.
  intros J v w r r' H. assert (E' : t_asInt (traitsOf J (VInt w) r') = Ok w) by reflexivity. split.
  - intros dtf F fl P p c s HF HP Hc Hs. eexists. split; [apply (one_directive dtf F fl _ _ P p c s HF W_star HP Hc Hs)|].
    intros sb rest target. apply (star_int_of J v w r _ rest sb _ target H E'); [|reflexivity].
    intros s' c' [X|[]]. injection X as _ <-. left. unfold isPrecedingWidth. apply Z.eqb_refl.
  - intros dtf F fl W n c s HF HW Hn Hc Hs. eexists. split; [apply (one_directive dtf F fl W n _ _ c s HF HW P_star Hc Hs)|].
    intros sb rest target. apply (star_int_of J v w r _ rest sb _ target H E'); [|reflexivity].
    intros s' c' [X|[]]. injection X as _ <-. right. unfold isPrecedingPrecision. apply Z.eqb_refl.
Qed.
Print Assumptions C47_star_takes_the_int.

Theorem C47_star_rejected :
  forall J x, (x = nullTraits \/ exists v r, not_int J v /\ x = traitsOf J v r) ->
  (forall F fl P p c s rest, flags_text F fl -> prec_text P p -> conv_char c s -> s <> Spct ->
    rejects J (pct :: F ++ txt "*" ++ P ++ [c]) (x :: rest) (Printf BadConversion)) /\
  (forall F fl W w c s rest, flags_text F fl -> width_text W w -> w <> PRECEDING -> conv_char c s -> s <> Spct ->
    rejects J (pct :: F ++ W ++ txt ".*" ++ [c]) (x :: rest) (Printf BadConversion)).
Proof.
  intros J x H. assert (E : t_asInt x = Err (Printf BadConversion)).
  { destruct H as [->|(v & r & H & ->)]; [reflexivity|apply not_int_fails, H]. }
  split.
  - intros F fl P p c s rest HF HP Hc Hs. exact (star_not_int J F fl P p c s x rest HF HP Hc Hs E).
  - intros F fl W w c s rest HF HW Hw Hc Hs. exact (star_prec_not_int J F fl W w c s x rest HF HW Hw Hc Hs E).
Qed.
Print Assumptions C47_star_rejected.

(** the first argument is "-4", then the double 1.5 (rounded half up), then a long with the low bits of 3 *)
Example C47_example :
  exists ds, compile (fun _ => true) (txt "%*d|%*d|%.*d") = Ok ds /\
    ImplM.format J1 ds [traitsOf J1 (VStr (txt "-4")) RNull; traitsOf J1 (VInt 7) RPrimitive;
      traitsOf J1 (VDouble 4609434218613702656) RPrimitive; traitsOf J1 (VInt 7) RPrimitive;
      traitsOf J1 (VLong (2 ^ 32 + 3)) RPrimitive; traitsOf J1 (VInt 7) RPrimitive] = Ok (txt "7   | 7|007") /\
    not_int J1 (VStr (txt "4.0")) /\ int_value J1 (VLong (2 ^ 32 + 3)) 3.
Proof.
  eexists. split; [reflexivity|]. split; [reflexivity|]. split.
  - apply (nt_chars J1 _ (txt "4.0")); [constructor|]. intros z Hz Hr. assert (parseJava (j_digit J1) 32 (txt "4.0") = Some z) as E by (apply CastP.parseJava_is; auto).
    vm_compute in E. discriminate.
  - apply iv_long. split; [unfold in_range; lia|reflexivity].
Qed.

(** ** C48: %c *)

Theorem C48_every_value_is_a_character_or_not :
  forall J v, java_value v -> (exists c, is_char J v c /\ forall c', is_char J v c' -> c' = c) \/ not_char J v \/
    (exists o e, v = VObj o /\ fails_int o e).
Proof.
  intros J v H. destruct (char_or_not J v H) as [[c E]|E]; [left|right; exact E]. exists c. split; [exact E|].
  intros c' B. exact (is_char_unique J v c' c B E).
Qed.
Print Assumptions C48_every_value_is_a_character_or_not.

Theorem C48_prints_one_character :
  forall J v c r src q, is_char J v c -> directive src Sc q -> prints J src [traitsOf J v r] (justify q [c]).
Proof. exact (fun J v c r src q H D => renders_prints J src Sc q _ _ D (rn_c J v c r H)). Qed.
Print Assumptions C48_prints_one_character.

Theorem C48_rejected :
  forall J v r src q, java_value v -> not_char J v -> directive src Sc q ->
    rejects J src [traitsOf J v r] (Printf BadConversion) /\ rejects J src [nullTraits] (Printf BadConversion).
Proof.
  intros J v r src q Hv H D. split; [exact (not_char_rejected J v r src q Hv H D)|].
  apply (null_rejected J src Sc q); [auto|exact D].
Qed.
Print Assumptions C48_rejected.

(** an exception from a method of the object itself passes through, whatever it is *)
Theorem C48_exceptions_of_the_object :
  forall J o e r,
  (fails_long o e -> forall src s q, is_int_spec s -> directive src s q -> rejects J src [traitsOf J (VObj o) r] e) /\
  (fails_int o e -> forall src q, directive src Sc q -> rejects J src [traitsOf J (VObj o) r] e) /\
  (fails_double o e -> forall src s q, is_float_spec s -> directive src s q -> rejects J src [traitsOf J (VObj o) r] e) /\
  (fails_instant o e -> forall src s q, s = St \/ s = ST -> directive src s q -> rejects J src [traitsOf J (VObj o) r] e) /\
  (object_text o = Err e -> forall src s q, s = Ss \/ s = SS -> directive src s q -> rejects J src [traitsOf J (VObj o) r] e).
Proof. exact object_exceptions. Qed.
Print Assumptions C48_exceptions_of_the_object.

(** a java.sql.Date has no Instant: %t fails while %d and %s are fine *)
Example C48_exceptions_example :
  let d := VObj (ODate (Ok 86400000) (Err (OtherExn 5)) (Ok (txt "1970-01-02"))) in
  java_value d /\ fails_instant (ODate (Ok 86400000) (Err (OtherExn 5)) (Ok (txt "1970-01-02"))) (OtherExn 5) /\
  (forall r, rejects J1 (txt "%t") [traitsOf J1 d r] (OtherExn 5)) /\
  (exists ds, compile (fun _ => true) (txt "%d %s") = Ok ds /\ ImplM.format J1 ds [traitsOf J1 d RNull; traitsOf J1 d RNull] = Ok (txt "86400000 1970-01-02")).
Proof.
  cbv zeta. split; [|split; [reflexivity|split]].
  - split; [right; vm_compute; discriminate|]. split; [vm_compute; split; congruence|exists 5; reflexivity].
  - intros r dtf. eexists. split; [reflexivity|]. split; [reflexivity|]. intros [] target; reflexivity.
  - eexists. split; reflexivity.
Qed.

Example C48_example :
  exists ds, compile (fun _ => true) (txt "%c%-3c%c|") = Ok ds /\
    ImplM.format J1 ds [traitsOf J1 (VStr (txt "hello")) RNull; traitsOf J1 (VInt 65633) RPrimitive; traitsOf J1 (VBig 98) RNull] = Ok (txt "ha  b|") /\
    not_char J1 (VStr []) /\ (forall r, rejects J1 (txt "%c") [traitsOf J1 (VTemporal (TInstant (65, 0))) r] (Printf BadConversion)).
Proof.
  eexists. split; [reflexivity|]. split; [reflexivity|]. split; [apply nc_empty; constructor|].
  intros r dtf. eexists. split; [reflexivity|]. split; [reflexivity|]. intros [] target; reflexivity.
Qed.

(** ** C49: %t %T *)

(** every value is one point in time, or rejected; every point in time has one text or error *)
Theorem C49_every_value_is_a_time_or_not :
  forall J v, java_value v -> (exists t, is_temporal v t /\ forall t', is_temporal v t' -> t' = t) \/ (exists e, not_temporal J v e).
Proof.
  intros J v H. destruct (temporal_or_not J v H) as [[t E]|E]; [left|right; exact E]. exists t. split; [exact E|].
  intros t' B. exact (is_temporal_unique v t' t B E).
Qed.
Print Assumptions C49_every_value_is_a_time_or_not.

(** the JDK's text for the pattern, in a field; flags other than '-' and the precision change nothing *)
Theorem C49_prints_the_date :
  forall J src s p q v t d r, jdk_ok J -> date_directive src s p q -> is_temporal v t -> dated J p t (Ok d) ->
    prints_date J p src [traitsOf J v r] (date_case s (justify q d)).
Proof. exact (fun J src s p q v t d r HJ D => date_prints J p src s q v t d r HJ D). Qed.
Print Assumptions C49_prints_the_date.

Theorem C49_rejected :
  forall J src s p q, date_directive src s p q ->
    (forall v t e r, is_temporal v t -> dated J p t (Err e) -> rejects_date J p src [traitsOf J v r] e) /\
    (forall v e r, not_temporal J v e -> rejects_date J p src [traitsOf J v r] e) /\
    rejects_date J p src [nullTraits] (Printf BadConversion).
Proof.
  intros J src s p q D. split; [|split].
  - intros v t e r. exact (date_fails J p src s q v t e r D).
  - intros v e r. exact (not_date_rejected J p src s q v e r D).
  - exact (null_date_rejected J p src s q D).
Qed.
Print Assumptions C49_rejected.

Theorem C49_dated_is_total : forall J p t, exists d, dated J p t d.
Proof. exact dated_total. Qed.
Print Assumptions C49_dated_is_total.

Example C49_example :
  date_directive (txt "%-12T{yyyy 'at' HH}") ST (Some (txt "yyyy 'at' HH")) (mkSpec true false false false false 12 None) /\
  is_temporal (VInt (-1)) (TInstant (4294967295, 0)) /\ is_temporal (VLong 4294967296) (TInstant (4294967, 296000000)) /\
  not_temporal J1 (VLong (-1)) IllegalArg /\ not_temporal J1 (VDouble 0) (Printf BadConversion) /\
  dated J1 None (TInstant (0, 0)) (Ok (txt "offset")) /\
  exists ds, compile (fun _ => true) (txt "%-8T|%t{yyyy}|%t") = Ok ds /\
    ImplM.format J1 ds [traitsOf J1 (VInt 0) RNull; traitsOf J1 (VTemporal (TLocalDate 1)) RNull; traitsOf J1 (VTemporal (TLocalDate 1)) RNull]
      = Ok (txt "OFFSET  |yyyy|date").
Proof.
  split; [|split; [|split; [|split; [|split; [|split]]]]].
  - change (txt "%-12T{yyyy 'at' HH}") with (txt "%-12T" ++ txt "{" ++ txt "yyyy 'at' HH" ++ txt "}"). apply dt_pattern; [auto| |discriminate|].
    + is_dir (dir_text (txt "-") (mkFlags true false false false false) (txt "12") 12 [] UNSET (ch "T")).
    + cbn. repeat first [apply pat_nil | apply pat_char; [discriminate|discriminate|] | apply pat_quote; [discriminate|]].
  - apply tm_int. reflexivity.
  - apply tm_long; [lia|]. unfold at_number. cbn [Z.leb Z.compare]. split; cbn [fst snd]; lia.
  - apply nm_long. lia.
  - apply nm_double.
  - apply (dd_instant J1 (0, 0) (TZoned 7)). reflexivity.
  - eexists. split; reflexivity.
Qed.

(** ** C50: %p *)

Theorem C50_pointer :
  forall J src q, directive src Sp q ->
    (forall v name hash, zlen name <= 65535 -> prints J src [traitsOf J v (RObj name hash)] (justify q (name ++ txt "@" ++ numeral 16 (hash mod 2 ^ 32)))) /\
    (forall v, prints J src [traitsOf J v RNull] (justify q (txt "null"))) /\
    prints J src [nullTraits] (justify q (txt "null")) /\
    (forall v, rejects J src [traitsOf J v RPrimitive] (Printf PrimitivePointer)).
Proof.
  intros J src q D. split; [|split; [|split]].
  - intros v name h Hn. exact (pointer_prints J src q v name h D Hn).
  - intros v. apply (null_ref_prints J src q _ D). apply traits_ref.
  - apply (null_ref_prints J src q _ D). reflexivity.
  - intros v. exact (primitive_rejected J src q v D).
Qed.
Print Assumptions C50_pointer.

Example C50_example :
  exists ds, compile (fun _ => true) (txt "%-8p|%p") = Ok ds /\
    ImplM.format J1 ds [nullTraits; traitsOf J1 (VInt 5) (RObj (txt "java.lang.Integer") (-1))] = Ok (txt "null    |java.lang.Integer@ffffffff").
Proof. eexists. split; reflexivity. Qed.

(** ** C51: %f %F %e %E %g %G %a %A *)

(** every value is a double, NaN, a BigDecimal or BigInteger (C28-C36 and C42 give the text), or rejected *)
Theorem C51_every_value_is_a_number_or_not :
  forall J v, jdk_ok J -> java_value v ->
    (exists b, is_double J v b) \/ is_nan J v \/ (exists u s, is_decimal v u s) \/ not_float J v \/ (exists o e, v = VObj o /\ fails_double o e).
Proof. exact float_or_not. Qed.
Print Assumptions C51_every_value_is_a_number_or_not.

Theorem C51_rejected :
  forall J v r src s q, is_float_spec s -> not_float J v -> directive src s q ->
    rejects J src [traitsOf J v r] (Printf BadConversion) /\ rejects J src [nullTraits] (Printf BadConversion) /\ forall b, ~ is_double J v b.
Proof.
  intros J v r src s q Hs H D. split; [exact (not_float_rejected J v r src s q Hs H D)|]. split; [apply (null_rejected J src s q); auto|].
  intros b A. destruct (double_view J v b r A) as [E _]. rewrite (not_float_fails J v r H) in E. discriminate.
Qed.
Print Assumptions C51_rejected.

Example C51_example :
  not_float J1 (VStr (txt "x")) /\ (forall r, rejects J1 (txt "%g") [traitsOf J1 (VStr (txt "x")) r] (Printf BadConversion)).
Proof.
  split; [apply (nf_chars J1 _ (txt "x")); [constructor|reflexivity]|].
  intros r dtf. eexists. split; [reflexivity|]. split; [reflexivity|]. intros [] target; reflexivity.
Qed.

(** a JDK within the limits *)
Definition J2 : jdk := mkJdk (fun _ => []) (fun _ => []) (fun _ => None) (fun f t => Ok (txt "now")) (fun i => Ok (TZoned 7))
  (fun _ => None) (fun _ => []) (fun _ => []) (fun c => if (48 <=? c) && (c <=? 57) then Some (c - 48) else None).
Lemma J2_ok : jdk_ok J2.
Proof. split; cbn [J2 j_doubleToString j_floatToString j_parseDouble j_format j_atSystemZone j_instantFrom j_temporalText j_bigDecText]; intros; try discriminate; vm_compute; discriminate. Qed.

(** ** C52: every call ends with its text or with a documented error *)

(** [call_error] says which errors and when; a NullPointerException only for %s (C52_null_pointer: of an object whose toString is null),
    no IndexOutOfBoundsException, NoSuchElementException,
    IllegalStateException or syntax error among them *)
Theorem C52_every_call_ends_well :
  forall dtf src J ds args, jdk_ok J -> compile dtf src = Ok ds -> Forall (argument J) args ->
    (exists t, ImplM.format J ds args = Ok t) \/ (exists e, ImplM.format J ds args = Err e /\ call_error ds args e).
Proof. exact call_ends. Qed.
Print Assumptions C52_every_call_ends_well.

Theorem C52_error_classes :
  forall ds args e, call_error ds args e -> (exists k, e = Printf k) \/ e = IllegalArg \/ e = NullPtr \/ (exists n, e = OtherExn n).
Proof.
  intros ds args e H. apply call_error_kinds in H. destruct e as [| | | | | | | |]; try destruct H; eauto 6.
Qed.
Print Assumptions C52_error_classes.

(** a NullPointerException comes only from an object whose toString returned null *)
Theorem C52_null_pointer :
  forall dtf src J ds args sb target t, jdk_ok J -> compile dtf src = Ok ds -> Forall (argument J) args ->
    formatInto J sb ds args target = (t, Some NullPtr) ->
    exists o r, In (traitsOf J (VObj o) r) args /\ object_text o = Err NullPtr.
Proof.
  intros dtf src J ds args sb target t HJ Hc Ha E. apply (run_null J ds HJ (compiled_sane _ _ _ Hc) _ args target t) in E; [exact E| |exact Ha].
  destruct sb; [left|right]; reflexivity.
Qed.
Print Assumptions C52_null_pointer.

Example C52_null_example :
  exists ds, compile (fun _ => true) (txt "a%s") = Ok ds /\ java_value (VObj (OOther (Err NullPtr))) /\
    formatInto J1 true ds [traitsOf J1 (VObj (OOther (Err NullPtr))) RNull] [] = (txt "a", Some NullPtr).
Proof. eexists. split; [reflexivity|]. split; [split; [left; reflexivity|exact I]|reflexivity]. Qed.

(** C05 and C06 for the arguments the library builds, without further hypotheses on them *)
Theorem C05_enough_java_arguments :
  forall dtf src J ds args, jdk_ok J -> compile dtf src = Ok ds -> Forall (argument J) args ->
    arities ds <= zlen args -> ImplM.format J ds args <> Err (Printf MissingArg).
Proof.
  intros dtf src J ds args HJ Hc Ha. apply (enough_arguments dtf src J ds args Hc).
  - eapply Forall_impl; [|exact Ha]. intros y Hy. apply argument_honest; assumption.
  - eapply Forall_impl; [|exact Ha]. intros y Hy. apply argument_quiet; assumption.
Qed.
Print Assumptions C05_enough_java_arguments.

Theorem C06_java_arguments :
  forall dtf src J ds args, jdk_ok J -> compile dtf src = Ok ds -> Forall (argument J) args ->
  exists n t e,
    (forall sb target, formatInto J sb ds args target = (target ++ t, e)) /\
    ImplM.format J ds args = (match e with None => Ok t | Some x => Err x end) /\
    (n <= List.length ds)%nat /\ (e = None <-> n = List.length ds) /\
    ImplM.format J (firstn n ds) args = Ok t.
Proof.
  intros dtf src J ds args HJ Hc Ha. apply (same_text dtf src J ds args Hc).
  eapply Forall_impl; [|exact Ha]. intros y Hy. apply argument_honest; assumption.
Qed.
Print Assumptions C06_java_arguments.

Theorem C04_java_arguments :
  forall dtf J s1 s2 ds1 ds2 args1 args2 t1 t2, jdk_ok J ->
    compile dtf s1 = Ok ds1 -> compile dtf s2 = Ok ds2 -> hd_error s2 <> Some (ch "{") ->
    Forall (argument J) args1 -> Forall (argument J) args2 -> zlen args1 = arities ds1 ->
    ImplM.format J ds1 args1 = Ok t1 -> ImplM.format J ds2 args2 = Ok t2 ->
    exists ds, compile dtf (s1 ++ s2) = Ok ds /\ arities ds = arities ds1 + arities ds2 /\
      ImplM.format J ds (args1 ++ args2) = Ok (t1 ++ t2).
Proof.
  intros dtf J s1 s2 ds1 ds2 args1 args2 t1 t2 HJ C1 C2 Hh A1 A2.
  apply (format_concat dtf J s1 s2 ds1 ds2 args1 args2 t1 t2 C1 C2 Hh);
    (eapply Forall_impl; [|eassumption]; intros y Hy; apply argument_honest; assumption).
Qed.
Print Assumptions C04_java_arguments.

(** the hypotheses are met, with null among the arguments, and an error occurs *)
Example C52_example :
  let args := [nullTraits; traitsOf J2 (VInt 3) RPrimitive; traitsOf J2 (VDec (mkBD 15 1)) RNull] in
  jdk_ok J2 /\ Forall (argument J2) args /\
  exists ds, compile (fun _ => true) (txt "%s%d%.0f") = Ok ds /\ ImplM.format J2 ds args = Ok (txt "null32") /\
    exists ds', compile (fun _ => true) (txt "%s%*d") = Ok ds' /\ ImplM.format J2 ds' args = Ok (txt "null  1") /\
    ImplM.format J2 ds' (rev args) = Err (Printf BadConversion).
Proof.
  cbv zeta. split; [exact J2_ok|]. split; [|eexists; split; [reflexivity|]; split; [reflexivity|]; eexists; split; [reflexivity|]; split; reflexivity].
  repeat constructor; unfold in_range, java_decimal; vm_compute; try discriminate; auto.
Qed.

(** ** C07 and C08 for %t, %T and %p: the field is filled with spaces up to the width *)

Theorem C07_width_is_a_minimum_dates_and_pointers :
  (forall J src src0 s p q v t d r, jdk_ok J -> date_directive src s p q -> date_directive src0 s p (no_width q) -> is_temporal v t -> dated J p t (Ok d) ->
    exists u, prints_date J p src0 [traitsOf J v r] u /\ prints_date J p src [traitsOf J v r] (justify q u) /\
      zlen (justify q u) = Z.max (q_width q) (zlen u)) /\
  (forall J src src0 q v r, r <> RPrimitive -> ref_ok r -> directive src Sp q -> directive src0 Sp (no_width q) ->
    exists u, prints J src0 [traitsOf J v r] u /\ prints J src [traitsOf J v r] (justify q u) /\
      zlen (justify q u) = Z.max (q_width q) (zlen u)).
Proof.
  assert (N : forall q u, justify (no_width q) u = u) by (intros q u; apply justify_full; apply zlen_nonneg).
  split.
  - intros J src src0 s p q v t d r HJ D D0 Ht Hd. exists (date_case s d). split; [|split].
    + rewrite <- (N q d) at 1. exact (C49_prints_the_date J src0 s p _ v t d r HJ D0 Ht Hd).
    + assert (E : justify q (date_case s d) = date_case s (justify q d)).
      { destruct s; try reflexivity. cbn [date_case]. unfold justify, spaces. rewrite zlen_map.
        assert (M : forall n, map ascii_upper (rep 32 n) = rep 32 n).
        { intros n. unfold rep. induction (Z.to_nat n) as [|k IH]; [reflexivity|]. cbn [repeat map]. rewrite IH. reflexivity. }
        destruct (q_left q); rewrite map_app, M; reflexivity. }
      rewrite E. exact (C49_prints_the_date J src s p q v t d r HJ D Ht Hd).
    + apply zlen_justify.
  - intros J src src0 q v r Hr Ho D D0. destruct r as [| |name h]; [contradiction| |].
    + exists (txt "null"). split; [|split; [|apply zlen_justify]].
      * rewrite <- (N q (txt "null")). apply (proj1 (proj2 (C50_pointer J src0 (no_width q) D0))).
      * apply (proj1 (proj2 (C50_pointer J src q D))).
    + exists (pointer_text name h). split; [|split; [|apply zlen_justify]].
      * rewrite <- (N q (pointer_text name h)). apply (proj1 (C50_pointer J src0 (no_width q) D0)); exact (proj2 Ho).
      * apply (proj1 (C50_pointer J src q D)); exact (proj2 Ho).
Qed.
Print Assumptions C07_width_is_a_minimum_dates_and_pointers.
