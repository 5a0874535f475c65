(** Properties C03-C06, C14, C15: literal text, argument consumption, output targets, '*'. *)
From Verif Require Import Base Digits SeqM SeqSpec ContextM CompilerM GrammarSpec FormatterM TraitsM ImplM FmtSpec FmtP DirSpec IntP
  LoopSpec LoopP TameP PropsInt.

(** C03 *)
Theorem C03_text_without_percent_prints_itself :
  forall J t args, ~ In (ch "%") t -> prints J t args t.
Proof. exact literal_prints. Qed.
Print Assumptions C03_text_without_percent_prints_itself.

Theorem C03_doubled_percent_prints_the_text :
  forall J t args, prints J (flat_map (fun c => if c =? ch "%" then [ch "%"; ch "%"] else [c]) t) args t.
Proof. exact doubled_prints. Qed.
Print Assumptions C03_doubled_percent_prints_the_text.

Example C03_example : forall J, prints J (txt "100%% sure") [] (txt "100% sure").
Proof. exact (fun J => doubled_prints J (txt "100% sure") []). Qed.

(** C04: a successful call uses exactly the first [arities ds] arguments, whatever follows them. *)
Theorem C04_arguments_used :
  forall J ds args t, ImplM.format J ds args = Ok t ->
  exists used rest, args = used ++ rest /\ zlen used = arities ds /\
    forall rest', ImplM.format J ds (used ++ rest') = Ok t.
Proof. exact format_consumes. Qed.
Print Assumptions C04_arguments_used.

(** C04: formatting a concatenation is concatenating the results. A format must not end in %t right before a
    '{', which would become its date pattern. *)
Theorem C04_concatenation :
  forall dtf J s1 s2 ds1 ds2 args1 args2 t1 t2,
    compile dtf s1 = Ok ds1 -> compile dtf s2 = Ok ds2 -> hd_error s2 <> Some (ch "{") ->
    Forall (honest J) args1 -> Forall (honest J) args2 -> zlen args1 = arities ds1 ->
    ImplM.format J ds1 args1 = Ok t1 -> ImplM.format J ds2 args2 = Ok t2 ->
    exists ds, compile dtf (s1 ++ s2) = Ok ds /\ arities ds = arities ds1 + arities ds2 /\
      ImplM.format J ds (args1 ++ args2) = Ok (t1 ++ t2).
Proof. exact format_concat. Qed.
Print Assumptions C04_concatenation.

Example C04_example :
  let i z := traitsOf J0 (VInt z) RPrimitive in
  exists ds, compile (fun _ => true) (txt "a%*.*db%d") = Ok ds /\ arities ds = 4 /\
    ImplM.format J0 ds [i 5; i 3; i 7; i 8; i 9] = Ok (txt "a  007b8").
Proof. eexists. split; [reflexivity|]. split; reflexivity. Qed.

(** C05: too few arguments always fail the call: with "missing argument", or with an error an earlier argument
    causes whatever follows. *)
Theorem C05_too_few_arguments_fail :
  forall J ds args, zlen args < arities ds ->
  exists e, ImplM.format J ds args = Err e /\
    (e = Printf MissingArg \/ forall extra, ImplM.format J ds (args ++ extra) = Err e).
Proof. exact missing_argument. Qed.
Print Assumptions C05_too_few_arguments_fail.

(** C05: enough arguments never fail for lack of arguments. *)
Theorem C05_enough_arguments :
  forall dtf src J ds args, compile dtf src = Ok ds -> Forall (honest J) args -> Forall (quiet_arg J) args ->
    arities ds <= zlen args -> ImplM.format J ds args <> Err (Printf MissingArg).
Proof. exact enough_arguments. Qed.
Print Assumptions C05_enough_arguments.

Example C05_example :
  let i z := traitsOf J0 (VInt z) RPrimitive in
  exists ds, compile (fun _ => true) (txt "%*d") = Ok ds /\ ImplM.format J0 ds [i 5] = Err (Printf MissingArg) /\
    ImplM.format J0 ds [i 5; i 6] = Ok (txt "    6").
Proof. eexists. split; [reflexivity|]. split; reflexivity. Qed.

(** C06: the three ways to format write the same text after what the target holds; a failed call has written
    exactly the output of the pieces before the failing one. *)
Theorem C06_all_targets_receive_the_same_text :
  forall dtf src J ds args, compile dtf src = Ok ds -> Forall (honest J) args ->
  exists n t e,
    (forall sb target, formatInto J sb ds args target = (target ++ t, e)) /\
    ImplM.format J ds args = (match e with None => Ok t | Some x => Err x end) /\
    (n <= List.length ds)%nat /\ (e = None <-> n = List.length ds) /\
    ImplM.format J (firstn n ds) args = Ok t.
Proof. exact same_text. Qed.
Print Assumptions C06_all_targets_receive_the_same_text.

(** C06 is false for an argument that announces a wrong length: a StringBuilder accepts it, another Appendable
    gets an IllegalStateException. *)
Theorem C06_wrong_announced_length_refuted :
  exists s J, let args := [traitsOf J (VSeq s) RNull] in
    forall dtf, exists ds, compile dtf (txt "%s") = Ok ds /\
      formatInto J true ds args [] = (txt "abc", None) /\ formatInto J false ds args [] = ([], Some IllegalState).
Proof.
  exists (Leaf (ALazy (fun sb => Ok (sb ++ txt "abc")) 2)), J0. intros args dtf. eexists. split; [reflexivity|]. split; reflexivity.
Qed.
Print Assumptions C06_wrong_announced_length_refuted.

(** C06: what a target holds before the call stays, in front of what the call writes into an empty one, whether
    or not the call fails; no argument other than a Seq with a lazy part of the caller's own can change that. *)
Theorem C06_earlier_content_is_kept :
  forall J sb ds args target, Forall (tame_arg J) args ->
    let (o, e) := formatInto J sb ds args [] in formatInto J sb ds args target = (target ++ o, e).
Proof. intros J sb ds args target H. rewrite (formatInto_after J sb ds args target H). destruct (formatInto J sb ds args []). reflexivity. Qed.
Print Assumptions C06_earlier_content_is_kept.

Theorem C06_arguments_are_tame :
  forall J, tame_arg J nullTraits /\ forall v r, (forall q, v = VSeq q -> tame q) -> tame_arg J (traitsOf J v r).
Proof. exact (fun J => conj (tame_null J) (tame_value J)). Qed.
Print Assumptions C06_arguments_are_tame.

Example C06_failing_part :
  let q := s_concat (wrapS (txt "ab")) (Leaf (ALazy (fun _ => Err IllegalState) 2)) in
  tame q /\ exists ds, compile (fun _ => true) (txt "<%s>") = Ok ds /\
    formatInto J0 true ds [traitsOf J0 (VSeq q) RNull] (txt "x") = (txt "x<ab", Some IllegalState).
Proof. split; [split; [exact I|intros sb; reflexivity]|]. eexists. split; [reflexivity|]. reflexivity. Qed.

Example C06_example :
  let i z := traitsOf J0 (VInt z) RPrimitive in
  exists ds, compile (fun _ => true) (txt "a%db%d") = Ok ds /\
    formatInto J0 false ds [i 1] (txt ">") = (txt ">a1b", Some (Printf MissingArg)).
Proof. eexists. split; [reflexivity|]. reflexivity. Qed.

(** C14: a '*' width behaves as the width written in place, in every respect; negative means '-'. *)
Theorem C14_star_width_is_written_in_place :
  forall J dtf F fl P p c s x w, flags_text F fl -> prec_text P p -> conv_char c s -> s <> Spct ->
    t_asInt x = Ok w -> 1 <= Z.abs w <= 65536 ->
  exists ds ds', compile dtf (pct :: F ++ txt "*" ++ P ++ [c]) = Ok ds /\
    compile dtf (pct :: star_flags F w ++ dec_text (Z.abs w) ++ P ++ [c]) = Ok ds' /\
    forall sb rest target, formatInto J sb ds (x :: rest) target = formatInto J sb ds' rest target.
Proof. exact star_width_in_place. Qed.
Print Assumptions C14_star_width_is_written_in_place.

(** C14: a '*' precision likewise; negative means none. *)
Theorem C14_star_precision_is_written_in_place :
  forall J dtf F fl W w c s x p, flags_text F fl -> width_text W w -> w <> PRECEDING -> conv_char c s -> s <> Spct ->
    t_asInt x = Ok p -> p <= 65536 ->
  exists ds ds', compile dtf (pct :: F ++ W ++ txt ".*" ++ [c]) = Ok ds /\
    compile dtf (pct :: F ++ W ++ star_prec p ++ [c]) = Ok ds' /\
    forall sb rest target, formatInto J sb ds (x :: rest) target = formatInto J sb ds' rest target.
Proof. exact star_prec_in_place. Qed.
Print Assumptions C14_star_precision_is_written_in_place.

(** C14: a '*' width of zero is no width. *)
Theorem C14_star_width_zero :
  forall J s x T w0 F fl P p c, renders J s x T -> flags_text F fl -> prec_text P p -> p <> PRECEDING -> conv_char c s -> s <> Spct ->
    t_asInt w0 = Ok 0 ->
    prints J (pct :: F ++ txt "*" ++ P ++ [c]) [w0; x]
      (T (mkSpec (f_left fl) (f_alt fl) (f_plus fl) (f_space fl) (f_zero fl) 0 (if p =? UNSET then None else Some p))).
Proof. exact star_width_zero. Qed.
Print Assumptions C14_star_width_zero.

(** C14: values out of range are rejected *)
Theorem C14_star_out_of_range :
  (forall J F fl P p c s x w rest, flags_text F fl -> prec_text P p -> conv_char c s -> s <> Spct ->
    t_asInt x = Ok w -> is_int w -> 65536 < Z.abs w -> w <> int_min ->
    rejects J (pct :: F ++ txt "*" ++ P ++ [c]) (x :: rest) (Printf WidthRange)) /\
  (forall J F fl W w c s x p rest, flags_text F fl -> width_text W w -> w <> PRECEDING -> conv_char c s -> s <> Spct ->
    t_asInt x = Ok p -> 65536 < p ->
    rejects J (pct :: F ++ W ++ txt ".*" ++ [c]) (x :: rest) (Printf PrecisionRange)).
Proof. exact (conj star_width_rejected star_prec_rejected). Qed.
Print Assumptions C14_star_out_of_range.

(** C14 is false for Integer.MIN_VALUE: its negation is itself and passes for "no width". *)
Theorem C14_min_value_refuted :
  exists J w, w = int_min /\ forall dtf, exists ds, compile dtf (txt "%*d") = Ok ds /\
    ImplM.format J ds [traitsOf J (VInt w) RPrimitive; traitsOf J (VInt 42) RPrimitive] = Ok (txt "42").
Proof. exists J0, int_min. split; [reflexivity|]. intros dtf. eexists. split; [reflexivity|]. reflexivity. Qed.
Print Assumptions C14_min_value_refuted.

Example C14_example :
  let i z := traitsOf J0 (VInt z) RPrimitive in
  exists ds, compile (fun _ => true) (txt "%0*.*d|") = Ok ds /\
    ImplM.format J0 ds [i (-6); i 3; i 7] = Ok (txt "007   |") /\
    ImplM.format J0 ds [i 6; i (-1); i 7] = Ok (txt "000007|").
Proof. eexists. split; [reflexivity|]. split; reflexivity. Qed.

(** C15: widths and precisions of compiled directives, and of the contexts conversions receive *)
Theorem C15_compiled_bounds :
  forall dtf s ds sp c, compile dtf s = Ok ds -> In (Default sp c) ds ->
    (c_width c = UNSET \/ c_width c = PRECEDING \/ 0 <= c_width c <= 65536) /\
    (c_prec c = UNSET \/ c_prec c = PRECEDING \/ 0 <= c_prec c <= 65536).
Proof. exact compiled_bounded. Qed.
Print Assumptions C15_compiled_bounds.

Theorem C15_run_time_bounds_partial :
  forall dtf s ds sp c args c' it, compile dtf s = Ok ds -> In (Default sp c) ds ->
    resolveCtx c args = Ok (c', it) ->
    Forall (fun x => forall w, t_asInt x = Ok w -> is_int w /\ w <> int_min) args ->
    (c_width c' = UNSET \/ 0 <= c_width c' <= 65536) /\ (c_prec c' = UNSET \/ 0 <= c_prec c' <= 65536).
Proof. exact (fun dtf s ds sp c args c' it H Hin => resolved_bounded c args c' it (compiled_bounded dtf s ds sp c H Hin)). Qed.
Print Assumptions C15_run_time_bounds_partial.

(** C15 is false when a '*' width is Integer.MIN_VALUE. *)
Theorem C15_min_value_refuted :
  exists c c' it, forall J, resolveCtx c [traitsOf J (VInt int_min) RPrimitive] = Ok (c', it) /\ c_width c' < 0 /\ c_width c' <> UNSET.
Proof.
  exists (mkCtx noFlags PRECEDING UNSET None), (mkCtx (addF LEFT_JUSTIFY noFlags) int_min UNSET None), []. intros J. repeat split.
  discriminate.
Qed.
Print Assumptions C15_min_value_refuted.

Example C15_example : exists ds, compile (fun _ => true) (txt "%65536.65536d") = Ok ds /\
  compile (fun _ => true) (txt "%65537d") = Err (Printf WidthRange).
Proof. eexists. split; reflexivity. Qed.
