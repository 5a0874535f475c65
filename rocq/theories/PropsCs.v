(** C96: arguments whose class implements CharSequence outside the JDK and the library. *)
From Verif Require Import Base UtilsM SeqM SeqSpec SeqP ContextM CompilerM GrammarSpec CompilerP2 IntFormM FormatterM FmtSpec FmtP MathM
  DecimalM FPDecimalM DoubleM BigDecM RoundM TraitsM ImplM ImplP DirSpec IntP LoopSpec LoopP ValueSpec ValueP CastP CsM CsSpec CsP PropsInt PropsValue.

Lemma contract_alike J o t r : keeps_contract o t -> alike J (csTraits J o r) (traitsOf J (VStr t) r).
Proof.
  intros [H T]. split; [cbn [csTraits t_asInt traitsOf charSeqTraits]; unfold csInt; rewrite T; reflexivity|].
  intros sp c Hc. pose proof (char_reads o t J r H) as Ch.
  destruct sp; try (apply text_like; auto; fail);
    match goal with |- same_result ?x ?y => replace x with y; [apply same_refl|] end;
    cbn [formatterFor]; unfold withInt, withFloat, upperOf, fmt_t;
    cbn [csTraits traitsOf charSeqTraits t_asIntForm t_asFloatForm t_asTemporal t_ref t_asChar]; unfold csInt, csDouble; rewrite ?T; cbn [bind]; try reflexivity.
  rewrite Ch. reflexivity.
Qed.

Lemma string_int J t r : jdk_ok J -> small_int (traitsOf J (VStr t) r).
Proof.
  intros HJ w E. cbn in E. destruct (parseJava (j_digit J) 32 t) as [v|] eqn:P; [|discriminate]. cbn in E. injection E as <-. apply parseJava_is in P as [_ P].
  unfold in_range in P. unfold is_int, int_min, int_max. change (2 ^ (32 - 1)) with 2147483648 in P. lia.
Qed.

(** C96: an object that keeps the contract of CharSequence behaves in every call exactly like the String of the same text: the
    same output, the same exception, and the same output up to it. *)
Theorem C96_sequences_print_like_strings : forall J dtf src ds args strings,
  jdk_ok J -> compile dtf src = Ok ds -> Forall2 (string_for J) args strings ->
  forall sb target, formatInto J sb ds args target = formatInto J sb ds strings target.
Proof.
  intros J dtf src ds args strings HJ Hc F sb target. unfold formatInto. apply alike_run; [exact (compiled_sane _ _ _ Hc)| |].
  - clear - F. induction F as [|a x l l' H _ IH]; constructor; [|exact IH]. destruct H; [apply alike_refl|apply contract_alike; assumption].
  - clear - F HJ. induction F as [|a x l l' H _ IH]; constructor; [|exact IH]. destruct H as [x Hx|].
    + intros w E. destruct (argument_int J x HJ Hx) as [(v & Ev & Iv)|(e & Ev & _)]; congruence.
    + apply string_int. exact HJ.
Qed.
Print Assumptions C96_sequences_print_like_strings.

(** C96: without the contract, %s, %S and %c print what length() and charAt() say, and every other conversion what toString()
    says *)
Theorem C96_which_method_counts : forall J dtf src ds s q o t u r,
  directive src s q -> compile dtf src = Ok ds -> reads o t -> cs_toString o = Ok (Some u) ->
  forall sb target, formatInto J sb ds [csTraits J o r] target
    = formatInto J sb ds [traitsOf J (VStr (if reads_characters s then t else u)) r] target.
Proof.
  intros J dtf src ds s q o t u r Hd Hc H T sb target. destruct (directive_compile dtf _ _ _ Hd) as (c & Ec & Hr & _ & A & B & _).
  rewrite Ec in Hc. injection Hc as <-. unfold formatInto. cbn [run appendOne]. unfold resolveCtx. rewrite A. cbn [bind]. rewrite B. cbn [bind].
  assert (Q : same_result (formatterFor J s c (csTraits J o r)) (formatterFor J s c (traitsOf J (VStr (if reads_characters s then t else u)) r))).
  { pose proof (char_reads o t J r H) as Ch.
    destruct s; cbn [reads_characters]; try (apply text_like; auto; fail);
      match goal with |- same_result ?x ?y => replace x with y; [apply same_refl|] end;
      cbn [formatterFor]; unfold withInt, withFloat, upperOf, fmt_t;
      cbn [csTraits traitsOf charSeqTraits t_asIntForm t_asFloatForm t_asTemporal t_ref t_asChar]; unfold csInt, csDouble; rewrite ?T; cbn [bind]; try reflexivity.
    rewrite Ch. reflexivity. }
  destruct (formatterFor J s c (csTraits J o r)) as [x|e], (formatterFor J s c (traitsOf J (VStr (if reads_characters s then t else u)) r)) as [x'|e'];
    cbn [same_result bind] in *; try contradiction; [|congruence].
  rewrite Q. reflexivity.
Qed.
Print Assumptions C96_which_method_counts.

(** C96: what is printed then *)
Theorem C96_text : forall J dtf src s q o t r,
  directive src s q -> s = Ss \/ s = SS -> reads o t ->
  exists ds, compile dtf src = Ok ds /\
    forall sb target, formatInto J sb ds [csTraits J o r] target
      = (target ++ (match s with SS => map ascii_upper (c_s q t) | _ => c_s q t end), None).
Proof.
  intros J dtf src s q o t r Hd Hs H. destruct (directive_compile dtf _ _ _ Hd) as (c & Ec & Hr & Eq & A & B & _).
  exists [Default s c]. split; [exact Ec|]. intros sb target. unfold formatInto. cbn [run appendOne]. unfold resolveCtx. rewrite A. cbn [bind]. rewrite B. cbn [bind].
  destruct (seq_reads o t H) as (a & Ea & Da). destruct (fmt_s_den c a t Hr Da) as (x & Ex & Dx). rewrite Eq in Dx.
  destruct Hs as [-> | ->]; cbn [formatterFor csTraits t_asSeq]; rewrite Ea; cbn [bind]; rewrite Ex; cbn [bind].
  - rewrite (wden_emits _ _ (c_s q t)); auto using emits_if, den_wden.
  - unfold upperOf. cbn [bind]. destruct (s_upper_den x _ Dx) as (v & Ev & Dv). rewrite Ev. cbn [bind].
    rewrite (wden_emits _ _ (map ascii_upper (c_s q t))); auto using emits_if, den_wden.
Qed.
Print Assumptions C96_text.

(** C96: charAt() throws [e]: so does the call. Blanks on the left have been written by then, unless the characters were needed
    earlier: for a sequence of length 1, for %S, and where the precision cuts. *)
Theorem C96_charAt_throws : forall J dtf src s q o n e r,
  directive src s q -> s = Ss \/ s = SS -> breaks o n e ->
  exists ds, compile dtf src = Ok ds /\
    forall sb target, formatInto J sb ds [csTraits J o r] target
      = (target ++ (if (match s with SS => true | _ => false end) || q_left q || (n =? 1) || (match q_prec q with Some p => p <? n | None => false end)
                    then [] else spaces (q_width q - n)), Some e).
Proof.
  intros J dtf src s q o n e r Hd Hs H. destruct (directive_compile dtf _ _ _ Hd) as (c & Ec & Hr & Eq & A & B & _). subst q.
  exists [Default s c]. split; [exact Ec|]. intros sb target. unfold formatInto. cbn [run appendOne]. unfold resolveCtx. rewrite A. cbn [bind]. rewrite B. cbn [bind].
  destruct (breaks_formatter J o n e c r Hr H) as [HS Hls]. fold (cut_by (q_of c) n).
  destruct Hs as [-> | ->]; [|rewrite HS; cbn [bind orb]; rewrite app_nil_r; reflexivity]. cbn [orb].
  destruct ((n =? 1) || cut_by (q_of c) n) eqn:E.
  - rewrite Hls. cbn [bind]. rewrite <- orb_assoc, E, orb_true_r, app_nil_r. reflexivity.
  - destruct Hls as (x & Ex & Dx). rewrite Ex. cbn [bind]. rewrite Dx. rewrite <- orb_assoc, E, orb_false_r. reflexivity.
Qed.
Print Assumptions C96_charAt_throws.

(** C96: what the other answers of the methods lead to: length() throws, length() is negative, length() is 0, toString() throws,
    toString() is null *)
Theorem C96_odd_answers : forall J o r c n e,
  let x := csTraits J o r in
  (cs_length o = Err e -> formatterFor J Ss c x = Err e /\ formatterFor J SS c x = Err e /\ formatterFor J Sc c x = Err e) /\
  (cs_length o = Ok n -> n < 0 ->
    formatterFor J Ss c x = Err IllegalArg /\ formatterFor J SS c x = Err IllegalArg /\ formatterFor J Sc c x = Err (Printf BadConversion)) /\
  (cs_length o = Ok 0 -> formatterFor J Sc c x = Err (Printf BadConversion)) /\
  (cs_toString o = Err e -> t_asInt x = Err e /\ forall s, In s [Sd; Su; Sx; SX; So; Sf; SF; Se; SE; Sg; SG; Sa; SA] -> formatterFor J s c x = Err e) /\
  (cs_toString o = Ok None -> t_asInt x = Err (Printf BadConversion) /\
    (forall s, In s [Sd; Su; Sx; SX; So] -> formatterFor J s c x = Err (Printf BadConversion)) /\
    (forall s, In s [Sf; SF; Se; SE; Sg; SG; Sa; SA] -> formatterFor J s c x = Err NullPtr)).
Proof.
  intros J o r c n e x. subst x. split; [|split; [|split; [|split]]].
  - intros E. cbn [formatterFor csTraits t_asSeq t_asChar]. unfold csSeq, csChar, upperOf. rewrite E. repeat split.
  - intros E L. cbn [formatterFor csTraits t_asSeq t_asChar]. unfold csSeq, csChar, upperOf, s_lazy, checkArgument. rewrite E. cbn [bind].
    replace (0 <=? n) with false by (symmetry; apply Z.leb_gt; lia). replace (1 <=? n) with false by (symmetry; apply Z.leb_gt; lia). repeat split.
  - intros E. cbn [formatterFor csTraits t_asChar]. unfold csChar. rewrite E. reflexivity.
  - intros E. cbn [csTraits t_asInt]. unfold csInt. rewrite E. split; [reflexivity|]. intros s Hs. cbn [In] in Hs.
    repeat destruct Hs as [<- |Hs]; try contradiction; cbn [formatterFor]; unfold withInt, withFloat, upperOf; cbn [csTraits t_asIntForm t_asFloatForm];
      unfold csInt, csDouble; rewrite E; reflexivity.
  - intros E. cbn [csTraits t_asInt]. unfold csInt at 1. rewrite E. split; [reflexivity|]. split; intros s Hs; cbn [In] in Hs;
      repeat destruct Hs as [<- |Hs]; try contradiction; cbn [formatterFor]; unfold withInt, withFloat, upperOf; cbn [csTraits t_asIntForm t_asFloatForm];
      unfold csInt, csDouble; rewrite E; reflexivity.
Qed.
Print Assumptions C96_odd_answers.

(** ** Examples *)

(** an object with the two texts *)
Definition two_texts (t u : list Z) : cs := mkCs (Ok (zlen t)) (fun i => match znth t i with Some c => Ok c | None => Err IndexOOB end) (Ok (Some u)).

Lemma two_texts_reads t u : zlen t <= int_max -> reads (two_texts t u) t.
Proof. intros M. split; [reflexivity|]. split; [exact M|]. intros i c E. cbn [two_texts cs_charAt]. rewrite E. reflexivity. Qed.

(** the property "%s prints what toString() answers" is false: java.lang.CharSequence.toString is called by no %s *)
Theorem C96_s_prints_toString_refuted : exists o u, cs_toString o = Ok (Some u) /\
  exists ds, compile (fun _ => true) (txt "%s") = Ok ds /\ formatInto J2 true ds [csTraits J2 o RPrimitive] [] = (txt "12", None) /\
    txt "12" <> u.
Proof.
  exists (two_texts (txt "12") (txt "7")), (txt "7"). split; [reflexivity|]. eexists. split; [vm_compute; reflexivity|].
  split; [vm_compute; reflexivity|discriminate].
Qed.
Print Assumptions C96_s_prints_toString_refuted.

(** the property "text that is not a number is rejected with a PrintfException" is false for a null text and the floating
    conversions *)
Theorem C96_null_text_refuted : exists o, cs_toString o = Ok None /\
  exists ds ds', compile (fun _ => true) (txt "%d") = Ok ds /\ compile (fun _ => true) (txt "%f") = Ok ds' /\
    formatInto J2 true ds [csTraits J2 o RPrimitive] [] = ([], Some (Printf BadConversion)) /\
    formatInto J2 true ds' [csTraits J2 o RPrimitive] [] = ([], Some NullPtr).
Proof.
  exists (mkCs (Ok 0) (fun _ => Err IndexOOB) (Ok None)). split; [reflexivity|].
  eexists. eexists. split; [vm_compute; reflexivity|]. split; [vm_compute; reflexivity|]. split; vm_compute; reflexivity.
Qed.
Print Assumptions C96_null_text_refuted.

(** one object in several places: %s and %c read "12", %d and '*' the text "7" *)
Example C96_example :
  exists ds, compile (fun _ => true) (txt "%-4S|%c|%d|%*d|%5.1s") = Ok ds /\
    forall b, let o := csTraits J2 (two_texts (txt "12") (txt "7")) RPrimitive in
    formatInto J2 b ds [o; o; o; o; o; o] (txt ">") = (txt ">12  |1|7|      7|    1", None).
Proof. eexists. split; [vm_compute; reflexivity|]. intros [|]; vm_compute; reflexivity. Qed.

Example C96_hypotheses : Forall2 (string_for J2) [csTraits J2 (two_texts (txt "ab") (txt "ab")) RPrimitive; traitsOf J2 (VInt 7) RPrimitive]
  [traitsOf J2 (VStr (txt "ab")) RPrimitive; traitsOf J2 (VInt 7) RPrimitive].
Proof.
  constructor; [apply sf_text; split; [apply two_texts_reads; vm_compute; discriminate|reflexivity]|].
  constructor; [|constructor]. apply sf_same. apply arg_value; [vm_compute; split; congruence|exact I|exact I].
Qed.

(** an object of length 3 whose charAt(1) throws, in "%6s" *)
Definition broken : cs := mkCs (Ok 3) (fun i => if i =? 1 then Err (OtherExn 6) else Ok 97) (Ok (Some (txt "aaa"))).
Example C96_broken : breaks broken 3 (OtherExn 6) /\
  exists ds, compile (fun _ => true) (txt "%6s") = Ok ds /\ forall b, formatInto J2 b ds [csTraits J2 broken RPrimitive] (txt ">") = (txt ">   ", Some (OtherExn 6)).
Proof.
  split.
  - split; [reflexivity|]. split; [unfold int_max; lia|]. exists 1. split; [lia|]. split; [reflexivity|]. intros j Hj. exists 97.
    cbn [broken cs_charAt]. replace (j =? 1) with false by (symmetry; apply Z.eqb_neq; lia). reflexivity.
  - eexists. split; [vm_compute; reflexivity|]. intros [|]; vm_compute; reflexivity.
Qed.
