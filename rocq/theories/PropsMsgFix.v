(** Property C112: messages that always name the argument (repairs for findings 30, 31 and 32). *)
From Verif Require PropsMsg.
From Verif Require Import Base Digits UtilsM SeqM SeqSpec SeqP ContextM CompilerM IntFormM FormatterM MathM DecimalM BigDecM TraitsM PropsInt MiscSpec MiscP MsgM MsgSpec MsgP MsgFixM MsgFixSpec.
Import PropsMsg.

Lemma argText_is J K v t : its_text J K v t -> argText J K v = t.
Proof.
  intros H. destruct H as [v t H| | | | | | | | |]; try reflexivity. destruct H; try reflexivity; cbn [argText].
  - match goal with E : s_toString _ = _ |- _ => rewrite E end. reflexivity.
  - cbn [lenient]. destruct e; try reflexivity. congruence.
Qed.

Lemma noTemporalN_text J K v : noTemporalN J K v = mkMsg (txt "Cannot convert [" ++ argText J K v ++ txt "] to TemporalAccessor") false.
Proof. exact (f_equal (fun x => mkMsg x false) (one_placeholder (txt "Cannot convert [") (txt "] to TemporalAccessor") _ ltac:(no_ph) ltac:(no_ph))). Qed.
Lemma hexMessageN_text J K v : hexMessageN J K v = mkMsg (txt "hexLayout not supported for BigDecimal: " ++ argText J K v ++ []) false.
Proof. exact (f_equal (fun x => mkMsg x false) (one_placeholder (txt "hexLayout not supported for BigDecimal: ") [] _ ltac:(no_ph) ltac:(no_ph))). Qed.
Lemma toChar_text t : printf (txt "Can't convert %s to char") [t] = mkMsg (txt "Can't convert " ++ t ++ txt " to char") false.
Proof. exact (f_equal (fun x => mkMsg x false) (one_placeholder (txt "Can't convert ") (txt " to char") _ ltac:(no_ph) ltac:(no_ph))). Qed.
Lemma noFormatterN_text J K t : noFormatterMessageN J K t =
  mkMsg (txt "No default DateTimeFormatter for type: " ++ k_class K t ++ txt " [" ++ j_temporalText J t ++ txt "]") false.
Proof. exact (f_equal (fun x => mkMsg x false) (one_and_more (txt "No default DateTimeFormatter for type: ") _ _ ltac:(no_ph))). Qed.
Lemma pointerN_text J K v : pointerMessageN J K v =
  mkMsg (txt "The '%p' specifier cannot be used with primitive types." ++ txt " [" ++ argText J K v ++ txt "]") false.
Proof.
  reflexivity.
Qed.

Lemma string_named J K u n a m : a <> ATemporal -> n = zlen u -> charSeqMessage J K u n a = Some m -> names m u.
Proof.
  intros Ha -> X. pose proof X as Y. apply C70_string_messages in X. subst m.
  destruct a; try (eexists; eexists; cbn [m_text]; reflexivity); [contradiction|].
  cbn [charSeqMessage] in Y. destruct (Z.leb_spec 1 (zlen u)) as [|L]; [discriminate Y|].
  destruct u as [|c u]; [|rewrite zlen_cons in L; pose proof (zlen_nonneg u); lia].
  exists [], (txt "Empty string cannot be converted to char"). reflexivity.
Qed.

(** every conversion, also those of the arguments of '*': the message contains the text of the argument *)
Theorem C112_conversions_name_the_argument : forall J K v a m t, accessMessageN J K v a = Some m -> its_text J K v t -> whole v t -> names m t.
Proof.
  intros J K v a m t H Ht Hw. pose proof (argText_is _ _ _ _ Ht) as E.
  assert (T : Some (noTemporalN J K v) = Some m -> names m t).
  { intros X. injection X as <-. rewrite noTemporalN_text, E. eexists; eexists; cbn [m_text]; reflexivity. }
  assert (Da : a = ATemporal \/ a <> ATemporal) by (destruct a; (left; reflexivity) || (right; discriminate)).
  destruct v as [b|c|z|z|z|z|b|b|u|q|u|z|d|x|o].
  all: try (destruct a; cbn [accessMessageN accessMessage] in H; try discriminate H; exact (T H)).
  - destruct Da as [-> |Da]; [exact (T H)|]. assert (X : charSeqMessage J K u (zlen u) a = Some m) by (destruct a; [exact H..|contradiction|exact H]).
    cbn [argText] in E. subst u. exact (string_named _ _ _ _ _ _ Da eq_refl X).
  - destruct Da as [-> |Da].
    + cbn [accessMessageN accessMessage] in H. destruct (s_toString q); [exact (T H)|discriminate H].
    + assert (X : accessMessage J K (VSeq q) a = Some m) by (destruct a; [exact H..|contradiction|exact H]). cbn [accessMessage argText] in X, E.
      destruct (s_toString q) as [w|e]; [|discriminate X]. subst w. exact (string_named _ _ _ _ _ _ Da (den_len _ _ Hw) X).
  - destruct Da as [-> |Da]; [exact (T H)|]. assert (X : charSeqMessage J K u (zlen u) a = Some m) by (destruct a; [exact H..|contradiction|exact H]).
    cbn [argText] in E. subst u. exact (string_named _ _ _ _ _ _ Da eq_refl X).
  - cbn [accessMessageN argText] in H, E. subst t. unfold temporalMessageN in H. destruct a; try discriminate H.
    4: { rewrite toChar_text in H. injection H as <-. exists (txt "Can't convert "), (txt " to char"). reflexivity. }
    all: destruct (instantFrom J x); [discriminate H|]; injection H as <-; cbn [m_text because].
    + exists (txt "Can't get epoch milliseconds from: "), []. rewrite app_nil_r. reflexivity.
    + exists (txt "Can't get epoch seconds from: "), []. rewrite app_nil_r. reflexivity.
    + exists (txt "Can't get epoch seconds from: "), []. rewrite app_nil_r. reflexivity.
  - cbn [accessMessageN accessMessage] in H. assert (O : own_text J K (VObj o) t).
    { inversion Ht; subst; try assumption; discriminate H. }
    rewrite (C70_object_messages J K o t a m H O). eexists []; eexists; cbn [m_text app]; reflexivity.
Qed.
Print Assumptions C112_conversions_name_the_argument.

(** every directive without pattern, on every argument *)
Theorem C112_argument_is_named : forall J K s v r m t, directiveMessageN J K s v r = Some m -> its_text J K v t -> whole v t -> names m t.
Proof.
  intros J K s v r m t H Ht Hw. unfold directiveMessageN in H. pose proof (argText_is _ _ _ _ Ht) as E.
  destruct (match accessorOf s with Some a => accessMessageN J K v a | None => None end) as [m'|] eqn:A.
  - injection H as ->. destruct (accessorOf s) as [a|]; [|discriminate A]. exact (C112_conversions_name_the_argument _ _ _ _ _ _ A Ht Hw).
  - clear A. assert (P : forall x, x = pointerMessageN J K v -> names x t).
    { intros x ->. rewrite pointerN_text, E. exists (txt "The '%p' specifier cannot be used with primitive types. ["), (txt "]"). reflexivity. }
    assert (X : forall x, x = hexMessageN J K v -> names x t).
    { intros x ->. rewrite hexMessageN_text, E. eexists; eexists; cbn [m_text]; reflexivity. }
    assert (N : forall z, v = VBig z -> (if z <? 0 then Some (negativeMessage z) else None) = Some m -> names m t).
    { intros z -> Y. destruct (z <? 0) eqn:L; [|discriminate Y]. apply Z.ltb_lt in L. injection Y as <-.
      destruct (C70_other_messages J K) as (G & _). rewrite (G z L). cbn [argText] in E. subst t. eexists; eexists; cbn [m_text]; reflexivity. }
    destruct s, v as [b|c|z|z|z|z|b|b|u|q|u|z|d|x|o]; try discriminate H.
    all: try (exact (N _ eq_refl H)).
    all: try (injection H as <-; apply X; reflexivity).
    all: try (destruct r; try discriminate H; injection H as <-; apply P; reflexivity).
    all: destruct x; try discriminate H; injection H as <-; rewrite noFormatterN_text; cbn [argText] in E; subst t;
      eexists (txt "No default DateTimeFormatter for type: " ++ k_class K _ ++ txt " ["); exists (txt "]"); cbn [m_text]; rewrite <- !app_assoc; reflexivity.
Qed.
Print Assumptions C112_argument_is_named.

(** all arguments have a text, but a Seq whose toString fails and a Number, Date or Calendar whose toString does *)
Theorem C112_all_have_texts : forall J K v, (forall q, v = VSeq q -> exists t, s_toString q = Ok t) ->
  (forall o, v = VObj o -> match o with ONumber _ _ _ (Err _) | ODate _ _ (Err _) | OCalendar _ (Err _) => False | _ => True end) ->
  exists t, its_text J K v t.
Proof.
  intros J K v Hq Ho. destruct v as [b|c|z|z|z|z|b|b|u|q|u|z|d|x|o]; try (eexists; constructor; constructor; fail); try (eexists; constructor; fail).
  - destruct b; eexists; constructor; fail.
  - destruct (Hq q eq_refl) as (t & E). exists t. constructor. constructor. exact E.
  - specialize (Ho o eq_refl). destruct o; try (eexists; constructor; constructor; fail).
    all: match goal with x : res _ |- _ => destruct x as [t|e] end; try contradiction; try (eexists; constructor; fail); try (eexists; constructor; constructor; fail).
    assert (De : e = NullPtr \/ e <> NullPtr) by (destruct e; (left; reflexivity) || (right; discriminate)).
    destruct De as [-> |De]; [eexists; constructor; constructor|exists (k_thrower K (OOther (Err e))); constructor; constructor; exact De].
Qed.
Print Assumptions C112_all_have_texts.

(** the same calls fail *)
Theorem C112_same_failures : forall J K v a s r,
  ((exists m, accessMessageN J K v a = Some m) <-> (exists m, accessMessage J K v a = Some m)) /\
  ((exists m, directiveMessageN J K s v r = Some m) <-> (exists m, directiveMessage J K s v r = Some m)).
Proof.
  assert (X : forall T (A B : option T), (A = None <-> B = None) -> ((exists m, A = Some m) <-> (exists m, B = Some m))).
  { intros T A B H. destruct A as [x|], B as [y|]; split; intros (m & E); try discriminate E; eauto.
    - destruct H as [_ H]. discriminate (H eq_refl).
    - destruct H as [H _]. discriminate (H eq_refl). }
  assert (S : forall J K v a, accessMessageN J K v a = None <-> accessMessage J K v a = None).
  { intros J K v a. destruct v as [b|c|z|z|z|z|b|b|u|q|u|z|d|x|o], a; cbn [accessMessageN]; try reflexivity; cbn [accessMessage].
    all: try (split; intros E; discriminate E); try (split; intros E; exact E).
    all: try (unfold temporalMessageN, temporalMessage; destruct (instantFrom J x); split; intros E; discriminate E || reflexivity).
    all: try (cbn [charSeqMessage]; unfold noTemporal; split; intros E; discriminate E).
    destruct (s_toString q); cbn [charSeqMessage]; unfold noTemporal; split; intros E; discriminate E || reflexivity. }
  intros J K v a s r. split; apply X; [apply S|].
  assert (A : (match accessorOf s with Some a => accessMessageN J K v a | None => None end) = None <->
              (match accessorOf s with Some a => accessMessage J K v a | None => None end) = None).
  { destruct (accessorOf s); [apply S|reflexivity]. }
  unfold directiveMessageN, directiveMessage.
  destruct (match accessorOf s with Some a => accessMessageN J K v a | None => None end) as [m1|],
           (match accessorOf s with Some a => accessMessage J K v a | None => None end) as [m2|]; clear S.
  - split; intros E; discriminate E.
  - destruct A as [_ A]. discriminate (A eq_refl).
  - destruct A as [A _]. discriminate (A eq_refl).
  - clear A X. destruct s, v as [b|c|z|z|z|z|b|b|u|q|u|z|d|x|o]; try reflexivity; try (split; intros E; discriminate E).
    all: try (destruct x; try reflexivity; split; intros E; discriminate E).
    all: destruct r; try reflexivity; split; intros E; discriminate E.
Qed.
Print Assumptions C112_same_failures.

(** a temporal without instant: the exception of the JDK is the cause *)
Theorem C112_cause : forall J K t a m, accessMessageN J K (VTemporal t) a = Some m -> a <> AChar -> m_cause m = true.
Proof.
  intros J K t a m H Ha. cbn [accessMessageN] in H. unfold temporalMessageN in H.
  destruct a; try congruence; destruct (instantFrom J t); try discriminate H; injection H as <-; reflexivity.
Qed.
Print Assumptions C112_cause.

(** where the messages of the library did name the argument, and had a cause, nothing changes *)
Theorem C112_kept : forall J K s v r, named s v -> (forall t, v <> VTemporal t) -> directiveMessageN J K s v r = directiveMessage J K s v r.
Proof.
  intros J K s v r Hn Ht.
  destruct Hn as [s u [H|H]|s u [H|H]|s q [H|H]|s n H|s t H|s o H]; try (exfalso; exact (Ht _ eq_refl)).
  all: try (cbn in H; intuition subst; reflexivity).
  destruct s; try reflexivity; contradiction.
Qed.
Print Assumptions C112_kept.

(** the witnesses of C70, repaired *)
Example C112_ex :
  map (option_map (fun m => (m_text m, m_cause m)))
    [directiveMessageN J0 K0 St (VStr (txt "noon")) (RObj [] 0); accessMessageN J0 K0 (VTemporal (TLocalDate 0)) AInt;
     directiveMessageN J0 K0 Su (VBig (-3)) (RObj [] 0); directiveMessageN J0 K0 Sa (VBig (-3)) (RObj [] 0);
     directiveMessageN J0 K0 Sp (VInt 7) RPrimitive; directiveMessageN J0 K0 St (VChar 65) RPrimitive; directiveMessageN J0 K0 Sd (VInt 7) RPrimitive] =
    [Some (txt "Cannot convert [noon] to TemporalAccessor", false); Some (txt "Can't get epoch seconds from: " ++ j_temporalText J0 (TLocalDate 0), true);
     Some (txt "Negative BigInteger(-3) cannot be converted to unsigned", false); Some (txt "hexLayout not supported for BigDecimal: -3", false);
     Some (txt "The '%p' specifier cannot be used with primitive types. [7]", false); Some (txt "Cannot convert [A] to TemporalAccessor", false); None].
Proof. reflexivity. Qed.
