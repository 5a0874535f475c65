(** Property C72: the target of a call is also one of its arguments. *)
From Verif Require Import Base Digits SeqM SeqSpec ContextM CompilerM GrammarSpec FormatterM TraitsM ImplM FmtSpec FmtP DirSpec IntP
  LoopSpec LoopP PropsInt AliasM AliasSpec AliasP.

(** C72: unless a %s can get spaces in front, a directive prints the target as a String of the content it has when the directive
    starts. This holds for every format and any mixture of arguments. *)
Theorem C72_target_as_argument_partial :
  forall J b d ds args target, no_left_pad d ->
  runAliased J b (d :: ds) args target =
  match formatInto J b [d] (map (frozen J target) args) target with
  | (target', None) => runAliased J b ds (skipn (Z.to_nat (arity d)) args) target'
  | stop => stop
  end.
Proof. exact aliased_step. Qed.
Print Assumptions C72_target_as_argument_partial.

(** C72: what a single %s directive does, exactly. A target of two or more characters that gets spaces in front is not printed
    right: a StringBuilder prints the spaces once more, another Appendable gives up after the spaces. *)
Theorem C72_string_of_the_target :
  forall J src q b r target dtf, directive src Ss q -> zlen target <= int_max ->
  exists apps, compile dtf src = Ok apps /\ runAliased J b apps [Itself r] target =
    if (2 <=? zlen target) && negb (match q_prec q with Some p => p <? zlen target | None => false end) && negb (q_left q) && (zlen target <? q_width q)
    then let t := target ++ spaces (q_width q - zlen target) in if b then (t ++ t, None) else (t, Some IllegalState)
    else (target ++ c_s q target, None).
Proof. exact target_of_s. Qed.
Print Assumptions C72_string_of_the_target.

(** C72: every other conversion treats it like a String. *)
Theorem C72_other_conversions :
  forall J src s q b r target t dtf, directive src s q -> s <> Ss -> prints J src [traitsOf J (VStr target) r] t ->
  exists apps, compile dtf src = Ok apps /\ runAliased J b apps [Itself r] target = (target ++ t, None).
Proof.
  intros J src s q b r target t dtf Hd Hs P. destruct (P dtf) as (apps & Hc & _ & W). exists apps. split; [exact Hc|].
  destruct (directive_compile dtf _ _ _ Hd) as (c & Hc' & _). rewrite Hc in Hc'. inversion Hc'. subst apps.
  rewrite aliased_step; [cbn [map frozen]; rewrite W; reflexivity|]. destruct s; try exact I. contradiction.
Qed.
Print Assumptions C72_other_conversions.

(** C72: without the target among the arguments this is the call as modelled before. *)
Theorem C72_other_arguments : forall J b ds args target, runAliased J b ds (map Other args) target = formatInto J b ds args target.
Proof. intros J b ds args target. apply aliased_other. Qed.
Print Assumptions C72_other_arguments.

(** C72 is false for %4s of a builder that holds "ab". *)
Theorem C72_padding_in_front_refuted :
  exists src target, forall J dtf r, exists apps, compile dtf src = Ok apps /\
    runAliased J true apps [Itself r] target = (target ++ txt "  ab  ", None) /\
    runAliased J false apps [Itself r] target = (target ++ txt "  ", Some IllegalState) /\
    (forall b, formatInto J b apps [traitsOf J (VStr target) r] target = (target ++ txt "  ab", None)).
Proof.
  exists (txt "%4s"), (txt "ab"). intros J dtf r. eexists. split; [reflexivity|]. split; [reflexivity|]. split; [reflexivity|]. intros []; reflexivity.
Qed.
Print Assumptions C72_padding_in_front_refuted.

(** literal text, the target in full, a width taken from another argument, the target's first character *)
Example C72_example :
  exists apps, compile (fun _ => true) (txt "<%s|%-*s|%c>") = Ok apps /\ Forall no_left_pad apps /\
    runAliased J0 true apps [Itself RNull; Other (traitsOf J0 (VInt 9) RPrimitive); Itself RNull; Itself RNull] (txt "ab") = (txt "ab<ab<|ab<ab<|  |a>", None).
Proof. eexists. split; [reflexivity|]. split; [repeat constructor; right; reflexivity|]. reflexivity. Qed.
