(** Property C58: format with an Appendable that may throw. *)
From Verif Require Import Base Digits SeqM SeqSpec ContextM CompilerM GrammarSpec FormatterM TraitsM ImplM FmtSpec FmtP DirSpec IntP
  LoopSpec LoopP TameP PropsInt SinkM SinkSpec SinkP.

(** C58: the calls made on the target are fixed beforehand: they do not depend on it, and the first that throws is the
    last. An IOException comes out wrapped in an UncheckedIOException, other exceptions as they are. *)
Theorem C58_calls_do_not_depend_on_the_target :
  forall J ds args, exists calls e,
    forall W (append : W -> call -> W * option failure) w, formatTo W append J ds args w = ends append calls e w.
Proof. intros J ds args. exists (fst (format_script J ds args)), (snd (format_script J ds args)). intros. apply formatTo_script. Qed.
Print Assumptions C58_calls_do_not_depend_on_the_target.

(** C58: the calls hand over exactly the text of the call, within the bounds of the strings they name, and then the call
    ends as it does with a target that never throws. *)
Theorem C58_calls_spell_the_text :
  forall dtf src J ds args, compile dtf src = Ok ds -> Forall (honest J) args ->
  exists calls e,
    Forall in_bounds calls /\
    (forall sb target, formatInto J sb ds args target = (target ++ concat (map handed calls), e)) /\
    forall W (append : W -> call -> W * option failure) w, formatTo W append J ds args w = ends append calls e w.
Proof.
  intros dtf src J ds args Hc H. destruct (format_says J ds (compiled_sane _ _ _ Hc) args H) as [B R].
  exists (fst (format_script J ds args)), (snd (format_script J ds args)). split; [exact B|]. split; [|intros; apply formatTo_script].
  intros sb target. destruct (same_text dtf src J ds args Hc H) as (n & t & e & S & _).
  pose proof (S false []) as F. unfold formatInto in F. rewrite (R []) in F. cbn [app] in F. injection F as F1 F2. rewrite S, F1, F2. reflexivity.
Qed.
Print Assumptions C58_calls_spell_the_text.

(** C58: a target with room for [room] characters that throws when full is left with the text, cut to its room. *)
Theorem C58_full_target_holds_a_prefix :
  forall dtf src J ds args room n, compile dtf src = Ok ds -> Forall (honest J) args -> 0 <= room ->
  exists t e, formatInto J false ds args [] = (t, e) /\
    formatTo (list Z) (bounded room n) J ds args [] =
      (if zlen t <=? room then (t, option_map Plain e) else (firstn (Z.to_nat room) t, Some (UncheckedIO n))).
Proof.
  intros dtf src J ds args room n Hc H Hr. destruct (C58_calls_spell_the_text dtf src J ds args Hc H) as (calls & e & _ & S & F).
  exists (concat (map handed calls)), e. split; [apply (S false [])|]. rewrite F. unfold ends.
  rewrite feed_bounded by exact Hr. cbv zeta. cbn [app]. destruct (_ <=? room); reflexivity.
Qed.
Print Assumptions C58_full_target_holds_a_prefix.

(** the model of ImplM.v, an Appendable that accepts everything, is the case of enough room *)
Example C58_example :
  let i z := traitsOf J0 (VInt z) RPrimitive in
  exists ds, compile (fun _ => true) (txt "ab%5d|%s") = Ok ds /\
    formatTo (list Z) (bounded 100 7) J0 ds [i 12; i 345] [] = (txt "ab   12|345", None) /\
    formatTo (list Z) (bounded 4 7) J0 ds [i 12; i 345] [] = (txt "ab  ", Some (UncheckedIO 7)) /\
    formatTo (list Z) (bounded 9 7) J0 ds [i 12] [] = (txt "ab   12|", Some (Plain (Printf MissingArg))).
Proof. eexists. split; [reflexivity|]. split; [reflexivity|]. split; reflexivity. Qed.
