(** C86: lazy sequences whose action throws, or looks at the builder it is given. *)
From Verif Require Import Base Digits UtilsM SeqM SeqSpec ContextM CompilerM IntFormM FormatterM TraitsM ImplM ImplP LoopSpec LoopP PropsInt ValueSpec ValueP PropsValue PartM.

Lemma emitAtomsL_cases left atoms : forall sb,
  match emitAtoms a_toSB atoms sb with
  | (t, None) => emitAtomsL left atoms sb = (t, None)
  | (t, Some e) => emitAtomsL left atoms sb = (t, Some e) \/ exists act, emitAtomsL left atoms sb = (left act t, Some e)
  end.
Proof.
  induction atoms as [|a r IH]; intros sb; cbn [emitAtoms emitAtomsL]; [reflexivity|].
  destruct (a_toSB a sb) as [sb'|e]; [apply IH|]. destruct a; cbn [leftBy]; auto. right. eauto.
Qed.
Lemma emitL_cases left s sb :
  match emitSB s sb with
  | (t, None) => emitL left s sb = (t, None)
  | (t, Some e) => emitL left s sb = (t, Some e) \/ exists act, emitL left s sb = (left act t, Some e)
  end.
Proof.
  unfold emitSB, emitWith, emitL. destruct s as [a|l r n k|ps n]; [apply emitAtomsL_cases| |];
    (destruct (s_iter _) as [atoms|e]; [apply emitAtomsL_cases|auto]).
Qed.

(** how an action leaves the builder it throws on changes neither the outcome nor the text of a call that succeeds; of one that
    fails it can only change the end: the target then holds what the action made of the text written before *)
Theorem C86_failing_actions : forall left J ds args target,
  match formatInto J true ds args target with
  | (t, None) => formatIntoL left J true ds args target = (t, None)
  | (t, Some e) => formatIntoL left J true ds args target = (t, Some e) \/ exists act, formatIntoL left J true ds args target = (left act t, Some e)
  end.
Proof.
  intros left J ds. unfold formatInto, formatIntoL. induction ds as [|d ds IH]; intros args target; cbn [run]; [reflexivity|].
  destruct (appendOne J d args) as [[s it]|e]; [|auto]. pose proof (emitL_cases left s target) as C.
  destruct (emitSB s target) as [t [e|]].
  - destruct C as [-> |(act & ->)]; [auto|right; eauto].
  - rewrite C. apply IH.
Qed.
Print Assumptions C86_failing_actions.

(** other targets never see it *)
Theorem C86_other_targets : forall left J ds args target, formatIntoL left J false ds args target = formatInto J false ds args target.
Proof. reflexivity. Qed.
Print Assumptions C86_other_targets.

(** nor does it matter for arguments whose sequences keep to their text, such as all values the library wraps itself *)
Theorem C86_honest_arguments : forall left dtf src J ds args sb target, compile dtf src = Ok ds -> Forall (honest J) args ->
  formatIntoL left J sb ds args target = formatInto J sb ds args target.
Proof.
  intros left dtf src J ds args sb target Hc. apply compiled_sane in Hc. destruct sb; [|reflexivity]. revert args target.
  unfold formatInto, formatIntoL. induction ds as [|d ds IH]; intros args target Ha; cbn [run]; [reflexivity|].
  inversion Hc as [|x y Hd Hc']; subst. destruct (appendOne J d args) as [[s it]|e] eqn:E; [|reflexivity].
  destruct (appendOne_honest J d args s it Hd Ha E) as [[t Ht] Hit]. pose proof (emitL_cases left s target) as C.
  rewrite (Ht emitSB emits_sb target) in *. rewrite C. apply IH; assumption.
Qed.
Print Assumptions C86_honest_arguments.

Theorem C86_java_arguments : forall left dtf src J ds args sb target, jdk_ok J -> compile dtf src = Ok ds -> Forall (argument J) args ->
  formatIntoL left J sb ds args target = formatInto J sb ds args target.
Proof.
  intros left dtf src J ds args sb target HJ Hc Ha. apply (C86_honest_arguments left dtf src); [exact Hc|].
  eapply Forall_impl; [|exact Ha]. intros x Hx. apply argument_honest; assumption.
Qed.
Print Assumptions C86_java_arguments.

(** a lazy sequence under %s: any other target gets the text the action writes to an empty builder, a StringBuilder is handed
    to the action *)
Theorem C86_plain_directive : forall left J act n r ds dtf target, compile dtf (txt "%s") = Ok ds -> 2 <= n ->
  let args := [traitsOf J (VSeq (Leaf (ALazy act n))) r] in
  formatIntoL left J true ds args target = match act target with Ok t => (t, None) | Err e => (left act target, Some e) end /\
  formatIntoL left J false ds args target =
    match act [] with
    | Ok t => if n =? zlen t then (target ++ t, None) else (target, Some IllegalState)
    | Err e => (target, Some e)
    end.
Proof.
  intros left J act n r ds dtf target Hc Hn args. cbn in Hc. injection Hc as <-.
  assert (E : appendOne J (Default Ss (mkCtx noFlags UNSET UNSET None)) args = Ok (Leaf (ALazy act n), [])).
  { unfold args. cbn. unfold spaceJustify. cbn [s_len a_len]. replace (n <? width _) with false; [reflexivity|]. symmetry. apply Z.ltb_ge. unfold width. cbn. lia. }
  unfold formatIntoL. cbn [run]. rewrite E. split.
  - cbn. destruct (act target); reflexivity.
  - cbn. unfold getCachedString, buildEagerly. destruct (act []) as [t|e]; cbn [bind]; [|reflexivity]. destruct (n =? zlen t); reflexivity.
Qed.
Print Assumptions C86_plain_directive.

(** an action that throws after two characters: they stay in a StringBuilder, and nowhere else *)
Definition half (sb : list Z) : list Z := sb ++ txt "ab".
Theorem C86_part_is_kept_refuted : exists act left args ds J, forall dtf,
  compile dtf (txt "[%s]") = Ok ds /\ left act = half /\
  formatIntoL left J true ds args [] = (txt "[ab", Some (OtherExn 6)) /\ formatIntoL left J false ds args [] = (txt "[", Some (OtherExn 6)).
Proof.
  exists (fun _ => Err (OtherExn 6)), (fun _ => half), [traitsOf J2 (VSeq (Leaf (ALazy (fun _ => Err (OtherExn 6)) 4))) RNull]. eexists _, J2.
  intros dtf. repeat split.
Qed.
Print Assumptions C86_part_is_kept_refuted.

(** an action that writes a text of the announced length to an empty builder, but turns round what it finds in another one *)
Theorem C86_action_sees_the_target_refuted : exists (act : list Z -> res (list Z)) args ds J, act [] = Ok (txt "xy") /\ forall dtf,
  compile dtf (txt "ab%s") = Ok ds /\
  formatInto J true ds args [] = (txt "baxy", None) /\ formatInto J false ds args [] = (txt "abxy", None) /\
  ImplM.format J ds args = Ok (txt "baxy").
Proof.
  exists (fun sb => Ok (rev sb ++ txt "xy")), [traitsOf J2 (VSeq (Leaf (ALazy (fun sb => Ok (rev sb ++ txt "xy")) 2))) RNull]. eexists _, J2.
  split; [reflexivity|]. intros dtf. repeat split.
Qed.
Print Assumptions C86_action_sees_the_target_refuted.

Example C86_example : forall dtf left, exists ds, compile dtf (txt "<%s>") = Ok ds /\
  formatIntoL left J2 true ds [traitsOf J2 (VSeq (Leaf (ALazy (fun sb => Ok (sb ++ txt "xy")) 2))) RNull] [] = (txt "<xy>", None).
Proof. intros dtf left. eexists. split; reflexivity. Qed.
