(** C115: a LazySeq that never hands the target to its action. *)
From Verif Require Import Base Digits UtilsM SeqM SeqSpec ContextM CompilerM IntFormM FormatterM TraitsM ImplM ImplP LoopSpec LoopP PropsInt ValueSpec ValueP PropsValue TameP LazyFixM LazyFixSpec LazyFixP.

(** whatever its lazy parts do and announce, both kinds of target receive the same text and the same outcome, and so does [format] *)
Theorem C115_both_targets : forall J ds args target, Forall (sound_arg J) args ->
  formatIntoZ J true ds args target = formatIntoZ J false ds args target /\
  formatZ J ds args = match formatIntoZ J false ds args [] with (t, None) => Ok t | (_, Some e) => Err e end.
Proof.
  intros J ds args target H. unfold formatIntoZ, formatZ. rewrite (even_run J ds args target H), (even_run J ds args [] H). split; reflexivity.
Qed.
Print Assumptions C115_both_targets.

(** the arguments this covers: null and every value, a Seq of the caller's own included when its views lie within their texts *)
Theorem C115_arguments_are_sound : forall J, sound_arg J nullTraits /\ forall v r, (forall q, v = VSeq q -> sound q) -> sound_arg J (traitsOf J v r).
Proof. exact (fun J => conj (sound_null J) (sound_value J)). Qed.
Print Assumptions C115_arguments_are_sound.

(** what a target held before stays in front of what the call writes into an empty one, for every argument *)
Theorem C115_earlier_content : forall J sb ds args target,
  let (o, e) := formatIntoZ J sb ds args [] in formatIntoZ J sb ds args target = (target ++ o, e).
Proof.
  intros J sb ds args target. assert (E : formatIntoZ J sb ds args target = after target (formatIntoZ J sb ds args [])).
  { unfold formatIntoZ. destruct sb; unfold emitSBZ, emitApp; apply run_appends; [exact toSBZ_appends|exact toApp_appends]. }
  rewrite E. destruct (formatIntoZ J sb ds args []). reflexivity.
Qed.
Print Assumptions C115_earlier_content.

(** targets other than a StringBuilder see no change *)
Theorem C115_other_targets : forall J ds args target, formatIntoZ J false ds args target = formatInto J false ds args target.
Proof. reflexivity. Qed.
Print Assumptions C115_other_targets.

(** nor does a StringBuilder, when the arguments keep to their text *)
Theorem C115_kept : forall dtf src J ds args sb target, compile dtf src = Ok ds -> Forall (honest J) args -> Forall (sound_arg J) args ->
  formatIntoZ J sb ds args target = formatInto J sb ds args target.
Proof.
  intros dtf src J ds args sb target Hc Ha Hs. destruct sb; [|reflexivity]. rewrite (proj1 (C115_both_targets J ds args target Hs)). clear Hs.
  apply compiled_sane in Hc. revert args target Ha. unfold formatIntoZ, formatInto.
  induction ds as [|d ds IH]; intros args target Ha; cbn [run]; [reflexivity|].
  inversion Hc as [|x y Hd Hc']; subst. destruct (appendOne J d args) as [[s it]|e] eqn:E; [|reflexivity].
  destruct (appendOne_honest J d args s it Hd Ha E) as [[t Ht] Hit].
  rewrite (Ht emitSB emits_sb target), (Ht emitApp emits_app target). apply IH; assumption.
Qed.
Print Assumptions C115_kept.

Lemma den_atom_sound a t : den_atom a t -> sound_atom a.
Proof. intros [_ H]. destruct a; cbn [sound_atom]; try exact I; destruct H as (H1 & H2 & H3 & _); lia. Qed.
Lemma den_sound s t : den s t -> sound s.
Proof.
  intros H. induction H as [a t H|l r tl tr k Hl IHl Hr IHr _|p ps ts H _]; cbn [sound].
  - exact (den_atom_sound a t H).
  - split; assumption.
  - clear - H. induction H as [|a t l ts Ha _ IH]; constructor; [exact (den_atom_sound a t Ha)|exact IH].
Qed.

Theorem C115_java_arguments : forall dtf src J ds args sb target, jdk_ok J -> compile dtf src = Ok ds -> Forall (argument J) args ->
  formatIntoZ J sb ds args target = formatInto J sb ds args target /\ formatZ J ds args = ImplM.format J ds args.
Proof.
  intros dtf src J ds args sb target HJ Hc Ha.
  assert (H1 : Forall (honest J) args) by (eapply Forall_impl; [|exact Ha]; intros x Hx; apply argument_honest; assumption).
  assert (H2 : Forall (sound_arg J) args).
  { eapply Forall_impl; [|exact Ha]. intros x [|v r Hv Hp Hr]; [apply sound_null|apply sound_value]. intros q ->.
    destruct Hv as [t Ht]. exact (den_sound q t Ht). }
  split; [exact (C115_kept dtf src J ds args sb target Hc H1 H2)|].
  pose proof (C115_kept dtf src J ds args true [] Hc H1 H2) as K. unfold formatIntoZ, formatInto in K. unfold formatZ, ImplM.format. rewrite K. reflexivity.
Qed.
Print Assumptions C115_java_arguments.

(** a lazy sequence under %s: every target gets the text the action writes to an empty builder, if it has the announced length *)
Theorem C115_plain_directive : forall J act n r ds dtf sb target, compile dtf (txt "%s") = Ok ds -> 2 <= n ->
  formatIntoZ J sb ds [traitsOf J (VSeq (Leaf (ALazy act n))) r] target =
    match act [] with
    | Ok t => if n =? zlen t then (target ++ t, None) else (target, Some IllegalState)
    | Err e => (target, Some e)
    end.
Proof.
  intros J act n r ds dtf sb target Hc Hn. cbn in Hc. injection Hc as <-. set (args := [traitsOf _ _ _]).
  assert (E : appendOne J (Default Ss (mkCtx noFlags UNSET UNSET None)) args = Ok (Leaf (ALazy act n), [])).
  { unfold args. cbn. unfold spaceJustify. cbn [s_len a_len]. replace (n <? width _) with false; [reflexivity|]. symmetry. apply Z.ltb_ge. unfold width. cbn. lia. }
  unfold formatIntoZ. cbn [run]. rewrite E.
  destruct sb; cbn; unfold getCachedString, buildEagerly; (destruct (act []) as [t|e]; cbn [bind]; [|reflexivity]; destruct (n =? zlen t); reflexivity).
Qed.
Print Assumptions C115_plain_directive.

(** the witnesses of findings 17 and 45 *)
Definition liar : traits := traitsOf J2 (VSeq (Leaf (ALazy (fun sb => Ok (sb ++ txt "abc")) 2))) RNull.
Definition turner : traits := traitsOf J2 (VSeq (Leaf (ALazy (fun sb => Ok (rev sb ++ txt "xy")) 2))) RNull.
Example C115_example : forall dtf, exists d1 d2,
  compile dtf (txt "%s") = Ok d1 /\ compile dtf (txt "ab%s") = Ok d2 /\ sound_arg J2 liar /\ sound_arg J2 turner /\
  formatInto J2 true d1 [liar] [] = (txt "abc", None) /\ formatIntoZ J2 true d1 [liar] [] = ([], Some IllegalState) /\
  formatInto J2 true d2 [turner] [] = (txt "baxy", None) /\ formatIntoZ J2 true d2 [turner] [] = (txt "abxy", None) /\
  formatZ J2 d2 [turner] = Ok (txt "abxy").
Proof.
  intros dtf. do 2 eexists. split; [reflexivity|]. split; [reflexivity|].
  split; [apply sound_value; intros q [= <-]; exact I|]. split; [apply sound_value; intros q [= <-]; exact I|]. repeat split.
Qed.
