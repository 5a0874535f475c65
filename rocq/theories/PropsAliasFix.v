(** Property C114: the target of a call as one of its arguments (repair for finding 35). *)
From Verif Require Import Base Digits SeqM SeqSpec ContextM CompilerM GrammarSpec FormatterM TraitsM ImplM FmtSpec FmtP DirSpec IntP
  LoopSpec LoopP PropsInt AliasM AliasSpec AliasP AliasFixM.

Lemma nowC_frozen J sb x : nowC J sb x = frozen J sb x.
Proof. destruct x; reflexivity. Qed.

(** C72 without its premise: every directive prints the target as a String of the content it has when the directive starts. *)
Theorem C114_target_as_argument :
  forall J b d ds args target,
  runAliasedC J b (d :: ds) args target =
  match formatInto J b [d] (map (frozen J target) args) target with
  | (target', None) => runAliasedC J b ds (skipn (Z.to_nat (arity d)) args) target'
  | stop => stop
  end.
Proof.
  intros J b d ds it sb. unfold formatInto. cbn [runAliasedC run]. rewrite (map_ext _ _ (nowC_frozen J sb)).
  destruct (appendOne J d (map (frozen J sb) it)) as [[s rem]|e] eqn:A; [|reflexivity].
  assert (U : (List.length it - List.length rem)%nat = Z.to_nat (arity d)).
  { destruct d as [t|sp c].
    - cbn in A. injection A as _ <-. rewrite map_length. cbn. lia.
    - rewrite append_map in A. destruct (take_stars _ c it) as [[c' r]|e] eqn:T; cbn [bind] in A; [|discriminate A].
      apply take_stars_skip in T as (-> & Ln & _). destruct (skipn (Z.to_nat (stars c)) it) as [|x rest] eqn:K; [discriminate A|].
      destruct (formatterFor J sp c' (frozen J sb x)); cbn [bind] in A; [|discriminate A]. injection A as _ <-. apply skipn_hd in K as (K1 & _ & K3).
      rewrite map_length, <- K3, skipn_length. unfold arity, stars in *. destruct (c_width c =? PRECEDING), (c_prec c =? PRECEDING); lia. }
  rewrite U. destruct ((if b then emitSB else emitApp) s sb) as [sb' [e|]]; reflexivity.
Qed.
Print Assumptions C114_target_as_argument.

(** %s of the target, in any field, into a StringBuilder or not *)
Theorem C114_string_of_the_target :
  forall J src q b r target dtf, directive src Ss q -> zlen target <= int_max ->
  exists apps, compile dtf src = Ok apps /\ runAliasedC J b apps [Itself r] target = (target ++ c_s q target, None).
Proof.
  intros J src q b r target dtf Hd Hm. destruct (C12_string_conversion_partial J (VStr target) target r src q (it_str J target) Hm) as [P _].
  destruct (P Hd dtf) as (apps & Hc & _ & W). exists apps. split; [exact Hc|]. destruct (directive_compile dtf _ _ _ Hd) as (c & Hc' & _). rewrite Hc in Hc'. inversion Hc'. subst apps.
  rewrite C114_target_as_argument. cbn [map frozen]. rewrite W. reflexivity.
Qed.
Print Assumptions C114_string_of_the_target.

(** the other arguments print as before: every CharSequence that is not the target, and all others *)
Theorem C114_character_sequences : forall J src s q u r t, directive src s q -> zlen u <= int_max ->
  (prints J src [copyingTraits J u r] t <-> prints J src [traitsOf J (VChars u) r] t).
Proof.
  intros J src s q u r t Hd Hm. change (copyingTraits J u r) with (traitsOf J (VStr u) r).
  assert (D : s = Ss \/ s <> Ss) by (destruct s; (left; reflexivity) || (right; discriminate)). destruct D as [-> |D].
  - destruct (C12_string_conversion_partial J (VStr u) u r src q (it_str J u) Hm) as [P _]. destruct (C12_string_conversion_partial J (VChars u) u r src q (it_chars J u) Hm) as [P' _].
    specialize (P Hd). specialize (P' Hd).
    assert (X : forall x y z, prints J src x y -> prints J src x z -> y = z).
    { intros x y z H1 H2. destruct (H1 (fun _ => true)) as (a1 & C1 & F1 & _). destruct (H2 (fun _ => true)) as (a2 & C2 & F2 & _). congruence. }
    split; intros H; [rewrite (X _ _ _ H P); exact P'|rewrite (X _ _ _ H P'); exact P].
  - assert (E : forall y z, (forall c, formatterFor J s c y = formatterFor J s c z) -> prints J src [y] t -> prints J src [z] t).
    { intros y z E H dtf. destruct (H dtf) as (apps & Hc & F & W). exists apps. split; [exact Hc|]. destruct (directive_compile dtf _ _ _ Hd) as (c & Hc' & _ & _ & A & B & _).
      rewrite Hc in Hc'. inversion Hc'. subst apps.
      assert (R : forall emit sb, run J emit [Default s c] [z] sb = run J emit [Default s c] [y] sb).
      { intros emit sb. cbn [run appendOne]. rewrite !(resolve_plain _ _ A B). cbn [bind]. rewrite E. reflexivity. }
      unfold ImplM.format, formatInto in *. rewrite R. split; [exact F|]. intros sb target. rewrite R. apply W. }
    split; apply E; intros c; [symmetry|]; apply same_conversions; left; exact D.
Qed.
Print Assumptions C114_character_sequences.

Theorem C114_other_arguments : forall J b ds args target, runAliasedC J b ds (map Other args) target = formatInto J b ds args target.
Proof.
  intros J b ds args target. rewrite <- aliased_other. revert args target. induction ds as [|d ds IH]; intros args target; [reflexivity|].
  rewrite C114_target_as_argument, (aliased_other J b (d :: ds)). rewrite map_map. cbn [frozen]. rewrite map_id. rewrite <- (aliased_other J b (d :: ds)).
  assert (X : runAliased J b (d :: ds) (map Other args) target = match formatInto J b [d] args target with
     (o, None) => runAliased J b ds (skipn (Z.to_nat (arity d)) (map Other args)) o | o => o end).
  { rewrite aliased_step_gen; [rewrite map_map; cbn [frozen]; rewrite map_id; reflexivity|].
    intros c c' r rest _ T _. exfalso. apply take_stars_skip in T as (E & _). rewrite skipn_map in E. destruct (skipn _ args); discriminate E. }
  rewrite X. destruct (formatInto J b [d] args target) as [o [e|]]; [reflexivity|]. rewrite skipn_map. apply IH.
Qed.
Print Assumptions C114_other_arguments.

(** the witness of C72, and the target among other arguments *)
Example C114_example :
  (exists apps, compile (fun _ => true) (txt "%4s") = Ok apps /\ forall b, runAliasedC J0 b apps [Itself RNull] (txt "ab") = (txt "ab  ab", None)) /\
  exists apps, compile (fun _ => true) (txt "<%4s|%*s|%c>") = Ok apps /\
    runAliasedC J0 false apps [Itself RNull; Other (traitsOf J0 (VInt 9) RPrimitive); Itself RNull; Itself RNull] (txt "ab") = (txt "ab< ab<| ab< ab<||a>", None).
Proof. split; eexists; (split; [reflexivity|]); [intros []; reflexivity|reflexivity]. Qed.
