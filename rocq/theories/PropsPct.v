(** Property C113: a percent sign in a field takes no argument (repair for finding 23). *)
From Verif Require Import Base Digits UtilsM SeqM SeqSpec SeqP ContextM CompilerM GrammarSpec CompilerP CompilerP2 PatternP IntFormM FormatterM
  MathM DecimalM BigDecM TraitsM ImplM ImplP FmtSpec FmtP DirSpec IntP PropsInt LoopSpec LoopP PctM PctSpec.

Lemma spaces_max n : spaces (Z.max 0 n - 1) = spaces (n - 1).
Proof. unfold spaces, rep. destruct (Z.le_gt_cases 1 n) as [H|H]; [rewrite Z.max_r by lia; reflexivity|].
  replace (Z.to_nat (Z.max 0 n - 1)) with (Z.to_nat (n - 1)) by lia. reflexivity.
Qed.

Lemma sign_field_is c : justify (q_of c) (txt "%") = sign_field c.
Proof.
  unfold justify, sign_field. cbn [q_of q_left q_width]. change (zlen (txt "%")) with 1. rewrite spaces_max. reflexivity.
Qed.

Lemma sign_short c : rt_ok c -> zlen (sign_field c) <= int_max.
Proof. intros H. destruct (spaceJustify_den c _ _ H (chS_den (ch "%"))) as (u & _ & D). change [ch "%"] with (txt "%") in D. rewrite sign_field_is in D. exact (den_max _ _ D). Qed.

Lemma appendOneP_sign J c it c' it' : resolveCtx c it = Ok (c', it') -> rt_ok c' ->
  exists s, appendOneP J (Default Spct c) it = Ok (s, it') /\ den s (sign_field c').
Proof.
  intros R H. cbn [appendOneP]. rewrite R. cbn [bind]. destruct (spaceJustify_den c' _ _ H (chS_den (ch "%"))) as (u & E & D).
  rewrite E. cbn [bind]. exists u. split; [reflexivity|]. change [ch "%"] with (txt "%") in D. rewrite sign_field_is in D. exact D.
Qed.

Lemma starless_plain c : sane (Default Spct c) -> starless (Default Spct c) -> rt_ok c /\ forall it, resolveCtx c it = Ok (c, it).
Proof.
  cbn [sane starless]. intros H [Hw Hp]. split.
  - unfold bounded_or_star in H. unfold rt_ok, UNSET, PRECEDING in *. intuition lia.
  - intros it. apply resolve_plain; apply Z.eqb_neq; assumption.
Qed.

Lemma runP_literal J emit ds : emits emit -> Forall sane ds -> Forall starless ds -> forall it sb, runP J emit ds it sb = run J emit (map literal ds) it sb.
Proof.
  intros He. induction ds as [|d ds IH]; intros Hs Hl it sb; [reflexivity|]. inversion Hs as [|? ? S1 S2]; inversion Hl as [|? ? L1 L2]; subst. specialize (IH S2 L2).
  assert (G : forall d, literal d = d -> appendOneP J d it = appendOne J d it -> runP J emit (d :: ds) it sb = run J emit (map literal (d :: ds)) it sb).
  { intros x E1 E2. cbn [runP map run]. rewrite E1, E2. destruct (appendOne J x it) as [[s it']|e]; [|reflexivity].
    destruct (emit s sb) as [o [e|]]; [reflexivity|apply IH]. }
  destruct d as [t|s c]; [apply G; reflexivity|]. destruct s; try (apply G; reflexivity). clear G.
  destruct (starless_plain c S1 L1) as [Hr R]. destruct (appendOneP_sign J c it c it (R it) Hr) as (s & E & D).
  cbn [runP map literal run]. rewrite E. cbn [appendOne]. rewrite (wden_emits _ _ _ sb He (den_wden _ _ D)).
  rewrite (wden_emits _ _ _ sb He (den_wden _ _ (wrapS_den _ (sign_short c Hr)))). apply IH.
Qed.

(** Alone: it prints itself in its field, whatever the arguments are, and if there are none. *)
Theorem C113_percent_needs_no_argument : forall J src q args, directive src Spct q -> printsP J src args (justify q (txt "%")).
Proof.
  intros J src q args Hd dtf. destruct (directive_compile dtf _ _ _ Hd) as (c & Ec & Hr & Hq & A & B & _). exists [Default Spct c]. split; [exact Ec|].
  destruct (appendOneP_sign J c args c args (resolve_plain _ _ A B) Hr) as (s & E & D). rewrite <- sign_field_is, Hq in D. apply den_wden in D. split.
  - unfold formatP. cbn [runP]. rewrite E, (emitSB_wden _ _ _ D). reflexivity.
  - intros sb target. unfold formatIntoP. cbn [runP]. rewrite E, (wden_emits _ _ _ target (emits_if sb) D). reflexivity.
Qed.
Print Assumptions C113_percent_needs_no_argument.

(** In any format and with any arguments: the call does what the library does when the signs in their fields are written out. *)
Theorem C113_percent_is_text : forall J dtf src ds args, compile dtf src = Ok ds -> Forall starless ds ->
  formatP J ds args = ImplM.format J (map literal ds) args /\
  forall sb target, formatIntoP J sb ds args target = formatInto J sb (map literal ds) args target.
Proof.
  intros J dtf src ds args Hc Hl. pose proof (compiled_sane _ _ _ Hc) as Hs. split.
  - unfold formatP, ImplM.format. rewrite (runP_literal J emitSB ds emits_sb Hs Hl). reflexivity.
  - intros sb target. unfold formatIntoP, formatInto. apply (runP_literal J _ ds (emits_if sb) Hs Hl).
Qed.
Print Assumptions C113_percent_is_text.

(** With '*': only the arguments of the '*' are taken. *)
Theorem C113_stars : forall J dtf src c ds it c' it', compile dtf src = Ok (Default Spct c :: ds) -> Forall (honest J) it -> resolveCtx c it = Ok (c', it') ->
  forall sb target, formatIntoP J sb (Default Spct c :: ds) it target = formatIntoP J sb ds it' (target ++ sign_field c').
Proof.
  intros J dtf src c ds it c' it' Hc Hh R sb target. pose proof (compiled_sane _ _ _ Hc) as Hs. inversion Hs as [|? ? S1 S2]; subst. cbn [sane] in S1.
  assert (Hr : rt_ok c').
  { apply (resolved_ok c it c' it' S1 R). revert Hh. apply Forall_impl. intros x [H _]. exact H. }
  destruct (appendOneP_sign J c it c' it' R Hr) as (s & E & D). unfold formatIntoP. cbn [runP]. rewrite E.
  rewrite (wden_emits _ _ _ target (emits_if sb) (den_wden _ _ D)). reflexivity.
Qed.
Print Assumptions C113_stars.

(** Without such a sign nothing changes. *)
Theorem C113_kept : forall J ds args, Forall no_sign ds ->
  formatP J ds args = ImplM.format J ds args /\ forall sb target, formatIntoP J sb ds args target = formatInto J sb ds args target.
Proof.
  assert (G : forall J emit ds, Forall no_sign ds -> forall it sb, runP J emit ds it sb = run J emit ds it sb).
  { intros J emit ds H. induction H as [|d ds Hd H IH]; intros it sb; [reflexivity|]. cbn [runP run].
    assert (E : appendOneP J d it = appendOne J d it) by (destruct d as [t|s c]; [reflexivity|destruct s; try reflexivity; contradiction]).
    rewrite E. destruct (appendOne J d it) as [[s it']|e]; [|reflexivity]. destruct (emit s sb) as [o [e|]]; [reflexivity|apply IH]. }
  intros J ds args H. split; [unfold formatP, ImplM.format; rewrite (G J emitSB ds H); reflexivity|]. intros sb target. apply (G J _ ds H).
Qed.
Print Assumptions C113_kept.

(** "a%-5nb%3%%d" of C61, "%*%|" with width 4 and -4, "%5%" without arguments *)
Example C113_example :
  let i z := traitsOf J0 (VInt z) RPrimitive in
  (exists ds, compile (fun _ => true) (txt "a%-5nb%3%%d") = Ok ds /\ Forall starless ds /\
    formatP J0 ds [i 1; i 7] = Ok (txt "ab  %7") /\ ImplM.format J0 ds [i 1; i 7] = Err (Printf MissingArg)) /\
  (exists ds, compile (fun _ => true) (txt "%*%|%d") = Ok ds /\ formatP J0 ds [i 4; i 8] = Ok (txt "   %|8") /\ formatP J0 ds [i (-4); i 8] = Ok (txt "%   |8")) /\
  (exists ds, compile (fun _ => true) (txt "%5%") = Ok ds /\ formatP J0 ds [] = Ok (txt "    %")).
Proof.
  split; [eexists; split; [reflexivity|]; split; [repeat constructor; discriminate|split; reflexivity]|].
  split; eexists; (split; [reflexivity|]); [split|]; reflexivity.
Qed.
