(** C68: a FormatContext never changes; C69: contexts made from a flag string, and their texts. *)
From Verif Require Import Base Digits UtilsM ContextM CompilerM GrammarSpec CompilerP CompilerP2 PatternP DirSpec CtxM CtxSpec CtxP.

(** ** C68 *)

(** Whatever a client does with contexts, with the flag sets it handed in and with those it got from getFlags, everything
    behaves like plain values. *)
Theorem C68_value_semantics : forall l,
  let k := runOps l startClient in
  map (at_ref (cl_heap k)) (cl_sets k) = fst (v_run l) /\ map (view (cl_heap k)) (cl_ctxs k) = snd (v_run l).
Proof.
  intros l k. destruct (run_ok l startClient start_sound) as (_ & E). fold k in E. change (contents startClient) with (@nil flags, @nil ctx) in E.
  unfold v_run. rewrite <- E. split; reflexivity.
Qed.
Print Assumptions C68_value_semantics.

(** so an existing context stays what it is *)
Theorem C68_contexts_never_change : forall l1 l2 n c, nth_error (cl_ctxs (runOps l1 startClient)) n = Some c ->
  nth_error (cl_ctxs (runOps (l1 ++ l2) startClient)) n = Some c /\
  view (cl_heap (runOps (l1 ++ l2) startClient)) c = view (cl_heap (runOps l1 startClient)) c.
Proof. exact never_changes. Qed.
Print Assumptions C68_contexts_never_change.

(** the setters of ContextM.v, used by the formatter, are those of the objects *)
Theorem C68_setters : forall h c w f, (x_flags c < List.length h)%nat ->
  (forall h' c', j_setWidth h c w = Ok (h', c') -> setWidth (view h c) w = Ok (view h' c')) /\
  (forall h' c', j_setPrecision h c w = Ok (h', c') -> setPrecision (view h c) w = Ok (view h' c')) /\
  (forall e, j_setWidth h c w = Err e <-> setWidth (view h c) w = Err e) /\
  (forall e, j_setPrecision h c w = Err e <-> setPrecision (view h c) w = Err e) /\
  view (fst (j_addFlag h c (Some f))) (snd (j_addFlag h c (Some f))) = addFlag (view h c) f /\
  j_hasFlag h c (Some f) = hasFlag (view h c) f.
Proof.
  intros h c w f Hb. unfold j_setWidth, j_setPrecision, setWidth, setPrecision. rewrite !checkValue_allowed.
  assert (V : view (h ++ [at_ref h (x_flags c)]) (mkJctx (List.length h) w (x_prec c) (x_dtf c)) = mkCtx (at_ref h (x_flags c)) w (x_prec c) (x_dtf c))
    by (unfold view; cbn [x_flags x_width x_prec x_dtf]; rewrite at_new; reflexivity).
  assert (V' : view (h ++ [at_ref h (x_flags c)]) (mkJctx (List.length h) (x_width c) w (x_dtf c)) = mkCtx (at_ref h (x_flags c)) (x_width c) w (x_dtf c))
    by (unfold view; cbn [x_flags x_width x_prec x_dtf]; rewrite at_new; reflexivity).
  repeat apply conj.
  - intros h' c' E. destruct (allowed w); cbn in *; [|discriminate E]. injection E as <- <-. rewrite V. reflexivity.
  - intros h' c' E. destruct (allowed w); cbn in *; [|discriminate E]. injection E as <- <-. rewrite V'. reflexivity.
  - intros e. destruct (allowed w); cbn; split; intros E; try discriminate E; injection E as <-; reflexivity.
  - intros e. destruct (allowed w); cbn; split; intros E; try discriminate E; injection E as <-; reflexivity.
  - cbn [j_addFlag]. destruct (hasF f (at_ref h (x_flags c))) eqn:Hf; cbn [fst snd].
    + unfold addFlag, view. cbn [c_flags c_width c_prec c_dtf]. rewrite addF_has by exact Hf. reflexivity.
    + unfold copyOf, newSet, view, addFlag. cbn [fst snd x_flags x_width x_prec x_dtf c_flags c_width c_prec c_dtf].
      rewrite at_put by (rewrite app_length; cbn; lia). rewrite at_new. reflexivity.
  - reflexivity.
Qed.
Print Assumptions C68_setters.

(** a set is changed after a context was made of it, and so is the one getFlags gave *)
Example C68_example :
  let zero := mkFlags false false false false true in
  let k := runOps [NewSet; Change 0 zero; Create 0 5 UNSET None; Change 0 noFlags; AddFlag 0 (Some LEFT_JUSTIFY); GetFlags 0; Change 1 noFlags] startClient in
  map (view (cl_heap k)) (cl_ctxs k) = [mkCtx zero 5 UNSET None; mkCtx (mkFlags true false false false true) 5 UNSET None] /\
  map (at_ref (cl_heap k)) (cl_sets k) = [noFlags; noFlags].
Proof. split; reflexivity. Qed.

(** ** C69 *)

(** create(String, int, int): the context has the flags whose characters occur, if all characters are flags and both numbers
    are allowed; a null string counts as an empty one *)
Theorem C69_flags_of_text : forall t w p, incl t flag_chars -> allowed w = true -> allowed p = true ->
  exists c, createText (Some t) w p = Ok c /\ (forall f, hasFlag c f = true <-> In (flag_letter f) t) /\
    c_width c = w /\ c_prec c = p /\ c_dtf c = None.
Proof.
  intros t w p Ht Hw Hp. unfold createText. destruct (addChars_ok t noFlags Ht) as (s & -> & Hs). cbn [bind]. rewrite ctx_create_ok, Hw, Hp.
  eexists. split; [reflexivity|]. cbn [c_width c_prec c_dtf]. repeat split; unfold hasFlag; cbn [c_flags].
  - rewrite Hs. intros H. assert (N : hasF f noFlags = false) by (destruct f; reflexivity). rewrite N, Bool.orb_false_r in H.
    apply existsb_exists in H as (x & Hx & E). apply Z.eqb_eq in E. subst x. exact Hx.
  - intros H. rewrite Hs. apply Bool.orb_true_iff. left. apply existsb_exists. eexists. split; [exact H|]. apply Z.eqb_refl.
Qed.
Print Assumptions C69_flags_of_text.

(** the errors, in the order they are looked for *)
Theorem C69_rejected_text : forall t w p,
  (~ incl t flag_chars -> createText (Some t) w p = Err NullPtr) /\
  (incl t flag_chars -> allowed w = false -> createText (Some t) w p = Err (Printf WidthRange)) /\
  (incl t flag_chars -> allowed w = true -> allowed p = false -> createText (Some t) w p = Err (Printf PrecisionRange)) /\
  createText None w p = createText (Some []) w p.
Proof.
  intros t w p. unfold createText. repeat apply conj.
  - intros H. rewrite (addChars_bad t _ H). reflexivity.
  - intros H Hw. destruct (addChars_ok t noFlags H) as (s & -> & _). cbn [bind]. rewrite ctx_create_ok, Hw. reflexivity.
  - intros H Hw Hp. destruct (addChars_ok t noFlags H) as (s & -> & _). cbn [bind]. rewrite ctx_create_ok, Hw, Hp. reflexivity.
  - reflexivity.
Qed.
Print Assumptions C69_rejected_text.

(** A directive compiles to the context made from its flag characters. (The converse fails: the factory accepts a repeated flag.) *)
Theorem C69_same_as_compiled : forall dtf F fl W w P p c s, flags_text F fl -> width_text W w -> prec_text P p -> conv_char c s ->
  s <> Spct -> exists x, createText (Some F) w p = Ok x /\ compile dtf (pct :: F ++ W ++ P ++ [c]) = Ok [Default s x].
Proof.
  intros dtf F fl W w P p c s HF HW HP Hc Hs.
  assert (Aw : allowed w = true).
  { destruct HW as [| |d ds Hd Hf Hv]; [reflexivity|reflexivity|]. unfold allowed.
    assert (0 <= dec_value (d :: ds)) by (apply dec_value_nonneg; exact Hf).
    rewrite (proj2 (Z.leb_le _ _) H), (proj2 (Z.leb_le _ _) Hv). apply Bool.orb_true_r. }
  assert (Ap : allowed p = true).
  { destruct HP as [| |ds Hf Hv]; [reflexivity|reflexivity|]. unfold allowed.
    assert (0 <= dec_value ds) by (apply dec_value_nonneg; exact Hf).
    rewrite (proj2 (Z.leb_le _ _) H), (proj2 (Z.leb_le _ _) Hv). apply Bool.orb_true_r. }
  exists (mkCtx fl w p None). split.
  - unfold createText. pose proof HF as (_ & Hi & Hfl). destruct (addChars_ok F noFlags Hi) as (s' & -> & Hs'). cbn [bind].
    rewrite ctx_create_ok, Aw, Ap. repeat f_equal. apply flags_ext. intros f. rewrite Hs', Hfl.
    destruct f; cbn [hasF flag_letter noFlags f_left f_alt f_plus f_space f_zero]; apply Bool.orb_false_r.
  - apply compile_iff.
    assert (G : GrammarSpec.format dtf (pct :: F ++ W ++ P ++ c :: [] ++ []) (Default s (mkCtx fl w p None) :: [])).
    { apply fmt_dir; try assumption; [| |constructor].
      - destruct (isDateTimeSpec s) eqn:E.
        + apply D_none; [destruct s; try discriminate E; auto|discriminate].
        + apply D_other; intros ->; discriminate E.
      - intros _ ->. inversion Hc as [E|s0 E E0]; subst s0. destruct s; try discriminate. contradiction. }
    exact G.
Qed.
Print Assumptions C69_same_as_compiled.

(** toString shows all there is but the date formatter *)
Theorem C69_text_is_injective : forall c c', ctxText c = ctxText c' ->
  c_flags c = c_flags c' /\ c_width c = c_width c' /\ c_prec c = c_prec c'.
Proof. exact ctxText_inj. Qed.
Print Assumptions C69_text_is_injective.

(** what it shows: the names of the flags in the order of their declaration, width and precision as stored *)
Theorem C69_text : forall c, exists names, ctxText c = txt "{flags=[" ++ names ++ txt "], width=" ++ dec_text (c_width c) ++ txt ", precision=" ++ dec_text (c_prec c) ++ txt "}" /\
  names = skipn 2 (concat (map (fun p => if (snd p : bool) then txt ", " ++ fst p else [])
    [(txt "LEFT_JUSTIFY", f_left (c_flags c)); (txt "ALTERNATE", f_alt (c_flags c)); (txt "PLUS", f_plus (c_flags c));
     (txt "LEADING_SPACE", f_space (c_flags c)); (txt "ZERO_PAD", f_zero (c_flags c))])).
Proof.
  intros [[[] [] [] [] []] w p d]; eexists; (split; [|reflexivity]); reflexivity.
Qed.
Print Assumptions C69_text.

Example C69_example :
  createText (Some (txt "0-0")) 5 UNSET = Ok (mkCtx (mkFlags true false false false true) 5 UNSET None) /\
  createText (Some (txt "-x")) 70000 UNSET = Err NullPtr /\ createText None 70000 UNSET = Err (Printf WidthRange) /\
  ctxText (mkCtx (mkFlags true false false false true) 5 UNSET None) = txt "{flags=[LEFT_JUSTIFY, ZERO_PAD], width=5, precision=-1}" /\
  ctxText (mkCtx noFlags UNSET PRECEDING None) = txt "{flags=[], width=-1, precision=-2147483648}".
Proof. repeat split. Qed.
