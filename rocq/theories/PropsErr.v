(** Properties C59 and C60: which error a malformed format string gets, and the stack the compiler needs. *)
From Verif Require Import Base Digits UtilsM ContextM CompilerM GrammarSpec CompilerP CompilerP2 ErrSpec ErrP DepthM DepthP.

(** C59: a format string is refused with the exception [e] exactly when it is well-formed up to a '%' after which the
    text is wrong in the way ErrSpec.v names; kind and index of the exception follow from the text. *)
Theorem C59_every_error_explained :
  forall dtf_valid src e, compile dtf_valid src = Err e <-> malformed dtf_valid src e.
Proof. exact compile_malformed. Qed.
Print Assumptions C59_every_error_explained.

Lemma firstn_zlen (a b : list Z) n : n = zlen a -> firstn (Z.to_nat n) (a ++ b) = a.
Proof. intros ->. unfold zlen. rewrite Nat2Z.id, firstn_app, Nat.sub_diag, firstn_all. cbn [firstn]. apply app_nil_r. Qed.

(** C59: after a repeated flag, an unknown conversion character or an empty date pattern, the rest of the source does not
    matter: nothing that starts with the text up to and including the reported character is accepted. *)
Theorem C59_rest_of_the_source_is_irrelevant :
  forall dtf_valid src k i, compile dtf_valid src = Err (Syntax k i) ->
    k = DuplicateFlag \/ k = BadSpecifier \/ k = EmptyDate ->
    forall r, compile dtf_valid (firstn (Z.to_nat (i + 1)) src ++ r) = Err (Syntax k i).
Proof.
  intros dtf src k i H Hk r. apply compile_malformed in H as (s & ds & t & x & -> & Hs & Hx & He).
  assert (G : forall a b j, zlen a = j + 1 -> t = a ++ b -> slip dtf (a ++ r) x -> x = Syntax k j ->
    compile dtf (firstn (Z.to_nat (i + 1)) (s ++ pct :: t) ++ r) = Err (Syntax k i)).
  { intros a b j Hj -> Ha Ex. rewrite Ex in He. cbn [shifted] in He. injection He as ->.
    replace (s ++ pct :: a ++ b) with ((s ++ pct :: a) ++ b) by (rewrite <- app_assoc; reflexivity).
    rewrite (firstn_zlen (s ++ pct :: a)); [|rewrite zlen_app, zlen_cons; lia].
    apply compile_malformed. exists s, ds, (a ++ r), x. split; [rewrite <- app_assoc; reflexivity|]. split; [exact Hs|]. split; [exact Ha|].
    rewrite Ex. reflexivity. }
  destruct Hx as [F fl c q HF Hc|F fl n q HF Hh HB|F fl W w n q HF HW HB|h fl w p W P Hh|h fl w p W P c q Hh Hc Hv
      |h fl w p W P c v q Hh Hc Hv Hn|h fl w p W P c v q Hh Hc Hv|h fl w p W P c v d q Hh Hc Hv Hd Hp Hb
      |h fl w p W P c v T d q Hh Hc HT Hw|h fl w p W P c v T d q Hh Hc HT Hw Hp]; cbn [shifted] in He; try discriminate;
    injection He as Ek Ei; subst k; try (destruct Hk as [Hk|[Hk|Hk]]; discriminate).
  - apply (G (F ++ [c]) q (zlen F)); [rewrite zlen_app, zlen_one; reflexivity|rewrite <- app_assoc; reflexivity| |reflexivity].
    rewrite <- app_assoc. apply (slip_flag dtf F fl); assumption.
  - apply (G (h ++ [c]) q (zlen h)); [rewrite zlen_app, zlen_one; reflexivity|rewrite <- app_assoc; reflexivity| |reflexivity].
    rewrite <- app_assoc. apply (slip_conv dtf h fl w p W P); assumption.
  - apply (G (h ++ [c; 123; 125]) q (zlen h + 2)); [rewrite zlen_app, !zlen_cons; change (zlen (@nil Z)) with 0; lia|rewrite <- app_assoc; reflexivity| |reflexivity].
    rewrite <- app_assoc. apply (slip_empty dtf h fl w p W P c v); assumption.
Qed.
Print Assumptions C59_rest_of_the_source_is_irrelevant.

(** C59: "unexpected end" is reported exactly at the end of the source. *)
Theorem C59_unexpected_end_is_the_end :
  forall dtf_valid src i, compile dtf_valid src = Err (Syntax UnexpectedEnd i) -> i = zlen src.
Proof.
  intros dtf src i H. apply compile_malformed in H as (s & ds & t & x & -> & Hs & Hx & He).
  destruct Hx; cbn [shifted] in He; try discriminate. injection He as ->. rewrite zlen_app, zlen_cons. lia.
Qed.
Print Assumptions C59_unexpected_end_is_the_end.

Lemma format_app dtf s ds t es : format dtf s ds -> format dtf (pct :: t) es -> format dtf (s ++ pct :: t) (ds ++ es).
Proof.
  intros H Ht. induction H as [|lit r ds Hl Hn Hr H IH|r ds H IH|F fl W w P p c s T d r ds HF HW HP Hc HT Hne H IH]; cbn [app].
  - exact Ht.
  - rewrite <- app_assoc. apply fmt_lit; auto. right. destruct Hr as [->|Hr]; [reflexivity|]. destruct r; [discriminate|exact Hr].
  - apply fmt_pct. exact IH.
  - rewrite <- !app_assoc. cbn [app]. rewrite <- app_assoc. apply fmt_dir; auto. apply date_text_grow; [exact HT|discriminate].
Qed.

(** C59: up to a repeated flag, an unknown conversion character or the unexpected end nothing is wrong: with "d" instead
    of what follows the source is accepted, unless its width or precision is out of range. *)
Theorem C59_before_the_index_nothing_is_wrong :
  forall dtf_valid src k i, compile dtf_valid src = Err (Syntax k i) ->
    k = DuplicateFlag \/ k = BadSpecifier \/ k = UnexpectedEnd ->
    (exists ds, compile dtf_valid (firstn (Z.to_nat i) src ++ txt "d") = Ok ds) \/
    compile dtf_valid (firstn (Z.to_nat i) src ++ txt "d") = Err (Printf WidthRange) \/
    compile dtf_valid (firstn (Z.to_nat i) src ++ txt "d") = Err (Printf PrecisionRange).
Proof.
  intros dtf src k i H Hk. apply compile_malformed in H as (s & ds & t & x & -> & Hs & Hx & He).
  assert (G : forall h fl w p W P b, head h fl w p W P -> t = h ++ b -> x = Syntax k (zlen h) ->
    (exists ds, compile dtf (firstn (Z.to_nat i) (s ++ pct :: t) ++ txt "d") = Ok ds) \/
    compile dtf (firstn (Z.to_nat i) (s ++ pct :: t) ++ txt "d") = Err (Printf WidthRange) \/
    compile dtf (firstn (Z.to_nat i) (s ++ pct :: t) ++ txt "d") = Err (Printf PrecisionRange)).
  { intros h fl w p W P b Hh -> ->. cbn [shifted] in He. injection He as ->.
    replace (s ++ pct :: h ++ b) with ((s ++ pct :: h) ++ b) by (rewrite <- app_assoc; reflexivity).
    rewrite (firstn_zlen (s ++ pct :: h)) by (rewrite zlen_app, zlen_cons; lia). rewrite <- app_assoc. cbn [app].
    assert (Hd : conv_char (ch "d") Sd) by exact (conv_self Sd).
    assert (HT : date_text dtf Sd [] [] None) by (apply D_other; discriminate).
    destruct (Z_le_gt_dec w 65536) as [Hw|Hw].
    - destruct (Z_le_gt_dec p 65536) as [Hp|Hp].
      + left. exists (ds ++ [Default Sd (mkCtx fl w p None)]). apply compile_iff. apply format_app; [exact Hs|].
        destruct Hh as (F & HF & HW & HP & ->). rewrite <- !app_assoc.
        apply (fmt_dir dtf F fl W w P p (ch "d") Sd [] None [] []); auto; [| |discriminate|constructor].
        * apply width_text_raw. apply width_form_raw in HW as (? & ?). auto.
        * apply prec_text_raw. apply prec_form_raw in HP. auto.
      + right. right. apply compile_malformed. exists s, ds, (h ++ ch "d" :: [] ++ []), (Printf PrecisionRange).
        repeat split; auto. apply (slip_fine dtf h fl w p W P (ch "d") Sd [] None []); auto; lia.
    - right. left. apply compile_malformed. exists s, ds, (h ++ ch "d" :: [] ++ []), (Printf WidthRange).
      repeat split; auto. apply (slip_wide dtf h fl w p W P (ch "d") Sd [] None []); auto; lia. }
  destruct Hx as [F fl c q HF Hc|F fl n q HF Hh HB|F fl W w n q HF HW HB|h fl w p W P Hh|h fl w p W P c q Hh Hc Hv
      |h fl w p W P c v q Hh Hc Hv Hn|h fl w p W P c v q Hh Hc Hv|h fl w p W P c v d q Hh Hc Hv Hd Hp Hb
      |h fl w p W P c v T d q Hh Hc HT Hw|h fl w p W P c v T d q Hh Hc HT Hw Hp]; cbn [shifted] in He; try discriminate;
    injection He as Ek Ei; subst k; try (destruct Hk as [Hk|[Hk|Hk]]; discriminate).
  - apply (G F fl UNSET UNSET [] [] (c :: q)); [|reflexivity|reflexivity].
    exists F. rewrite !app_nil_r. split; [exact HF|]. split; [constructor|]. split; [constructor|reflexivity].
  - apply (G h fl w p W P []); [exact Hh|symmetry; apply app_nil_r|reflexivity].
  - apply (G h fl w p W P (c :: q)); [exact Hh|reflexivity|reflexivity].
Qed.
Print Assumptions C59_before_the_index_nothing_is_wrong.

Example C59_example :
  map (fun s => match compile (fun p => negb (zlen p =? 1)) (txt s) with Ok _ => None | Err e => Some e end)
      ["ab%+-+d%"; "%5-d"; "%*5d"; "%.*5d"; "%99999999999"; "%5.2147483648d"; "%1."; "%0"; "%d%T{a'}"; "%t{}}"; "%t{b}"; "%70000y"; "%70000.70000d"]%string
  = [Some (Syntax DuplicateFlag 5); Some (Syntax BadSpecifier 2); Some (Syntax BadSpecifier 2); Some (Syntax BadSpecifier 3);
     Some (Syntax BadWidth 1); Some (Syntax BadPrecision 3); Some (Syntax UnexpectedEnd 3); Some (Syntax UnexpectedEnd 2);
     Some (Syntax UnclosedDate 4); Some (Syntax EmptyDate 3); Some (Syntax InvalidDate 3); Some (Syntax BadSpecifier 6);
     Some (Printf WidthRange)].
Proof. reflexivity. Qed.

(** C60: no stack is deep enough for every format string: with room for [n] frames, "%%" repeated [n] times overflows it,
    although it is well-formed. *)
Theorem C60_bounded_stack_refuted :
  forall dtf_valid n, exists src ds, compile dtf_valid src = Ok ds /\ compileD dtf_valid src n = Err OutOfFuel.
Proof.
  intros dtf n. exists (concat (repeat (txt "%%") n)), (repeat (Fixed [pct]) n).
  assert (H : compile dtf (concat (repeat (txt "%%") n)) = Ok (repeat (Fixed [pct]) n)).
  { apply compile_iff. induction n; [constructor|]. cbn [repeat concat]. apply (fmt_pct dtf). exact IHn. }
  split; [exact H|]. rewrite (depth_exact _ _ _ n H).
  assert (K : forall m, frames (repeat (Fixed [pct]) m) = (1 + 2 * m)%nat).
  { induction m; [reflexivity|]. cbn [repeat]. rewrite frames_pct, IHm. lia. }
  rewrite K. destruct (Nat.leb_spec (1 + 2 * n) n); [lia|reflexivity].
Qed.
Print Assumptions C60_bounded_stack_refuted.

(** C60: the exact need of a well-formed format string is two frames for each directive and each "%%", one for each
    literal text, and one. *)
Theorem C60_exact_depth :
  forall dtf_valid src ds n, compile dtf_valid src = Ok ds ->
    compileD dtf_valid src n = if (frames ds <=? n)%nat then Ok ds else Err OutOfFuel.
Proof. exact depth_exact. Qed.
Print Assumptions C60_exact_depth.

(** C60: overflow is the only thing a small stack changes, and more frames than characters are always enough. *)
Theorem C60_bounded_stack_partial :
  forall dtf_valid src n,
    (compileD dtf_valid src n = compile dtf_valid src \/ compileD dtf_valid src n = Err OutOfFuel) /\
    ((List.length src < n)%nat -> compileD dtf_valid src n = compile dtf_valid src).
Proof. intros. split; [apply depth_outcome|apply depth_enough]. Qed.
Print Assumptions C60_bounded_stack_partial.

Example C60_example :
  compileD (fun _ => true) (txt "a%d%%b%s") 8 = Err OutOfFuel /\
  compileD (fun _ => true) (txt "a%d%%b%s") 9 = compile (fun _ => true) (txt "a%d%%b%s").
Proof. split; reflexivity. Qed.
