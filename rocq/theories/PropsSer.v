(** C84: FormatContext and serialization. *)
From Verif Require Import Base Digits UtilsM ContextM CompilerM GrammarSpec CompilerP2 CtxM CtxSpec SerM.

(** the object read has the fields of the context written *)
Definition copy_of (c : ctx) (r : read) : Prop :=
  r_flags r = Some (c_flags c) /\ r_width r = c_width c /\ r_prec r = c_prec c /\ r_dtf r = c_dtf c.
Definition survives (c : ctx) : Prop := exists st r, writeCtx c = Ok st /\ readCtx st = Ok r /\ copy_of c r.

(** a context comes back exactly if it has no date formatter; otherwise it cannot be written *)
Theorem C84_serialization_exact : forall fl w p,
  survives (mkCtx fl w p None) /\ forall d, writeCtx (mkCtx fl w p (Some d)) = Err NotSerializable.
Proof.
  intros fl w p. split; [|reflexivity]. eexists _, _. split; [reflexivity|]. split; [reflexivity|].
  unfold copy_of. cbn [r_flags r_width r_prec r_dtf c_flags c_width c_prec c_dtf]. repeat split. f_equal.
  destruct fl as [[] [] [] [] []]; reflexivity.
Qed.
Print Assumptions C84_serialization_exact.

(** the contexts of a format string: those of directives with a date pattern cannot be written, all others come back *)
Theorem C84_compiled_contexts_partial : forall dtf src ds s c, GrammarSpec.format dtf src ds -> In (Default s c) ds ->
  (survives c <-> c_dtf c = None) /\ (c_dtf c <> None -> writeCtx c = Err NotSerializable /\ (s = St \/ s = ST)).
Proof.
  intros dtf src ds s c F Hi. destruct c as [fl w p d]. cbn [c_dtf]. destruct (C84_serialization_exact fl w p) as [H1 H2]. split.
  - destruct d as [d|]; [|tauto]. split; [|discriminate]. intros (st & r & E & _). rewrite H2 in E. discriminate.
  - intros Hd. destruct d as [d|]; [|congruence]. split; [apply H2|].
    induction F as [|t r ds _ _ _ F IH|r ds F IH|F0 fl0 W w0 P p0 c0 s0 T d0 r ds _ _ _ _ HT _ F IH].
    + contradiction.
    + destruct Hi as [Hi|Hi]; [discriminate|auto].
    + destruct Hi as [Hi|Hi]; [discriminate|auto].
    + destruct Hi as [Hi|Hi]; [|auto]. injection Hi as -> -> -> -> ->. inversion HT; subst; auto.
Qed.
Print Assumptions C84_compiled_contexts_partial.

(** "%t{HH:mm}" has a Serializable context that cannot be serialized *)
Theorem C84_date_pattern_refuted : exists src c,
  (forall dtf, dtf (txt "HH:mm") = true -> compile dtf src = Ok [Default St c]) /\ writeCtx c = Err NotSerializable.
Proof.
  exists (txt "%t{HH:mm}"), (mkCtx noFlags UNSET UNSET (Some (txt "HH:mm"))). split; [|reflexivity].
  intros dtf H. apply compile_iff.
  change (txt "%t{HH:mm}") with (pct :: [] ++ [] ++ [] ++ ch "t" :: ([123] ++ txt "HH:mm" ++ [125]) ++ []).
  apply (fmt_dir _ [] _ [] _ [] _ (ch "t") St _ _ _ _).
  - split; [constructor|]. split; [intros ? []|reflexivity].
  - constructor.
  - constructor.
  - exact (conv_self St).
  - apply D_pat; auto; [discriminate|]. repeat (apply pat_char; [discriminate|discriminate|]). constructor.
  - discriminate.
  - constructor.
Qed.
Print Assumptions C84_date_pattern_refuted.

(** reading checks nothing: any int can come back as a width or precision, whereas [create] and the setters accept only
    those allowed (C15, C68), and the set of flags may be null *)
Theorem C84_read_checks_nothing_refuted : exists st r w,
  readCtx st = Ok r /\ r_width r = w /\ allowed w = false /\ forall fl p d, ctx_create fl w p d = Err (Printf WidthRange).
Proof. exists [IInt 0; IInt 100000; INull; ISet []]. eexists _, 100000. repeat split. Qed.
Print Assumptions C84_read_checks_nothing_refuted.

Theorem C84_what_can_be_read : forall fs w p,
  (exists st, readCtx st = Ok (mkRead None w p None)) /\
  (exists st r, readCtx st = Ok (mkRead (Some r) w p None) /\ forall f, hasF f r = true <-> In f fs) /\
  forall st r, readCtx st = Ok r -> r_dtf r = None.
Proof.
  intros fs w p. repeat apply conj.
  - exists [IInt p; IInt w; INull; INull]. reflexivity.
  - exists [IInt p; IInt w; INull; ISet fs], (setOf fs). split; [reflexivity|]. intros f. unfold setOf.
    assert (G : forall l s, hasF f (fold_left (fun s f => addF f s) l s) = true <-> hasF f s = true \/ In f l).
    { induction l as [|g l IH]; intros s; cbn [fold_left In]; [tauto|]. rewrite IH.
      assert (A : hasF f (addF g s) = true <-> g = f \/ hasF f s = true).
      { destruct f, g, s as [[] [] [] [] []]; cbn; intuition congruence. }
      rewrite A. tauto. }
    rewrite G. destruct f; cbn; intuition discriminate.
  - intros st r E. unfold readCtx in E.
    destruct st as [|[p0| |] [|[w0| |] [|[ | |] [|[ | |l] [|]]]]]; try discriminate; injection E as <-; reflexivity.
Qed.
Print Assumptions C84_what_can_be_read.

Example C84_example : exists st r, writeCtx (mkCtx (mkFlags true false false false true) 5 UNSET None) = Ok st /\
  st = [IInt (-1); IInt 5; INull; ISet [LEFT_JUSTIFY; ZERO_PAD]] /\ readCtx st = Ok r /\ r_width r = 5.
Proof. eexists _, _. repeat split. Qed.
