(** C77: null parameters. *)
From Verif Require Import Base Digits UtilsM SeqM SeqSpec ContextM CompilerM IntFormM FormatterM TraitsM ImplM ArgsM NullM MiscSpec MiscP FmtP PropsValue.

(** what the exception says *)
Definition null_message (name : list Z) : list Z := txt "Argument '" ++ name ++ txt "' cannot be null".

(** every entry point refuses null where null is not allowed, naming the parameter; nothing else has happened by then: the remaining
    parameters are arbitrary, and the exception carries no outcome *)
Theorem C77_null_is_refused :
  (forall dtf, n_compile dtf None = Refuses (null_message (txt "source"))) /\
  (forall J i, n_format J i None = Refuses (null_message (txt "args"))) /\
  (forall J i sb args, n_formatInto J i sb None args = Refuses (null_message (txt "builder"))) /\
  (forall J i sb b, n_formatInto J i sb (Some b) None = Refuses (null_message (txt "args"))) /\
  (forall J, n_argsOfIterable J None = Refuses (null_message (txt "values"))) /\
  n_wrap None = Refuses (null_message (txt "s")) /\
  (forall a b, n_wrap3 None a b = Refuses (null_message (txt "s"))) /\
  (forall a b, n_forArray3 None a b = Refuses (null_message (txt "ch"))) /\
  n_forArray None = Refuses (null_message (txt "ch")) /\
  (forall n, n_lazy None n = Refuses (null_message (txt "action"))) /\
  (forall r, n_concat None r = Refuses (null_message (txt "left"))) /\
  (forall l, n_concat (Some l) None = Refuses (null_message (txt "right"))) /\
  n_join None = Refuses (null_message (txt "atomicSeqs")) /\
  (forall s, n_map s None = Refuses (null_message (txt "mapper"))).
Proof. repeat split; reflexivity. Qed.
Print Assumptions C77_null_is_refused.

(** parameters that are not null go on to the functions of SeqM, ArgsM and ImplM unchanged *)
Theorem C77_others_are_not_affected :
  (forall dtf f, n_compile dtf (Some f) = of_res (impl_compile dtf f)) /\
  (forall J i l, n_format J i (Some l) = of_res (format J (im_apps i) (iterator l))) /\
  (forall J i sb b l, n_formatInto J i sb (Some b) (Some l) = Gives (formatInto J sb (im_apps i) (iterator l) b)) /\
  (forall J vs, n_argsOfIterable J (Some vs) = of_res (argsOfIterable J (Some vs))) /\
  (forall s, n_wrap (Some s) = Gives (s_wrap s)) /\
  (forall s i, n_wrap2 (Some s) i = of_res (s_wrap2 s i)) /\
  (forall s i j, n_wrap3 (Some s) i j = of_res (s_wrap3 s i j)) /\
  (forall s i n, n_forArray3 (Some s) i n = of_res (s_forArray3 s i n)) /\
  (forall s, n_forArray (Some s) = Gives (s_forArray s)) /\
  (forall f n, n_lazy (Some f) n = of_res (s_lazy f n)) /\
  (forall l r, n_concat (Some l) (Some r) = Gives (s_concat l r)) /\
  (forall s x, n_prepend s (Some x) = Gives (Some (s_prepend s x))) /\
  (forall s x, n_append s (Some x) = Gives (Some (s_append s x))).
Proof.
  repeat split; try reflexivity; intros s x; destruct s as [a| |]; try reflexivity; destruct a; reflexivity.
Qed.
Print Assumptions C77_others_are_not_affected.

Lemma join_loop_ok l : forall n, n_join_loop (map Some l) n = Gives (l, fold_left (fun n a => wrap32 (n + a_len a)) l n).
Proof. induction l as [|a l IH]; intros n; [reflexivity|]. cbn [map n_join_loop checkNotNull then_ fold_left]. rewrite IH. reflexivity. Qed.
Lemma join_loop_null l : In None l -> forall n, n_join_loop l n = Refuses (null_message (txt "seqElement")).
Proof.
  induction l as [|x l IH]; intros H n; [destruct H|]. destruct x as [a|]; [|reflexivity]. destruct H as [E|H]; [discriminate E|]. cbn [n_join_loop checkNotNull then_]. rewrite (IH H). reflexivity.
Qed.

(** Seq.join: a null element of a list of at least two is refused, that of a list of one is returned *)
Theorem C77_join_exact : forall l,
  ((forall x, In x l -> x <> None) -> exists ps, l = map Some ps /\ n_join (Some l) = Gives (Some (s_join ps))) /\
  (In None l -> zlen l = 1 -> n_join (Some l) = Gives None) /\
  (In None l -> 2 <= zlen l -> n_join (Some l) = Refuses (null_message (txt "seqElement"))).
Proof.
  intros l. split; [|split].
  - intros H. assert (A : exists ps, l = map Some ps).
    { induction l as [|x l IH]; [exists []; reflexivity|]. destruct IH as [ps ->]; [intros y Hy; apply H; right; exact Hy|].
      destruct x as [a|]; [exists (a :: ps); reflexivity|]. exfalso. exact (H None (or_introl eq_refl) eq_refl). }
    destruct A as [ps ->]. exists ps. split; [reflexivity|]. destruct ps as [|a [|b ps]]; [reflexivity|reflexivity|].
    unfold n_join. cbn [checkNotNull then_]. change (map Some (a :: b :: ps)) with (Some a :: Some b :: map Some ps) at 1. cbv iota.
    rewrite (join_loop_ok (a :: b :: ps)). reflexivity.
  - intros H L. destruct l as [|x [|y l]]; [discriminate L| |rewrite !zlen_cons in L; pose proof (zlen_nonneg l); lia]. destruct H as [-> |[]]. reflexivity.
  - intros H L. destruct l as [|x [|y l]]; [destruct H|rewrite zlen_cons, zlen_nil in L; lia|]. unfold n_join. cbn [checkNotNull then_]. rewrite (join_loop_null _ H). reflexivity.
Qed.
Print Assumptions C77_join_exact.

(** so a null element is not always refused *)
Theorem C77_join_refuted : exists l, In None l /\ n_join (Some l) = Gives None.
Proof. exists [None]. split; [left; reflexivity|reflexivity]. Qed.
Print Assumptions C77_join_refuted.

(** appending or prepending null: the empty sequence returns null, every other one throws *)
Theorem C77_append_exact : forall s,
  (s = Leaf AEmpty -> n_append s None = Gives None /\ n_prepend s None = Gives None) /\
  (s <> Leaf AEmpty -> n_append s None = Derefs /\ n_prepend s None = Derefs).
Proof.
  intros s. split; [intros ->; split; reflexivity|]. intros H. destruct s as [a| |]; try (split; reflexivity). destruct a; try (split; reflexivity). congruence.
Qed.
Print Assumptions C77_append_exact.

Theorem C77_append_refuted : exists s, n_append s None = Gives None.
Proof. exists (Leaf AEmpty). reflexivity. Qed.
Print Assumptions C77_append_refuted.

(** Seq.wrap(null, start) ends in the virtual machine's exception, not in the library's *)
Theorem C77_wrap_tail_refuted : exists start, n_wrap2 None start = Derefs.
Proof. exists 0. reflexivity. Qed.
Print Assumptions C77_wrap_tail_refuted.

(** a null varargs array is one null argument *)
Theorem C77_null_array : forall J, argsOf J None = argsOf J (Some [JNull]) /\ iterator (argsOf J None) = [nullTraits].
Proof. split; reflexivity. Qed.
Print Assumptions C77_null_array.

(** a negative expected size is refused; any other makes no difference *)
Theorem C77_expected_size : forall n, createWithExpectedSize n = if n <? 0 then Fails IllegalArg else Gives [].
Proof.
  intros n. unfold createWithExpectedSize, checkArgument. destruct (Z.leb_spec 0 n), (Z.ltb_spec n 0); try lia; reflexivity.
Qed.
Print Assumptions C77_expected_size.

Example C77_example :
  null_message (txt "args") = txt "Argument 'args' cannot be null" /\
  n_join (Some [Some (s_wrap (txt "ab")); None]) = Refuses (null_message (txt "seqElement")) /\
  (exists i, n_compile (fun _ => true) (Some (txt "%s")) = Gives i /\ n_format J1 i (Some (argsOf J1 None)) = Gives (txt "null") /\
     n_formatInto J1 i true (Some (txt "x")) None = Refuses (null_message (txt "args"))).
Proof. split; [reflexivity|]. split; [reflexivity|]. eexists. split; [reflexivity|]. split; reflexivity. Qed.
