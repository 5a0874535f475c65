(** Property C111: repairs of the sequence API, of joining and of the context factory at their edges (findings 14, 20, 33 and 37). *)
From Verif Require PropsText PropsNull.
From Verif Require Import Base Digits UtilsM SeqM SeqSpec SeqP SeqSubP ContextM CompilerM GrammarSpec CtxM CtxP TextM TextP NullM RepairM RepairP EdgeM.
Import PropsText PropsNull.

Lemma a_subE_same a i j : a <> AEmpty -> a_subE a i j = a_sub a i j.
Proof. destruct a; intros H; try reflexivity. contradiction. Qed.

(** the loop never asks the empty sequence for a slice *)
Lemma sub_loopE_same atoms : forall i j buf, 0 <= i -> sub_loopE atoms i j buf = sub_loop atoms i j buf.
Proof.
  induction atoms as [|a atoms IH]; intros i j buf Hi; [reflexivity|]. cbn [sub_loopE sub_loop]. cbv zeta. destruct (Z.ltb_spec i (a_len a)) as [H|H].
  - assert (N : a <> AEmpty) by (intros ->; cbn [a_len] in H; lia). rewrite !a_subE_same by exact N. destruct (j <=? a_len a); [reflexivity|].
    destruct (a_sub a i (a_len a)) as [x|e]; [|reflexivity]. cbn [bind]. apply IH. lia.
  - apply IH. lia.
Qed.

Lemma s_subE_good s t i j : den s t -> 0 <= i -> i <= j -> j <= zlen t -> s_subE s i j = s_sub' s i j.
Proof.
  intros D Hi Hij Hj. destruct s as [a|x y n|l n].
  - cbn [s_subE s_sub']. destruct a; try reflexivity. inversion D as [a0 t0 Ha| |]; subst. destruct Ha as [_ Ha]. subst t. cbn in Hj. assert (i = 0) by lia. assert (j = 0) by lia. subst. reflexivity.
  - unfold s_subE, s_sub'. destruct (checkPositionIndexes _ _ _); [|reflexivity]. cbn [bind]. destruct (i =? j); [reflexivity|]. destruct (_ && _); [reflexivity|].
    destruct (s_iter _); [|reflexivity]. cbn [bind]. rewrite sub_loopE_same by exact Hi. reflexivity.
  - unfold s_subE, s_sub'. destruct (checkPositionIndexes _ _ _); [|reflexivity]. cbn [bind]. destruct (i =? j); [reflexivity|]. destruct (_ && _); [reflexivity|].
    destruct (s_iter _); [|reflexivity]. cbn [bind]. rewrite sub_loopE_same by exact Hi. reflexivity.
Qed.

(** subSequence of every sequence: the slice if there is one, otherwise an IndexOutOfBoundsException *)
Theorem C111_subSequence : forall s t i j, den s t ->
  (0 <= i /\ i <= j /\ j <= zlen t -> exists u, s_subE s i j = Ok u /\ den u (slice t i j)) /\
  (~ (0 <= i /\ i <= j /\ j <= zlen t) -> s_subE s i j = Err IndexOOB).
Proof.
  intros s t i j D. split.
  - intros (Hi & Hij & Hj). rewrite (s_subE_good s t) by assumption. apply s_sub'_den; assumption.
  - intros Hb. pose proof (den_len _ _ D) as Hl. destruct s as [a|x y n|l n].
    + inversion D as [a0 t0 Ha| |]; subst. cbn [s_subE]. destruct a; try (rewrite a_subE_same by discriminate; rewrite (a_sub_bad _ _ _ _ Ha Hb); reflexivity).
      destruct Ha as [_ Ha]. subst t. cbn [a_subE]. rewrite checkIdxs_bad by exact Hb. reflexivity.
    + unfold s_subE. rewrite checkIdxs_bad by lia. reflexivity.
    + unfold s_subE. rewrite checkIdxs_bad by lia. reflexivity.
Qed.
Print Assumptions C111_subSequence.

(** nothing changes for texts that are not empty, except for the length repaired by C105 *)
Theorem C111_subSequence_same : forall s t i j, den s t -> t <> [] -> s_subE s i j = s_sub' s i j.
Proof.
  intros s t i j D N. destruct (Z_le_dec 0 i) as [Hi|Hi]; [destruct (Z_le_dec i j) as [Hij|Hij]; [destruct (Z_le_dec j (zlen t)) as [Hj|Hj]|]|];
    [exact (s_subE_good s t i j D Hi Hij Hj)|..];
    (rewrite (proj2 (C111_subSequence s t i j D)) by tauto; rewrite (s_sub'_bad s t i j D) by tauto; symmetry; destruct s as [a|x y n|l n];
     [inversion D as [a0 t0 Ha| |]; subst; cbn [s_sub]; destruct a; try (rewrite (a_sub_bad _ _ _ _ Ha) by tauto; reflexivity); destruct Ha as [_ Ha]; contradiction|..];
     pose proof (den_len _ _ D) as Hl; unfold s_sub; rewrite checkIdxs_bad by lia; reflexivity).
Qed.
Print Assumptions C111_subSequence_same.

(** joining ends with the texts of the elements, whatever their toString does *)
Theorem C111_join : forall sb sep l ts, Forall2 PropsText.shown l ts ->
  joinE sb sep (JoinIter l) = sb ++ PropsText.separated sep ts /\ joinE sb sep (JoinArray l) = sb ++ PropsText.separated sep ts.
Proof.
  intros sb sep l ts H. assert (A : joinE sb sep (JoinArray l) = sb ++ PropsText.separated sep ts).
  { pose proof (C54_join_array sb sep l ts H) as E. cbn [join] in E. injection E as E. exact E. }
  split; [|exact A]. rewrite <- A. destruct l as [|o l]; [reflexivity|]. cbn [joinE joinIteratorE map joinArray]. rewrite joinIterator_loop_ok. reflexivity.
Qed.
Print Assumptions C111_join.

(** where joining did not fail, nothing changes *)
Theorem C111_join_same : forall sb sep a t, join sb sep a = Ok t -> joinE sb sep a = t.
Proof.
  intros sb sep a t H. destruct a as [|l|l|o]; cbn [join joinE] in *; try congruence.
  - destruct l as [|o l]; cbn [joinIterator joinIteratorE] in *; [congruence|]. destruct o; cbn [appendObject bind lenientToString] in *; congruence.
  - destruct o; cbn [appendObject lenientToString] in *; congruence.
Qed.
Print Assumptions C111_join_same.

Lemma addCharsE_ok t : forall s, incl t flag_chars -> addCharsE s t = addChars s t.
Proof.
  induction t as [|c t IH]; intros s H; [reflexivity|]. destruct (addChars_ok (c :: t) s H) as (s' & E & _). cbn [addCharsE addChars] in *.
  destruct (flag_of_char c); [|discriminate E]. apply IH. intros x Hx. apply H. right. exact Hx.
Qed.
Lemma addCharsE_bad t : forall s, ~ incl t flag_chars -> addCharsE s t = Err IllegalArg.
Proof.
  intros s H. pose proof (addChars_bad t s H) as E. clear H. revert s E. induction t as [|c t IH]; intros s E; [discriminate E|]. cbn [addCharsE addChars] in *.
  destruct (flag_of_char c); [apply IH, E|reflexivity].
Qed.

(** a context from a flag string: an IllegalArgumentException if a character is no flag, as before otherwise *)
Theorem C111_create : forall t w p,
  (incl t flag_chars -> createTextE (Some t) w p = createText (Some t) w p) /\
  (~ incl t flag_chars -> createTextE (Some t) w p = Err IllegalArg) /\ createTextE None w p = createText None w p.
Proof.
  intros t w p. unfold createTextE, createText. split; [intros H; rewrite addCharsE_ok by exact H; reflexivity|]. split; [intros H; rewrite addCharsE_bad by exact H; reflexivity|].
  reflexivity.
Qed.
Print Assumptions C111_create.

(** every null is refused by name, and no method returns null; without nulls the results are the same *)
Theorem C111_null : 
  (forall i, n_wrap2E None i = Refuses (null_message (txt "s"))) /\
  (forall s, n_prependE s None = Refuses (null_message (txt "prefix")) /\ n_appendE s None = Refuses (null_message (txt "suffix"))) /\
  n_joinE None = Refuses (null_message (txt "atomicSeqs")) /\
  (forall l, In None l -> n_joinE (Some l) = Refuses (null_message (txt "seqElement"))) /\
  (forall s i, n_wrap2E (Some s) i = n_wrap2 (Some s) i) /\
  (forall s x, n_prependE s (Some x) = Gives (s_prepend s x) /\ n_appendE s (Some x) = Gives (s_append s x)) /\
  (forall l, n_joinE (Some (map Some l)) = Gives (s_join l)).
Proof.
  split; [reflexivity|]. split; [split; reflexivity|]. split; [reflexivity|]. split; [|split; [reflexivity|split; [split; reflexivity|]]].
  - intros l H. destruct l as [|x [|y l]]; [destruct H|destruct H as [-> |[]]; reflexivity|]. unfold n_joinE. cbn [checkNotNull then_]. rewrite (join_loop_null _ H). reflexivity.
  - intros l. destruct l as [|a [|b l]]; [reflexivity|reflexivity|]. unfold n_joinE. cbn [checkNotNull then_]. change (map Some (a :: b :: l)) with (Some a :: Some b :: map Some l) at 1. cbv iota.
    rewrite (join_loop_ok (a :: b :: l)). reflexivity.
Qed.
Print Assumptions C111_null.

Example C111_example :
  s_sub (Leaf AEmpty) 0 1 = Err IllegalArg /\ s_subE (Leaf AEmpty) 0 1 = Err IndexOOB /\ s_subE (Leaf AEmpty) 0 0 = Ok (Leaf AEmpty) /\
  join [] (txt ",") (JoinIter [EThrows IllegalState (txt "<A threw>"); ENull]) = Err IllegalState /\
  joinE [] (txt ",") (JoinIter [EThrows IllegalState (txt "<A threw>"); ENull]) = txt "<A threw>,null" /\
  createText (Some (txt "-x")) UNSET UNSET = Err NullPtr /\ createTextE (Some (txt "-x")) UNSET UNSET = Err IllegalArg /\ createTextE (Some (txt "-0")) 5 UNSET = createText (Some (txt "-0")) 5 UNSET /\
  n_join (Some [None]) = Gives None /\ n_joinE (Some [None]) = Refuses (txt "Argument 'seqElement' cannot be null") /\
  n_append (Leaf AEmpty) None = Gives None /\ n_appendE (Leaf AEmpty) None = Refuses (txt "Argument 'suffix' cannot be null").
Proof. repeat apply conj; vm_compute; reflexivity. Qed.
Example C111_slice_example : exists s u, s_subE s 1 3 = Ok u /\ s = s_concat (Leaf (s_wrap (txt "ab"))) (Leaf (s_wrap (txt "cd"))) /\ s_toString u = Ok (txt "bc") /\ s_len u = 2.
Proof. eexists. eexists. split; [|split; [reflexivity|]]; [reflexivity|split; reflexivity]. Qed.
