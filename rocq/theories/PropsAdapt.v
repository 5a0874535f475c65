(** C118: sequences of classes that implement only [Seq], handed over in an adapter. *)
From Verif Require Import Base Digits UtilsM SeqM SeqSpec SeqP ContextM CompilerM IntFormM FormatterM FmtSpec FmtP TraitsM ImplM DirSpec IntP PropsInt LoopP
  ValueSpec ValueP PropsValue WholeP UserM UserSpec UserP PropsUser AdaptM.

Lemma adapted_acts S (K : cls S) R : acts_like_text K R -> acts_like_text (adapted K) R.
Proof.
  intros [H1 H2 H3 H4 H5 H6 H7 H8 H9]. split; cbn [adapted u_len u_at u_sub u_up u_sb u_app u_count u_str]; try assumption.
  intros u t H. destruct (u_atomic K u); [exact (H8 u t H)|unfold int_max; lia].
Qed.

(** an object that keeps the contracts of [Seq] behaves in every call exactly like a String with the same text, whether or not its class implements [AtomicSeq] *)
Theorem C118_sequences_print_like_strings : forall S (K : cls S) R J dtf src ds objects strings,
  jdk_ok J -> acts_like_text K R -> compile dtf src = Ok ds -> Forall2 (with_string R J) objects strings ->
  forall sb target, u_run (adapted K) J sb ds objects target = formatInto J sb ds strings target.
Proof.
  intros S K R J dtf src ds objects strings HJ HK Hc F sb target.
  apply (C83_atomic_sequences_print_like_strings S (adapted K) R J dtf src); try assumption; [apply adapted_acts; exact HK|reflexivity].
Qed.
Print Assumptions C118_sequences_print_like_strings.

(** objects that could be padded before print as before, keeping the contracts or not *)
Section Same.
  Context {S : Type}.
  Variable K : cls S.
  Hypothesis A : forall u, u_atomic K u = true.
  Variable J : jdk.
  Lemma same_count g : g_count (adapted K) g = g_count K g.
  Proof. destruct g as [[a|u]| |]; try reflexivity. cbn. rewrite A. reflexivity. Qed.
  Lemma same_len g : g_len (adapted K) g = g_len K g.
  Proof. destruct g as [[a|u]| |]; reflexivity. Qed.
  Lemma same_concat0 l r : g_concat0 (adapted K) l r = g_concat0 K l r.
  Proof. unfold g_concat0. rewrite !same_count, !same_len. reflexivity. Qed.
  Lemma same_concat l r : g_concat (adapted K) l r = g_concat K l r.
  Proof. unfold g_concat. destruct l; rewrite !same_concat0; reflexivity. Qed.
  Lemma same_atomic x : as_atomic (adapted K) x = as_atomic K x.
  Proof. destruct x as [a|u]; [reflexivity|]. cbn. rewrite A. reflexivity. Qed.
  Lemma same_up x : n_up (adapted K) x = n_up K x.
  Proof. destruct x; reflexivity. Qed.
  Lemma same_all xs : up_all (adapted K) xs = up_all K xs.
  Proof. induction xs as [|x r IH]; [reflexivity|]. cbn [up_all]. rewrite same_atomic, IH. destruct (as_atomic K x) as [y|]; [|reflexivity]. cbn [bind]. rewrite same_up. reflexivity. Qed.
  Lemma same_upper g : g_upper (adapted K) g = g_upper K g.
  Proof. destruct g; cbn [g_upper]; rewrite ?same_up, ?same_all; reflexivity. Qed.
  Lemma same_s c x : g_fmt_s (adapted K) c x = g_fmt_s K c x.
  Proof.
    assert (L : forall x, n_len (adapted K) x = n_len K x) by (intros []; reflexivity). assert (U : forall x i j, n_sub (adapted K) x i j = n_sub K x i j) by (intros [] i j; reflexivity).
    unfold g_fmt_s. rewrite L, U. destruct (if isPrecisionSet c && _ then _ else _) as [y|]; [|reflexivity]. cbn [bind]. unfold g_spaceJustify. rewrite same_len.
    destruct (g_len K (GLeaf y) <? width c); [|reflexivity]. destruct (s_repeated _ _) as [pad|]; [|reflexivity]. cbn [bind]. unfold g_append, g_prepend. rewrite !same_concat, !same_len. reflexivity.
  Qed.
  Lemma same_each f cast xs : forall sb, g_each (adapted K) f cast xs sb = g_each K f cast xs sb.
  Proof. induction xs as [|x r IH]; intros sb; [reflexivity|]. cbn [g_each]. rewrite same_atomic. destruct (if cast then _ else _) as [y|]; [|reflexivity]. destruct (f y sb); [apply IH|reflexivity]. Qed.
  Lemma same_each_f (f g : node S -> list Z -> res (list Z)) cast xs : (forall x sb, f x sb = g x sb) -> forall sb, g_each K f cast xs sb = g_each K g cast xs sb.
  Proof. intros E. induction xs as [|x r IH]; intros sb; [reflexivity|]. cbn [g_each]. destruct (if cast then _ else _) as [y|]; [|reflexivity]. rewrite E. destruct (g y sb); [apply IH|reflexivity]. Qed.
  Lemma same_emit b p sb : u_emit (adapted K) b p sb = u_emit K b p sb.
  Proof.
    destruct p as [s|g]; [reflexivity|]. cbn [u_emit]. unfold g_emit.
    destruct g, b; rewrite same_each; apply same_each_f; intros [] ?; reflexivity.
  Qed.
  Lemma same_formatter sp c x : u_formatterFor (adapted K) J sp c x = u_formatterFor K J sp c x.
  Proof.
    destruct x as [x|u r]; [reflexivity|]. destruct sp; cbn [u_formatterFor]; try reflexivity; rewrite same_s; try reflexivity.
    destruct (g_fmt_s K c (Own u)) as [g|]; [|reflexivity]. cbn [bind]. rewrite same_upper. reflexivity.
  Qed.
End Same.

Theorem C118_atomic_sequences : forall S (K : cls S) J sb ds args target, (forall u, u_atomic K u = true) -> u_run (adapted K) J sb ds args target = u_run K J sb ds args target.
Proof.
  intros S K J sb ds. induction ds as [|d ds IH]; intros args target A; [reflexivity|]. cbn [u_run].
  assert (E : u_appendOne (adapted K) J d args = u_appendOne K J d args).
  { destruct d as [t|sp c]; [reflexivity|]. cbn [u_appendOne].
    assert (R : u_resolveCtx (adapted K) J c args = u_resolveCtx K J c args) by reflexivity. rewrite R.
    destruct (u_resolveCtx K J c args) as [[c' [|x rest]]|]; try reflexivity. cbn [bind]. rewrite (same_formatter K A). reflexivity. }
  rewrite E. destruct (u_appendOne K J d args) as [[p it]|]; [|reflexivity]. rewrite (same_emit K A). destruct (u_emit K sb p target) as [o [e|]]; [reflexivity|]. apply IH. exact A.
Qed.
Print Assumptions C118_atomic_sequences.

(** no object makes a call fail with a ClassCastException of its own accord: the cast of Concat.java:171 always succeeds *)
Theorem C118_no_cast_fails : forall S (K : cls S) x, as_atomic (adapted K) x = Ok x.
Proof. intros S K [a|u]; reflexivity. Qed.
Print Assumptions C118_no_cast_fails.

(** each object counts as one leaf *)
Theorem C118_count : forall S (K : cls S) u, u_atomic K u = false -> g_count (adapted K) (GLeaf (Own u)) = zlen (g_leaves (GLeaf (Own u))).
Proof. intros S K u H. cbn. rewrite H. reflexivity. Qed.
Print Assumptions C118_count.

(** the witness of finding 41 *)
Example C118_example : acts_like_text (simple_class false) its_text /\
  exists ds, compile (fun _ => true) (txt "%5s|%-4S") = Ok ds /\
    u_run (simple_class false) J2 true ds [Own1 (txt "ab") RPrimitive; Own1 (txt "cd") RPrimitive] [] = (txt "   ", Some ClassCast) /\
    u_run (adapted (simple_class false)) J2 true ds [Own1 (txt "ab") RPrimitive; Own1 (txt "cd") RPrimitive] [] = (txt "   ab|CD  ", None).
Proof. split; [apply simple_acts|]. eexists. split; [vm_compute; reflexivity|]. split; vm_compute; reflexivity. Qed.
