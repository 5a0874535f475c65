(** C119: calls that fail with a PrintfException only. *)
From Verif Require Import Base Digits UtilsM SeqM SeqSpec ContextM CompilerM GrammarSpec CompilerP2 IntFormM FormatterM BigDecM TraitsM ImplM ImplP
  FmtSpec DirSpec LoopSpec LoopP ValueSpec ValueP PropsInt PropsValue WholeSpec PropsWhole WrapM.

(** calls that succeed are not changed, and a call that fails writes the same text before *)
Theorem C119_same_text : forall J sb ds args target,
  match formatInto J sb ds args target with
  | (o, None) => formatIntoW J sb ds args target = (o, None)
  | (o, Some e) => exists e', formatIntoW J sb ds args target = (o, Some e') /\ (e' = e \/ e' = Printf BadConversion)
  end.
Proof.
  intros J sb ds. unfold formatInto, formatIntoW. set (emit := if sb then emitSB else emitApp).
  induction ds as [|d ds IH]; intros args target; cbn [run runW]; [reflexivity|]. unfold appendOneW.
  destruct (appendOne J d args) as [[s it]|e].
  - destruct (emit s target) as [o [e|]]; [exists e; auto|apply IH].
  - exists (asPrintf e). split; [reflexivity|]. destruct e; cbn [asPrintf]; auto.
Qed.
Print Assumptions C119_same_text.

(** with the arguments of the library every failure is a PrintfException, and those that were one before are the same *)
Definition as_printf (o : option exn) (o' : option exn) : Prop :=
  match o, o' with
  | None, None => True
  | Some (Printf k), Some e => e = Printf k
  | Some (Syntax k i), Some e => e = Syntax k i
  | Some _, Some e => e = Printf BadConversion
  | _, _ => False
  end.
Theorem C119_only_printf_exceptions : forall J dtf src ds args, compile dtf src = Ok ds -> Forall (honest J) args -> forall sb target,
  let (t, o) := formatInto J sb ds args target in let (t', o') := formatIntoW J sb ds args target in t' = t /\ as_printf o o'.
Proof.
  intros J dtf src ds args Hc Ha sb. apply compiled_sane in Hc. unfold formatInto, formatIntoW. set (emit := if sb then emitSB else emitApp).
  revert args Ha. induction ds as [|d ds IH]; intros args Ha target; cbn [run runW]; [split; [reflexivity|exact I]|].
  inversion Hc as [|x y Hd Hc']; subst. unfold appendOneW. destruct (appendOne J d args) as [[s it]|e] eqn:E.
  - destruct (appendOne_honest J d args s it Hd Ha E) as [[t Ht] Hit]. rewrite (Ht emit (emits_if sb) target). apply IH; assumption.
  - split; [reflexivity|]. destruct e; reflexivity.
Qed.
Print Assumptions C119_only_printf_exceptions.

(** the reference of C74 with the exception replaced *)
Theorem C119_calls_follow_the_reference : forall J dtf src ds args t o, jdk_ok J -> GrammarSpec.format dtf src ds -> Forall (argument J) args -> says J ds args t o ->
  exists o', as_printf o o' /\ (forall sb target, formatIntoW J sb ds args target = (target ++ t, o')) /\
    formatW J ds args = match o' with None => Ok t | Some e => Err e end.
Proof.
  intros J dtf src ds args t o HJ F Ha H. destruct (C74_calls_follow_the_reference J dtf src ds args t o HJ F H) as (Hc & _ & R).
  assert (Hh : Forall (honest J) args) by (eapply Forall_impl; [|exact Ha]; intros x Hx; apply argument_honest; assumption).
  exists (option_map asPrintf o).
  assert (P : as_printf o (option_map asPrintf o)) by (destruct o as [[]|]; cbn; auto).
  assert (W : forall sb target, formatIntoW J sb ds args target = (target ++ t, option_map asPrintf o)).
  { intros sb target. pose proof (C119_only_printf_exceptions J dtf src ds args Hc Hh sb target) as Q. rewrite R in Q.
    destruct (formatIntoW J sb ds args target) as [t' o']. destruct Q as [-> Q]. f_equal.
    destruct o as [e|], o' as [e'|]; cbn [as_printf option_map] in *; try (destruct e; contradiction); try contradiction; [|reflexivity]. f_equal. destruct e; exact Q. }
  split; [exact P|]. split; [exact W|]. pose proof (W true []) as W0. unfold formatIntoW in W0. unfold formatW. rewrite W0. destruct (option_map asPrintf o); reflexivity.
Qed.
Print Assumptions C119_calls_follow_the_reference.

(** no argument of the library makes a call fail in any other way *)
Theorem C119_no_other_exception : forall J dtf src ds args sb target t e, jdk_ok J -> compile dtf src = Ok ds -> Forall (argument J) args ->
  formatIntoW J sb ds args target = (t, Some e) -> (exists k, e = Printf k) \/ (exists k i, e = Syntax k i).
Proof.
  intros J dtf src ds args sb target t e HJ Hc Ha H.
  assert (Hh : Forall (honest J) args) by (eapply Forall_impl; [|exact Ha]; intros x Hx; apply argument_honest; assumption).
  pose proof (C119_only_printf_exceptions J dtf src ds args Hc Hh sb target) as Q. rewrite H in Q. destruct (formatInto J sb ds args target) as [u [x|]]; [|destruct Q as [_ []]].
  destruct Q as [_ Q]. destruct x; cbn [as_printf] in Q; subst e; eauto.
Qed.
Print Assumptions C119_no_other_exception.

(** %t of a negative Long *)
Example C119_example : forall dtf, exists ds, compile dtf (txt "%d: %t") = Ok ds /\
  formatInto J2 true ds [traitsOf J2 (VInt 7) RPrimitive; traitsOf J2 (VLong (-1)) RPrimitive] [] = (txt "7: ", Some IllegalArg) /\
  formatIntoW J2 true ds [traitsOf J2 (VInt 7) RPrimitive; traitsOf J2 (VLong (-1)) RPrimitive] [] = (txt "7: ", Some (Printf BadConversion)) /\
  formatW J2 ds [traitsOf J2 (VInt 7) RPrimitive] = Err (Printf MissingArg) /\ formatW J2 ds [traitsOf J2 (VInt 7) RPrimitive; traitsOf J2 (VLong 5) RPrimitive] = Ok (txt "7: now").
Proof. intros dtf. eexists. split; [reflexivity|]. split; [vm_compute; reflexivity|]. split; [vm_compute; reflexivity|]. split; vm_compute; reflexivity. Qed.
