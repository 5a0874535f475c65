(** Property C110: every argument belongs to one directive. *)
From Verif Require Import Base Digits UtilsM SeqM SeqSpec SeqP ContextM CompilerM GrammarSpec CompilerP2 IntFormM FormatterM TraitsM ImplM ImplP
  DirSpec LoopSpec LoopP ValueSpec ValueP PropsValue OwnSpec OwnP.

(** a call does what one call per piece does, each with the next arguments, up to the first that throws *)
Theorem C110_call_is_its_directives : forall J dtf src ds args sb target,
  GrammarSpec.format dtf src ds -> Forall (honest J) args ->
  formatInto J sb ds args target = (target ++ fst (by_parts J ds args), snd (by_parts J ds args)).
Proof. intros J dtf src ds args sb target F Ha. apply compile_iff, compiled_sane in F. apply run_out; [apply emits_if|exact F|exact Ha]. Qed.
Print Assumptions C110_call_is_its_directives.

(** arguments after the last one needed change nothing, whatever they are and however the call ends *)
Theorem C110_surplus_arguments : forall J ds args sb target,
  formatInto J sb ds args target = formatInto J sb ds (firstn (Z.to_nat (arities ds)) args) target.
Proof. intros J ds args sb target. apply run_surplus. Qed.
Print Assumptions C110_surplus_arguments.

(** which piece takes argument number [i] depends on the format only, and it is one piece *)
Theorem C110_one_owner : forall ds i, Z.of_nat i < arities ds ->
  exists ds1 d ds2, takes_argument ds i ds1 d ds2 /\
    forall ds1' d' ds2', takes_argument ds i ds1' d' ds2' -> ds1' = ds1 /\ d' = d /\ ds2' = ds2.
Proof.
  intros ds i H. destruct (owner_exists ds i H) as (ds1 & d & ds2 & T). exists ds1, d, ds2. split; [exact T|].
  intros ds1' d' ds2' T'. exact (owner_unique i ds ds1' d' ds2' ds1 d ds2 T' T).
Qed.
Print Assumptions C110_one_owner.

(** another argument at one place: the call is the same, or it differs in the text (or the exception) of the piece that takes this argument; the text before
    it is the same, and so is all that follows if neither throws *)
Theorem C110_one_argument : forall J dtf src ds args args' i sb target,
  GrammarSpec.format dtf src ds -> Forall (honest J) args -> Forall (honest J) args' -> (forall j, j <> i -> nth_error args j = nth_error args' j) ->
  formatInto J sb ds args target = formatInto J sb ds args' target \/
  exists ds1 d ds2 a b o, takes_argument ds i ds1 d ds2 /\
    formatInto J sb ds args target = placed (target ++ a) (ImplM.format J [d] (own_args d (skipn (Z.to_nat (arities ds1)) args))) b o /\
    formatInto J sb ds args' target = placed (target ++ a) (ImplM.format J [d] (own_args d (skipn (Z.to_nat (arities ds1)) args'))) b o.
Proof.
  intros J dtf src ds args args' i sb target F Ha Ha' H. rewrite (C110_call_is_its_directives J dtf src ds args sb target F Ha), (C110_call_is_its_directives J dtf src ds args' sb target F Ha').
  destruct (parts_one J ds args args' i H) as [->|(ds1 & d & ds2 & a & b & o & T & -> & ->)]; [left; reflexivity|]. right. exists ds1, d, ds2, a, b, o. split; [exact T|].
  split; [destruct (ImplM.format J [d] (own_args d (skipn (Z.to_nat (arities ds1)) args)))|destruct (ImplM.format J [d] (own_args d (skipn (Z.to_nat (arities ds1)) args')))];
    cbn [placed fst snd]; rewrite <- ?app_assoc; reflexivity.
Qed.
Print Assumptions C110_one_argument.

(** when a piece throws, the arguments of the pieces after it do not matter *)
Theorem C110_after_an_exception : forall J dtf src ds args sb target out e,
  GrammarSpec.format dtf src ds -> Forall (honest J) args -> formatInto J sb ds args target = (out, Some e) ->
  exists ds1 d ds2, ds = ds1 ++ d :: ds2 /\ forall args', Forall (honest J) args' ->
    firstn (Z.to_nat (arities (ds1 ++ [d]))) args' = firstn (Z.to_nat (arities (ds1 ++ [d]))) args -> formatInto J sb ds args' target = (out, Some e).
Proof.
  intros J dtf src ds args sb target out e F Ha E. rewrite (C110_call_is_its_directives J dtf src ds args sb target F Ha) in E. injection E as <- E.
  destruct (parts_stop J ds args e E) as (ds1 & d & ds2 & D & K). exists ds1, d, ds2. split; [exact D|]. intros args' Ha' H.
  rewrite (C110_call_is_its_directives J dtf src ds args' sb target F Ha'), (K args' H), E. reflexivity.
Qed.
Print Assumptions C110_after_an_exception.

(** every Java value is such an argument *)
Theorem C110_java_arguments : forall J args, jdk_ok J -> Forall (argument J) args -> Forall (honest J) args.
Proof. intros J args HJ Ha. eapply Forall_impl; [|exact Ha]. intros y Hy. apply argument_honest; assumption. Qed.
Print Assumptions C110_java_arguments.

(** "a%d-%*s|%x": argument 2 is the text of the second directive, argument 1 its width *)
Definition i7 := traitsOf J2 (VInt 7) RPrimitive.
Definition i4 := traitsOf J2 (VInt 4) RPrimitive.
Definition ab := traitsOf J2 (VStr (txt "ab")) RNull.
Example C110_example : exists ds, GrammarSpec.format (fun _ => true) (txt "a%d-%*s|%x") ds /\ Forall (argument J2) [i7; i4; ab; i7] /\
  by_parts J2 ds [i7; i4; ab; i7] = (txt "a7-  ab|7", None) /\ formatInto J2 true ds [i7; i4; ab; i7] [] = (txt "a7-  ab|7", None) /\
  formatInto J2 true ds [i7; i4; i7; i7] [] = (txt "a7-   7|7", None) /\ formatInto J2 true ds [i7; ab; ab; i7] [] = (txt "a7-", Some (Printf BadConversion)) /\
  (exists ds1 d ds2, takes_argument ds 1 ds1 d ds2 /\ takes_argument ds 2 ds1 d ds2) /\ arities ds = 4.
Proof.
  eexists. split; [apply compile_iff; reflexivity|]. split.
  - assert (A : argument J2 i7) by (apply arg_value; [unfold java_value, in_range; lia|exact I|exact I]). assert (B : argument J2 i4) by (apply arg_value; [unfold java_value, in_range; lia|exact I|exact I]).
    assert (C : argument J2 ab) by (apply arg_value; [vm_compute; discriminate|exact I|exact I]). apply Forall_cons; [exact A|apply Forall_cons; [exact B|apply Forall_cons; [exact C|apply Forall_cons; [exact A|apply Forall_nil]]]].
  - split; [vm_compute; reflexivity|]. split; [vm_compute; reflexivity|]. split; [vm_compute; reflexivity|]. split; [vm_compute; reflexivity|]. split; [|reflexivity].
    eexists [_; _; _], _, [_; _]. split; (split; [reflexivity|vm_compute; split; [discriminate|reflexivity]]).
Qed.
