(** C89: the arguments come from any implementation of [Args]. *)
From Verif Require Import Base Digits UtilsM SeqM ContextM CompilerM IntFormM FormatterM TraitsM ImplM PropsValue IterM IterSpec IterP.

(** C89: an iterator that supplies [xs] and then ends is as good as the list *)
Theorem C89_finite_iterators : forall St (I : source St) J sb ds st xs st1 st2 target,
  supplies I st xs st1 -> i_hasNext I st1 = (Ok false, st2) ->
  i_format I J sb ds (Ok st) target = formatInto J sb ds xs target.
Proof.
  intros St I J sb ds st xs st1 st2 target S H. cbn [i_format]. rewrite <- l_run. apply run_alike.
  apply (supplies_stops I st xs st1); [exact S|exact (sw_end I st1 st2 H)].
Qed.
Print Assumptions C89_finite_iterators.

(** C89: an iterator that goes on is only asked for as many arguments as the format has directives and '*' *)
Theorem C89_endless_iterators : forall St (I : source St) J sb ds st xs st1 target,
  supplies I st xs st1 -> takes ds <= zlen xs ->
  i_format I J sb ds (Ok st) target = formatInto J sb ds xs target.
Proof.
  intros St I J sb ds st xs st1 target S H. cbn [i_format]. rewrite <- l_run. apply run_alike.
  apply (supplies_enough I st xs st1); [exact S|]. pose proof (takes_nonneg ds). lia.
Qed.
Print Assumptions C89_endless_iterators.

(** C89: an exception of the iterator comes out where a missing argument would be reported, with the same output before it; if
    the call does not get that far, it makes no difference *)
Theorem C89_exceptions : forall J sb ds xs target,
  (exists t, formatInto J sb ds xs target = (t, Some (Printf MissingArg)) /\
     forall St (I : source St) st st1 e, supplies I st xs st1 -> stops_with I st1 e -> i_format I J sb ds (Ok st) target = (t, Some e)) \/
  (forall St (I : source St) st st1 e, supplies I st xs st1 -> stops_with I st1 e -> i_format I J sb ds (Ok st) target = formatInto J sb ds xs target).
Proof.
  intros J sb ds xs target.
  assert (E : forall St (I : source St) st st1 e, supplies I st xs st1 -> stops_with I st1 e ->
    i_format I J sb ds (Ok st) target = fst (i_run (lsrc e) J sb ds xs target)).
  { intros St I st st1 e S W. cbn [i_format]. apply run_alike. apply (supplies_stops I st xs st1); assumption. }
  destruct (dry_run J sb ds xs target) as [(t & H)|(o & H)].
  - left. exists t. split; [rewrite <- l_run; apply H|]. intros St I st st1 e S W. rewrite (E St I st st1 e S W). apply H.
  - right. intros St I st st1 e S W. rewrite (E St I st st1 e S W), <- l_run, !H. reflexivity.
Qed.
Print Assumptions C89_exceptions.

(** C89: whatever the iterator does, next() is called only after a hasNext() that answered true, at most once per directive and
    '*', exactly that often if the call succeeds, and nothing is called after hasNext() has refused or something has thrown *)
Theorem C89_protocol : forall St (I : source St) J sb ds st target,
  let '(o, (st', log)) := i_run (logged I) J sb ds (st, []) target in
  o = fst (i_run I J sb ds st target) /\
  exists k, asked k log /\ k <= takes ds /\ (snd o = None -> k = takes ds).
Proof.
  intros St I J sb ds st target. pose proof (run_log I J sb ds st [] target) as H.
  pose proof (run_alike (logged I) I J sb ds (st, []) st target (logged_agree I _ st [])) as E.
  destruct (i_run (logged I) J sb ds (st, []) target) as [o [st' l]]. cbn [fst] in E. split; [exact E|].
  destruct H as (l' & k & -> & A & B & C). exists k. auto.
Qed.
Print Assumptions C89_protocol.

(** C89: iterator() itself may throw: nothing is written then *)
Theorem C89_no_iterator : forall St (I : source St) J sb ds e target, i_format I J sb ds (Err e) target = (target, Some e).
Proof. reflexivity. Qed.
Print Assumptions C89_no_iterator.

(** ** Examples *)

(** an endless iterator: 0, 1, 2, ... *)
Definition counter : source Z := mkSource Z (fun n => (Ok true, n)) (fun n => (Ok (Some (traitsOf J2 (VInt n) RPrimitive)), n + 1)).

Example C89_endless_example :
  exists ds, compile (fun _ => true) (txt "%d-%*d-%s") = Ok ds /\ takes ds = 4 /\
    i_format counter J2 true ds (Ok 3) (txt ">") = (txt ">3-   5-6", None).
Proof. eexists. split; [vm_compute; reflexivity|]. split; reflexivity. Qed.

Example C89_supplies_example : exists st1, supplies counter 3 [traitsOf J2 (VInt 3) RPrimitive; traitsOf J2 (VInt 4) RPrimitive] st1.
Proof. exists 5. eapply su_cons; [reflexivity|reflexivity|]. eapply su_cons; [reflexivity|reflexivity|]. constructor. Qed.

(** one that throws at the third argument, and one that returns null there *)
Definition until2 (r : res (option traits)) : source Z :=
  mkSource Z (fun n => (Ok true, n)) (fun n => if n <? 2 then (Ok (Some (traitsOf J2 (VInt n) RPrimitive)), n + 1) else (r, n)).
Example C89_throwing_example :
  exists ds, compile (fun _ => true) (txt "%d,%d,%d") = Ok ds /\
    i_format (until2 (Err (OtherExn 6))) J2 true ds (Ok 0) [] = (txt "0,1,", Some (OtherExn 6)) /\
    i_format (until2 (Ok None)) J2 true ds (Ok 0) [] = (txt "0,1,", Some NullPtr) /\
    snd (snd (i_run (logged (until2 (Ok None))) J2 true ds (0, []) [])) =
      [HasNext (Some true); Next; HasNext (Some true); Next; HasNext (Some true); Next].
Proof. eexists. split; [vm_compute; reflexivity|]. repeat split; vm_compute; reflexivity. Qed.
