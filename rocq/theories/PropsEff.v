(** Property C73: argument objects whose methods have side effects. *)
From Verif Require Import Base Digits SeqM ContextM CompilerM FormatterM TraitsM ImplM ImplP LoopSpec LoopP ValueSpec ValueP PropsValue EffM EffSpec EffP.

(** C73: the arguments are asked in order, each at most once, and only for what its place in the format demands; a call that succeeds
    has asked all. What the methods do to the Args meanwhile has no influence on which objects are asked. *)
Theorem C73_calls :
  forall J U object emit apps w sb o s, (forall id, counted (object id)) ->
  callE J U object emit apps w sb = (o, s) ->
  exists n, s_calls U s = firstn n (combine (w_args U w) (demands apps)) /\
    (snd o = None -> n = length (demands apps) /\ zlen (demands apps) <= zlen (w_args U w)).
Proof.
  intros J U object emit apps w sb o s Hc E.
  destruct (run_trace J U object Hc (w_args U w) (w_mod U w) emit apps _ _ _ _ (start_inv U w) E)
    as ((((I1 & I2) & _) & _) & (n & C & L & N) & D). cbn in C, N, D. exists n. split.
  - rewrite C, combine_firstn. f_equal. unfold slice. cbn [skipn Z.to_nat]. f_equal. lia.
  - intros S. rewrite S in D. unfold zlen in *. lia.
Qed.
Print Assumptions C73_calls.

(** C73: once the Args was modified, nothing is asked any more. *)
Theorem C73_nothing_is_asked_after_a_modification :
  forall J U object emit apps expected s sb o s', (forall id, counted (object id)) ->
  0 <= s_cursor U s -> expected < w_mod U (s_world U s) ->
  runE J U object emit expected apps s sb = (o, s') -> s_calls U s' = s_calls U s.
Proof.
  intros J U object emit apps expected s sb o s' Hc H0 H1 E.
  assert (I : inv U (rep 0 (s_cursor U s)) expected s) by (unfold inv; rewrite zlen_rep; repeat split; lia).
  destruct (run_trace J U object Hc _ _ emit apps _ _ _ _ I E) as ((_ & _ & _ & A) & (n & C & _) & _).
  rewrite C, A by lia. rewrite slice_empty by lia. cbn. apply app_nil_r.
Qed.
Print Assumptions C73_nothing_is_asked_after_a_modification.

(** C73: objects that leave the Args alone print as if they had no effects at all. *)
Theorem C73_other_effects_are_harmless :
  forall J U object tr emit apps dtf src w sb o s, compile dtf src = Ok apps ->
  (forall id, counted (object id)) -> (forall id, answers (object id) (tr id)) ->
  callE J U object emit apps w sb = (o, s) -> w_mod U (s_world U s) = w_mod U w ->
  o = run J emit apps (map tr (w_args U w)) sb.
Proof.
  intros J U object tr emit apps dtf src w sb o s Hcomp Hc Ha E Hm. pose proof (fun _ : calm J tr => compiled_sane _ _ _ Hcomp) as Hs.
  destruct (run_like J U object Hc (w_args U w) (w_mod U w) tr Ha emit apps Hs _ _ _ _ (start_inv U w) E)
    as (e0 & R & X & _). cbn [s_cursor] in R. unfold seen in R. rewrite Hm, Z.eqb_refl, slice_full in R. rewrite R.
  destruct X as [<-|(_ & _ & X)]; [destruct o; reflexivity|contradiction].
Qed.
Print Assumptions C73_other_effects_are_harmless.

(** C73: a call during which the Args was modified goes as if the arguments asked until then had been all, but the exception for
    the next one is ConcurrentModificationException, unless the Args now has just as many elements as were asked. *)
Theorem C73_modification_ends_the_call :
  forall J U object tr (b : bool) apps dtf src w sb o s, compile dtf src = Ok apps ->
  (forall id, counted (object id)) -> (forall id, answers (object id) (tr id)) -> (forall id, honest J (tr id) /\ quiet_arg J (tr id)) ->
  callE J U object (if b then emitSB else emitApp) apps w sb = (o, s) -> w_mod U (s_world U s) <> w_mod U w ->
  let n := length (s_calls U s) in
  o = match formatInto J b apps (map tr (firstn n (w_args U w))) sb with
      | (t, Some (Printf MissingArg)) => (t, Some (if zlen (w_args U (s_world U s)) =? Z.of_nat n then missing else CoModification))
      | r => r
      end.
Proof.
  intros J U object tr b apps dtf src w sb o s Hcomp Hc Ha Hq E Hm n. pose proof (fun _ : calm J tr => compiled_sane _ _ _ Hcomp) as Hs.
  unfold formatInto. assert (He : emits (if b then emitSB else emitApp)) by (destruct b; [apply emits_sb|apply emits_app]).
  set (emit := if b then emitSB else emitApp) in *. clearbody emit.
  pose proof (start_inv U w) as I0.
  assert (N : Z.of_nat n = s_cursor U s).
  { destruct (run_trace J U object Hc (w_args U w) (w_mod U w) emit apps _ _ _ _ I0 E) as ((((I1 & I2) & _) & _) & (m & C & L & M) & _). cbn in C, M.
    unfold n. rewrite C, combine_length, firstn_length. pose proof (zlen_slice (w_args U w) 0 (s_cursor U s)) as Z1. unfold zlen in Z1, I2. lia. }
  destruct (run_like J U object Hc (w_args U w) (w_mod U w) tr Ha emit apps Hs _ _ _ _ I0 E) as (e0 & R & X & Y).
  cbn [s_cursor] in R. unfold seen in R. rewrite (proj2 (Z.eqb_neq _ _) Hm) in R.
  assert (S : slice (w_args U w) 0 (s_cursor U s) = firstn n (w_args U w)).
  { unfold slice. cbn [skipn Z.to_nat]. f_equal. lia. }
  rewrite S in R. rewrite R, N. destruct o as [t e]. cbn [fst snd] in *. specialize (Y Hq He).
  destruct X as [<-|(-> & -> & _)].
  - destruct e as [e|]; [|reflexivity]. destruct e as [k i|k| | | | | |m|]; try reflexivity. destruct k; try reflexivity. rewrite <- Y by reflexivity. reflexivity.
  - cbn. rewrite <- Y by reflexivity. reflexivity.
Qed.
Print Assumptions C73_modification_ends_the_call.

(** objects 0, 1, 2, ...: %s of 0 adds object 7 to the Args, %s of 5 removes the last element; the others have no effects *)
Definition text_object (r : list Z) (change : world unit -> world unit) : etraits unit :=
  let x := traitsOf J2 (VStr r) RNull in
  mkETraits unit (fun w => (t_asIntForm x, w)) (fun w => (t_asFloatForm x, w)) (fun w => (t_asInt x, w)) (fun w => (t_asTemporal x, w))
    (fun w => (t_asChar x, w)) (fun w => (Ok (t_ref x), w)) (fun w => (t_asSeq x, change w)).
Definition objects (id : Z) : etraits unit :=
  text_object (if id =? 0 then txt "12" else txt "3")
    (fun w => if id =? 0 then mkWorld unit (w_args _ w ++ [7]) (w_mod _ w + 1) tt
              else if id =? 5 then mkWorld unit (removelast (w_args _ w)) (w_mod _ w + 1) tt else w).

Lemma objects_counted id : counted (objects id).
Proof.
  unfold counted, objects, text_object. repeat split; cbn; try lia; try reflexivity.
  - destruct (id =? 0); [cbn; lia|]. destruct (id =? 5); cbn; lia.
  - destruct (id =? 0); [cbn; lia|]. destruct (id =? 5); [cbn; lia|reflexivity].
Qed.

(** they meet the hypotheses *)
Example C73_hypotheses_are_met :
  let tr id := traitsOf J2 (VStr (if id =? 0 then txt "12" else txt "3")) RNull in
  (forall id, counted (objects id)) /\ (forall id, answers (objects id) (tr id)) /\ (forall id, honest J2 (tr id) /\ quiet_arg J2 (tr id)).
Proof.
  cbv zeta. split; [exact objects_counted|]. split; [intros id w; repeat split|]. intros id.
  assert (H : argument J2 (traitsOf J2 (VStr (if id =? 0 then txt "12" else txt "3")) RNull)).
  { constructor; [|exact I|exact I]. cbn [java_value]. destruct (id =? 0); vm_compute; discriminate. }
  split; [apply argument_honest|apply argument_quiet]; auto using J2_ok.
Qed.

Example C73_example :
  exists one two, compile (fun _ => true) (txt "%*d<%s>") = Ok one /\ compile (fun _ => true) (txt "<%s><%s>") = Ok two /\
    demands one = [AsInt; AsIntForm; AsSeq] /\
    fst (callE J2 unit objects emitSB one (mkWorld _ [1; 0; 0] 0 tt) []) = (txt " 12<12>", None) /\
    fst (callE J2 unit objects emitSB two (mkWorld _ [1; 0] 0 tt) []) = (txt "<3><12>", None) /\
    fst (callE J2 unit objects emitSB two (mkWorld _ [0; 1] 0 tt) []) = (txt "<12><", Some CoModification) /\
    fst (callE J2 unit objects emitSB two (mkWorld _ [0] 0 tt) []) = (txt "<12><", Some CoModification) /\
    fst (callE J2 unit objects emitSB two (mkWorld _ [5; 1] 0 tt) []) = (txt "<3><", Some missing) /\
    s_calls _ (snd (callE J2 unit objects emitSB two (mkWorld _ [0; 1] 0 tt) [])) = [(0, AsSeq)].
Proof. do 2 eexists. repeat split; reflexivity. Qed.
