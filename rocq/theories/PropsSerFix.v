(** C117: contexts that can be written and read. *)
From Verif Require Import Base Digits UtilsM SeqM ContextM CompilerM GrammarSpec CompilerP2 CtxM CtxSpec CtxP ImplM LoopSpec LoopP SerM SerFixM.

(** what [create] accepts, with a pattern DateTimeFormatter accepts *)
Definition proper (valid : list Z -> bool) (c : ctx) : Prop :=
  allowed (c_width c) = true /\ allowed (c_prec c) = true /\ (forall p, c_dtf c = Some p -> valid p = true).

Lemma set_elements s : setOf (elements s) = s.
Proof. destruct s as [[] [] [] [] []]; reflexivity. Qed.

(** a context comes back exactly when it is proper *)
Theorem C117_round_trip : forall valid c, readCtxS valid (writeCtxS c) = Ok c <-> proper valid c.
Proof.
  intros valid [fl w p d]. unfold proper, writeCtxS. cbn [c_flags c_width c_prec c_dtf readCtxS]. rewrite set_elements. unfold ctx_create. rewrite !checkValue_allowed. split.
  - intros H. destruct d as [d|]; cbn [patternOf] in H; [destruct (valid d) eqn:V; [|discriminate]|]; cbn [bind] in H;
      (destruct (allowed w); [|discriminate]; destruct (allowed p); [|discriminate]); (split; [reflexivity|]; split; [reflexivity|]); intros q [= <-]; exact V.
  - intros (-> & -> & H). destruct d as [d|]; cbn [patternOf]; [rewrite (H d eq_refl)|]; reflexivity.
Qed.
Print Assumptions C117_round_trip.

(** the context of every directive is, with a date pattern or without *)
Theorem C117_compiled_contexts : forall valid src ds s c, compile valid src = Ok ds -> In (Default s c) ds -> readCtxS valid (writeCtxS c) = Ok c.
Proof.
  intros valid src ds s c H Hi. apply C117_round_trip.
  pose proof (proj1 (Forall_forall _ _) (compiled_sane _ _ _ H) _ Hi) as [Bw Bp]. apply compile_iff in H. split; [|split].
  - unfold allowed. change (-1) with UNSET. change int_min with PRECEDING. destruct Bw as [-> |[-> |B]]; [reflexivity|reflexivity|]. replace (0 <=? c_width c) with true by lia. replace (c_width c <=? 65536) with true by lia. rewrite orb_true_r. reflexivity.
  - unfold allowed. change (-1) with UNSET. change int_min with PRECEDING. destruct Bp as [-> |[-> |B]]; [reflexivity|reflexivity|]. replace (0 <=? c_prec c) with true by lia. replace (c_prec c <=? 65536) with true by lia. rewrite orb_true_r. reflexivity.
  - intros q Hq. induction H as [|t r ds _ _ _ F IH|r ds F IH|F0 fl0 W w0 P p0 c0 s0 T d0 r ds _ _ _ _ HT _ F IH].
    + contradiction.
    + destruct Hi as [Hi|Hi]; [discriminate|auto].
    + destruct Hi as [Hi|Hi]; [discriminate|auto].
    + destruct Hi as [Hi|Hi]; [|auto]. injection Hi as <- <-. cbn [c_dtf] in Hq. subst d0. inversion HT; subst; assumption.
Qed.
Print Assumptions C117_compiled_contexts.

(** nothing else can be read: whatever stream gives a context, the context is one that [create] makes, and it comes back when written again *)
Theorem C117_only_proper_contexts : forall valid st c, readCtxS valid st = Ok c ->
  proper valid c /\ ctx_create (c_flags c) (c_width c) (c_prec c) (c_dtf c) = Ok c /\ readCtxS valid (writeCtxS c) = Ok c.
Proof.
  intros valid st c H. assert (P : proper valid c).
  { destruct st as [|[p| | |] [|[w| | |] [|d [|[| |fs|] [|]]]]]; try discriminate. cbn [readCtxS] in H. destruct (patternOf valid d) as [o|] eqn:E; [|discriminate]. cbn [bind] in H.
    unfold ctx_create in H. rewrite !checkValue_allowed in H. destruct (allowed w) eqn:W; [|discriminate]. destruct (allowed p) eqn:Q; [|discriminate]. injection H as <-.
    split; [exact W|]. split; [exact Q|]. intros q Hq. cbn [c_dtf] in Hq. subst o. destruct d as [| | |t]; try discriminate. cbn [patternOf] in E. destruct (valid t) eqn:V; [|discriminate]. injection E as <-. exact V. }
  split; [exact P|]. split; [|apply C117_round_trip; exact P]. destruct P as (W & Q & _). unfold ctx_create. rewrite !checkValue_allowed, W, Q. destruct c; reflexivity.
Qed.
Print Assumptions C117_only_proper_contexts.

(** streams of the code without a pattern: read as before if the numbers are allowed and the set is there, and rejected otherwise *)
Definition later (i : item) : itemS := match i with IInt n => JInt n | INull => JNull | ISet l => JSet l end.
Theorem C117_earlier_streams : forall valid st r, readCtx st = Ok r ->
  readCtxS valid (map later st) =
    match r_flags r with
    | None => Err InvalidStream
    | Some fl => if allowed (r_width r) then if allowed (r_prec r) then Ok (mkCtx fl (r_width r) (r_prec r) None) else Err (Printf PrecisionRange) else Err (Printf WidthRange)
    end.
Proof.
  intros valid st r H. destruct st as [|[p| |] [|[w| |] [|[ | |] [|[ | |l] [|]]]]]; try discriminate; injection H as <-; [reflexivity|].
  cbn [map later readCtxS patternOf bind r_flags r_width r_prec]. unfold ctx_create. rewrite !checkValue_allowed. destruct (allowed w); [|reflexivity]. destruct (allowed p); reflexivity.
Qed.
Print Assumptions C117_earlier_streams.

(** streams with a pattern: the pattern is checked first, then the numbers *)
Theorem C117_with_pattern : forall valid p w t fs,
  readCtxS valid [JInt p; JInt w; JText t; JSet fs] =
    if valid t then if allowed w then if allowed p then Ok (mkCtx (setOf fs) w p (Some t)) else Err (Printf PrecisionRange) else Err (Printf WidthRange) else Err IllegalArg.
Proof.
  intros valid p w t fs. cbn [readCtxS patternOf]. destruct (valid t); [|reflexivity]. cbn [bind]. unfold ctx_create. rewrite !checkValue_allowed.
  destruct (allowed w); [|reflexivity]. destruct (allowed p); reflexivity.
Qed.
Print Assumptions C117_with_pattern.

(** streams with anything else in the place of the pattern are rejected *)
Theorem C117_no_pattern : forall valid p w d fs, d <> JNull -> (forall t, d <> JText t) -> readCtxS valid [JInt p; JInt w; d; JSet fs] = Err InvalidStream.
Proof. intros valid p w [| | |t] fs Hn Ht; try reflexivity; [contradiction|destruct (Ht t); reflexivity]. Qed.
Print Assumptions C117_no_pattern.

(** different contexts have different streams *)
Theorem C117_streams_differ : forall c d, writeCtxS c = writeCtxS d -> c = d.
Proof.
  intros [f1 w1 p1 d1] [f2 w2 p2 d2] H. unfold writeCtxS in H. cbn [c_flags c_width c_prec c_dtf] in H. injection H as -> -> D F.
  assert (f1 = f2) by (rewrite <- (set_elements f1), F; apply set_elements). subst. destruct d1, d2; try discriminate; [injection D as ->|]; reflexivity.
Qed.
Print Assumptions C117_streams_differ.

Example C117_example : forall valid, valid (txt "HH:mm") = true -> valid (txt "{") = false ->
  let c := mkCtx (mkFlags true false false false false) 9 UNSET (Some (txt "HH:mm")) in
  writeCtx c = Err NotSerializable /\ writeCtxS c = [JInt (-1); JInt 9; JText (txt "HH:mm"); JSet [LEFT_JUSTIFY]] /\ readCtxS valid (writeCtxS c) = Ok c /\
  readCtxS valid [JInt 0; JInt 100000; JNull; JSet []] = Err (Printf WidthRange) /\ readCtxS valid [JInt 0; JInt 1; JText (txt "{"); JSet []] = Err IllegalArg.
Proof. intros valid V N c. split; [reflexivity|]. split; [reflexivity|]. split; [unfold c; cbn; change [72; 72; 58; 109; 109] with (txt "HH:mm"); rewrite V; reflexivity|]. split; [reflexivity|]. cbn. change [123] with (txt "{"). rewrite N. reflexivity. Qed.
