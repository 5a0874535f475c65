(** C90: the number of leaves of a sequence, and what happens when it, or the length, exceeds the int type. *)
From Verif Require Import Base Digits UtilsM SeqM SeqSpec SeqP ContextM CompilerM IntFormM FormatterM TraitsM ImplM LoopSpec ImplP LoopP
  SeqExpr PropsValue UserM PropsUser CountM CountSpec CountP.

(** C90: the number of leaves every operation records is right up to wrapping around *)
Theorem C90_counts :
  (forall s, tallied s -> elementCount s = wrap32 (size s)) /\
  (forall s x, tallied s -> tallied x ->
    tallied (s_concat s x) /\ size (s_concat s x) = size s + size x /\
    tallied (s_append s x) /\ size (s_append s x) <= size s + size x /\
    tallied (s_prepend s x) /\ size (s_prepend s x) <= size s + size x) /\
  (forall s i j u, tallied s -> 1 <= size s <= int_max -> s_sub s i j = Ok u -> tallied u /\ size u <= size s) /\
  (forall s u, tallied s -> size s <= int_max -> s_upper s = Ok u -> tallied u /\ size u <= size s).
Proof.
  split; [exact count_is|]. split; [|split].
  - intros s x Hs Hx. destruct (concat_tallied s x Hs Hx) as [A B]. destruct (append_tallied s x Hs Hx) as [C D].
    destruct (prepend_tallied s x Hs Hx) as [E F]. auto 10.
  - intros s i j u Hs [H1 H2] E. exact (few_sub (size s) s i j H1 H2 (conj Hs (Z.le_refl _)) u E).
  - intros s u Hs H E. exact (few_upper (size s) s H (conj Hs (Z.le_refl _)) u E).
Qed.
Print Assumptions C90_counts.

(** C90: upperCase() and toString() fail for lack of a capacity exactly when the recorded number, or length, is negative *)
Theorem C90_capacities : forall s,
  (c_upper s = match s with Cat _ _ _ k => if 0 <=? k then s_upper s else Err IllegalArg | _ => s_upper s end) /\
  (c_toString s = match s with Leaf _ => s_toString s | _ => if s_len s <? 0 then Err (OtherExn 2) else s_toString s end) /\
  (tallied s -> size s <= int_max -> c_upper s = s_upper s) /\
  (tallied s -> int_max < size s <= 4294967295 -> (exists l r n k, s = Cat l r n k) -> c_upper s = Err IllegalArg).
Proof.
  intros s. split; [|split; [|split]].
  - destruct s as [a|l r n k|ps n]; try reflexivity. cbn [c_upper]. destruct (0 <=? k); reflexivity.
  - destruct s; reflexivity.
  - intros H B. apply upper_is. split; assumption.
  - intros H B (l & r & n & k & ->). destruct H as (_ & _ & ->). cbn [c_upper].
    assert (W : wrap32 (size (Cat l r n k)) = size (Cat l r n k) - 4294967296).
    { cbn [size] in *. unfold wrap32, wrapN. change (2 ^ 32) with 4294967296. change (2 ^ (32 - 1)) with 2147483648. unfold int_max in B.
      rewrite <- (Z.mod_unique (size l + size r + 2147483648) 4294967296 1 (size l + size r - 2147483648)) by lia. lia. }
    rewrite W. cbn [size] in *. replace (0 <=? _) with false by (symmetry; apply Z.leb_gt; lia). reflexivity.
Qed.
Print Assumptions C90_capacities.

(** C90: a call whose sequence arguments have fewer than 2^31 - 1 leaves each and lengths that are not negative is the call the
    other files describe: no capacity is negative, whatever the format *)
Theorem C90_calls_partial : forall J dtf src ds args, compile dtf src = Ok ds -> Forall moderate args ->
  forall sb target, c_formatInto J sb ds (map (strict J) args) target = formatInto J sb ds (map (loose J) args) target.
Proof. intros J dtf src ds args _ H sb target. apply c_formatInto_is. exact H. Qed.
Print Assumptions C90_calls_partial.

(** C90: so is an expression that asks for at most 2^31 - 1 leaves *)
Theorem C90_expressions_partial : forall e, parts e <= int_max -> c_seval e = seval e.
Proof. intros e H. exact (proj1 (c_seval_is e H)). Qed.
Print Assumptions C90_expressions_partial.

(** C90: doubling a sequence n times *)
Theorem C90_doubling : forall n s, tallied s -> elementCount (doubled n s) = wrap32 (2 ^ Z.of_nat n * size s).
Proof. intros n s H. destruct (doubled_tallied s n H) as [A <-]. apply count_is. exact A. Qed.
Print Assumptions C90_doubling.

(** ** the limits are reached *)

Lemma shown_by (J : jdk) (sb : bool) (c : ctx) (q : seq) (r : refslot) : width c = 0 -> c_prec c = UNSET -> isPrecedingWidth c = false -> 0 <= s_len q ->
  (forall emitted, (if sb then emitSB else emitApp) q [] = (emitted, None) ->
    c_formatInto J sb [Default Ss c] [c_traitsOf J (VSeq q) r] [] = (emitted, None)) /\
  (forall e, c_upper q = Err e -> c_formatInto J sb [Default SS c] [c_traitsOf J (VSeq q) r] [] = ([], Some e)).
Proof.
  intros Hw Hp Hs Hl. unfold c_formatInto.
  assert (F : fmt_s c q = Ok q).
  { unfold fmt_s, isPrecisionSet. rewrite Hp, Z.eqb_refl. cbn [negb andb bind]. unfold spaceJustify. rewrite Hw.
    replace (s_len q <? 0) with false by (symmetry; apply Z.ltb_ge; exact Hl). reflexivity. }
  assert (R : forall it, resolveCtx c it = Ok (c, it)).
  { intros it. unfold resolveCtx. rewrite Hs. cbn [bind]. unfold isPrecedingPrecision. rewrite Hp. reflexivity. }
  split.
  - intros t E. cbn [c_run c_appendOne]. rewrite R. cbn [bind]. cbn [c_formatterFor lower formatterFor c_traitsOf charSeqTraits t_asSeq bind].
    rewrite F. cbn [bind]. rewrite E. reflexivity.
  - intros e E. cbn [c_run c_appendOne]. rewrite R. cbn [bind]. unfold c_formatterFor. cbn [lower formatterFor c_traitsOf charSeqTraits t_asSeq bind].
    rewrite F. cbn [bind]. rewrite E. reflexivity.
Qed.

(** C90 is false without the limit on the number of leaves: after 31 doublings the empty sequence still has the length 0, "%s"
    prints it, but upperCase() and "%S" throw an IllegalArgumentException *)
Theorem C90_upper_case_refuted : exists s, s = doubled 31 (Leaf AEmpty) /\ den s [] /\ elementCount s = int_min /\
  (exists u, s_upper s = Ok u) /\ c_upper s = Err IllegalArg /\
  exists d1 d2, compile (fun _ => true) (txt "%s") = Ok d1 /\ compile (fun _ => true) (txt "%S") = Ok d2 /\
    forall J sb r, c_formatInto J sb d1 [c_traitsOf J (VSeq s) r] [] = ([], None) /\
      c_formatInto J sb d2 [c_traitsOf J (VSeq s) r] [] = ([], Some IllegalArg).
Proof.
  eexists. split; [reflexivity|]. pose proof (doubled_empty 31) as D. split; [exact D|].
  assert (N : elementCount (doubled 31 (Leaf AEmpty)) = int_min).
  { rewrite C90_doubling by exact I. reflexivity. }
  split; [exact N|]. split; [destruct (s_upper_den _ _ D) as (u & E & _); exists u; exact E|].
  assert (U : c_upper (doubled 31 (Leaf AEmpty)) = Err IllegalArg).
  { revert N. generalize (doubled 31 (Leaf AEmpty)). intros [a|l r n k|ps n]; cbn [elementCount]; intros N.
    - discriminate N.
    - subst k. reflexivity.
    - pose proof (zlen_nonneg ps). unfold int_min in N. lia. }
  split; [exact U|]. revert D U. generalize (doubled 31 (Leaf AEmpty)). intros s D U.
  eexists. eexists. split; [vm_compute; reflexivity|]. split; [vm_compute; reflexivity|]. intros J sb r.
  split; apply shown_by; try reflexivity; try (rewrite (den_len _ _ D); cbn; lia); [|exact U].
  apply (wden_emits _ _ _ [] (emits_if sb) (den_wden _ _ D)).
Qed.
Print Assumptions C90_upper_case_refuted.

(** C90: two sequences of 2^30 characters one after the other have a negative length; toString(), with which the conversions to
    numbers begin, then throws a NegativeArraySizeException *)
Theorem C90_to_string_refuted : exists s, s = s_concat (Leaf (ARep 120 1073741824)) (Leaf (ARep 120 1073741824)) /\
  s_len s = int_min /\ c_toString s = Err (OtherExn 2) /\ exists d, compile (fun _ => true) (txt "%d") = Ok d /\
    forall J sb r, c_formatInto J sb d [c_traitsOf J (VSeq s) r] [] = ([], Some (OtherExn 2)).
Proof.
  eexists. split; [reflexivity|]. split; [reflexivity|]. split; [reflexivity|].
  eexists. split; [vm_compute; reflexivity|]. intros J [] r; reflexivity.
Qed.
Print Assumptions C90_to_string_refuted.

(** ** Examples *)
Example C90_example :
  let s := s_append (s_append (Leaf (s_wrap (txt "ab"))) (Leaf (s_wrap (txt "cd")))) (Leaf (s_wrap (txt "ef"))) in
  tallied s /\ size s = 3 /\ elementCount s = 3 /\ moderate (Some (VSeq s, RPrimitive)) /\
  exists d, compile (fun _ => true) (txt "<%7S|%s>") = Ok d /\
    c_formatInto J2 true d (map (strict J2) [Some (VSeq s, RPrimitive); None]) [] = (txt "< ABCDEF|null>", None).
Proof.
  cbv zeta. split; [cbn; auto|]. split; [reflexivity|]. split; [reflexivity|]. split; [cbn; unfold int_max; intuition lia|].
  eexists. split; [vm_compute; reflexivity|]. vm_compute. reflexivity.
Qed.

Example C90_expression_example : let e := Xupper (Xconcat (Xatom (Xwrap (txt "ab"))) (Xjoin [Xch 99; Xwrap (txt "de")])) in
  parts e = 3 /\ exists s, c_seval e = Ok s /\ s_toString s = Ok (txt "ABCDE").
Proof. cbv zeta. split; [reflexivity|]. eexists. split; [vm_compute; reflexivity|]. vm_compute. reflexivity. Qed.

(** the number of leaves a class outside the library claims to have goes into the same capacity: an [AtomicSeq] whose
    elementCount() is -5 is printed by "%s", "%4s" and "%S", but not by "%4S" *)
Definition miscounting : cls (list Z) :=
  let k := simple_class true in
  mkCls (list Z) (u_atomic k) (u_len k) (u_at k) (u_sub k) (u_up k) (u_sb k) (u_app k) (fun _ => -5) (u_str k).
Example C90_user_counts_example :
  let call f := match compile (fun _ => true) f with Ok d => u_run miscounting J2 true d [Own1 (txt "ab") RPrimitive] [] | Err e => ([], Some e) end in
  call (txt "%s") = (txt "ab", None) /\ call (txt "%4s") = (txt "  ab", None) /\ call (txt "%S") = (txt "AB", None) /\
  call (txt "%4S") = ([], Some IllegalArg).
Proof. cbv zeta. repeat split; vm_compute; reflexivity. Qed.
