(** C102: what the exceptions of the sequence API and of the parameter checks say. *)
From Verif Require Import Base Digits UtilsM SeqM SeqSpec SeqP SeqExpr SeqExprP ContextM CompilerM IntFormM FormatterM TraitsM ImplM ArgsM NullM SeqErrM.

(** ** Reference: the messages, and when they are due *)

Definition index_message (i n : Z) : list Z := txt "index: " ++ dec_text i ++ txt ", size: " ++ dec_text n.
Definition range_message (i j n : Z) : list Z := txt "start: " ++ dec_text i ++ txt ", end: " ++ dec_text j ++ txt ", size: " ++ dec_text n.

(** ** The messages do not change anything else *)

Lemma forget_bind {A B} (r : out A) (f : A -> out B) : forget (mbind r f) = match forget r with Ok a => forget (f a) | Err e => Err e end.
Proof. destruct r; reflexivity. Qed.
Lemma forget_jdk {A} (r : res A) : forget (jdk_text r) = r.
Proof. destruct r; reflexivity. Qed.
Lemma forget_index i n : forget (m_checkPositionIndex i n) = checkPositionIndex i n.
Proof. unfold m_checkPositionIndex, checkPositionIndex. destruct (_ || _); reflexivity. Qed.
Lemma forget_range i j n : forget (m_checkPositionIndexes i j n) = checkPositionIndexes i j n.
Proof. unfold m_checkPositionIndexes, checkPositionIndexes. destruct (_ || _); reflexivity. Qed.
Lemma forget_arg b t l : forget (m_checkArgument b t l) = checkArgument b.
Proof. destruct b; reflexivity. Qed.
Lemma forget_build act n : forget (m_buildEagerly act n) = buildEagerly act n.
Proof. unfold m_buildEagerly, buildEagerly. rewrite forget_bind, forget_jdk. destruct (act []) as [sb|]; [cbn [bind]|reflexivity]. destruct (n =? zlen sb); reflexivity. Qed.

Ltac steps := repeat (rewrite ?forget_bind, ?forget_jdk, ?forget_index, ?forget_range, ?forget_arg, ?forget_build; unfold m_jcharAt, getCachedString;
  match goal with
  | |- context [match ?r with Ok _ => _ | Err _ => _ end] => destruct r; cbn [bind]; try reflexivity
  | |- context [if ?b then _ else _] => destruct b; cbn [bind forget]; try reflexivity
  end).

Lemma forget_wrap3 s i j : forget (m_wrap3 s i j) = s_wrap3 s i j.
Proof. unfold m_wrap3, s_wrap3. steps. Qed.
Lemma forget_acharAt a i : forget (ma_charAt a i) = a_charAt a i.
Proof. destruct a; cbn [ma_charAt a_charAt]; [reflexivity|steps|steps|steps|steps; apply forget_jdk]. Qed.
Lemma forget_asub a i j : forget (ma_sub a i j) = a_sub a i j.
Proof. destruct a; cbn [ma_sub a_sub]; try (steps; fail). steps. apply forget_wrap3. Qed.
Lemma forget_sub_loop l : forall i j b, forget (m_sub_loop l i j b) = sub_loop l i j b.
Proof.
  induction l as [|a l IH]; intros i j b; [reflexivity|]. cbn [m_sub_loop sub_loop]. cbv zeta.
  destruct (i <? a_len a); [|apply IH]. destruct (j <=? a_len a); rewrite forget_bind, forget_asub; destruct (a_sub a _ _); cbn [bind]; try reflexivity. apply IH.
Qed.
Lemma forget_charAt_loop l : forall i, forget (m_charAt_loop l i) = charAt_loop l i.
Proof. induction l as [|a l IH]; intros i; [reflexivity|]. cbn [m_charAt_loop charAt_loop]. destruct (i <? a_len a); [apply forget_acharAt|apply IH]. Qed.

Theorem C102_messages_only :
  (forall s i, forget (m_charAt s i) = s_charAt s i) /\
  (forall s i j, forget (m_sub s i j) = s_sub s i j) /\
  (forall c n, forget (m_repeated c n) = s_repeated c n) /\
  (forall s i j, forget (m_wrap3 s i j) = s_wrap3 s i j) /\
  (forall s i, forget (m_wrap2 s i) = s_wrap2 s i) /\
  (forall s i n, forget (m_forArray3 s i n) = s_forArray3 s i n) /\
  (forall act n, forget (m_lazy act n) = s_lazy act n) /\
  (forall i n, forget (m_setCapacity i n) = setStringBuilderInitialCapacity i n) /\
  (forall n, of_res (forget (m_createWithExpectedSize n)) = createWithExpectedSize n) /\
  (forall v, forget (m_longToInstant v) = longToInstant v).
Proof.
  repeat apply conj.
  - intros s i. destruct s; cbn [m_charAt s_charAt]; [apply forget_acharAt| |]; rewrite forget_bind, forget_index; destruct (checkPositionIndex _ _); cbn [bind]; try reflexivity;
      rewrite forget_bind, forget_jdk; destruct (s_iter _); cbn [bind]; try reflexivity; apply forget_charAt_loop.
  - intros s i j. destruct s; cbn [m_sub s_sub]; cbv zeta.
    + rewrite forget_bind, forget_asub. destruct (a_sub a i j); reflexivity.
    + rewrite forget_bind, forget_range. destruct (checkPositionIndexes _ _ _); cbn [bind]; try reflexivity. destruct (i =? j); [reflexivity|].
      destruct ((i =? 0) && (j =? _)); [reflexivity|]. rewrite forget_bind, forget_jdk. destruct (s_iter _) as [l|]; cbn [bind]; try reflexivity.
      rewrite forget_bind, forget_sub_loop. destruct (sub_loop l i j []) as [[[b i'] j']|]; cbn [bind]; try reflexivity. destruct b as [|x [|y b]]; reflexivity.
    + rewrite forget_bind, forget_range. destruct (checkPositionIndexes _ _ _); cbn [bind]; try reflexivity. destruct (i =? j); [reflexivity|].
      destruct ((i =? 0) && (j =? _)); [reflexivity|]. rewrite forget_bind, forget_jdk. destruct (s_iter _) as [l|]; cbn [bind]; try reflexivity.
      rewrite forget_bind, forget_sub_loop. destruct (sub_loop l i j []) as [[[b i'] j']|]; cbn [bind]; try reflexivity. destruct b as [|x [|y b]]; reflexivity.
  - intros c n. unfold m_repeated, s_repeated. steps.
  - apply forget_wrap3.
  - intros s i. apply forget_wrap3.
  - intros s i n. unfold m_forArray3, s_forArray3. steps.
  - intros act n. unfold m_lazy, s_lazy. steps.
  - intros i n. unfold m_setCapacity, setStringBuilderInitialCapacity. destruct (0 <? n); reflexivity.
  - intros n. unfold m_createWithExpectedSize, createWithExpectedSize. destruct (0 <=? n); reflexivity.
  - intros v. unfold m_longToInstant, longToInstant. destruct (0 <=? v); reflexivity.
Qed.
Print Assumptions C102_messages_only.

(** ** The checks *)

Lemma index_text i n : lenientFormat (txt "index: %s, size: %s") [dec_text i; dec_text n] = index_message i n.
Proof. unfold index_message. generalize (dec_text i) (dec_text n). intros a b. unfold lenientFormat. cbn -[app]. rewrite ?app_nil_r, <- ?app_assoc. reflexivity. Qed.
Lemma range_text i j n : lenientFormat (txt "start: %s, end: %s, size: %s") [dec_text i; dec_text j; dec_text n] = range_message i j n.
Proof. unfold range_message. generalize (dec_text i) (dec_text j) (dec_text n). intros a b c. unfold lenientFormat. cbn -[app]. rewrite ?app_nil_r, <- ?app_assoc. reflexivity. Qed.

Lemma index_ok i n : 0 <= i < n -> m_checkPositionIndex i n = Val tt.
Proof. intros H. unfold m_checkPositionIndex. destruct (Z.ltb_spec i 0); [lia|]. destruct (Z.leb_spec n i); [lia|]. reflexivity. Qed.
Lemma index_bad i n : ~ (0 <= i < n) -> m_checkPositionIndex i n = Throw IndexOOB (Says (index_message i n)).
Proof. intros H. unfold m_checkPositionIndex. rewrite index_text. destruct (Z.ltb_spec i 0); [reflexivity|]. destruct (Z.leb_spec n i); [reflexivity|lia]. Qed.
Lemma range_ok i j n : 0 <= i /\ i <= j /\ j <= n -> m_checkPositionIndexes i j n = Val tt.
Proof. intros H. unfold m_checkPositionIndexes. destruct (Z.ltb_spec i 0); [lia|]. destruct (Z.ltb_spec j i); [lia|]. destruct (Z.ltb_spec n j); [lia|]. reflexivity. Qed.
Lemma range_bad i j n : ~ (0 <= i /\ i <= j /\ j <= n) -> m_checkPositionIndexes i j n = Throw IndexOOB (Says (range_message i j n)).
Proof.
  intros H. unfold m_checkPositionIndexes. rewrite range_text. destruct (Z.ltb_spec i 0); [reflexivity|]. destruct (Z.ltb_spec j i); [reflexivity|].
  destruct (Z.ltb_spec n j); [reflexivity|lia].
Qed.

(** ** charAt and subSequence *)

Lemma no_error {A} (r : out A) a : forget r = Ok a -> r = Val a.
Proof. destruct r; cbn; congruence. Qed.

(** Every public expression of type Seq, every index: the character, or an IndexOutOfBoundsException that names the index and the length of the text;
    EmptySeq names the index only. *)
Theorem C102_charAt : forall e t i, stext e = Some t ->
  exists s, seval e = Ok s /\
    m_charAt s i = match znth t i with
                   | Some c => Val c
                   | None => Throw IndexOOB (Says (match s with Leaf AEmpty => dec_text i | _ => index_message i (zlen t) end))
                   end.
Proof.
  intros e t i He. destruct (seval_den e t He) as (s & Es & Hd). exists s. split; [exact Es|].
  destruct (znth t i) as [c|] eqn:Hc.
  - apply no_error. rewrite (proj1 C102_messages_only). apply (s_charAt_ok s t i c Hd Hc).
  - assert (~ (0 <= i < zlen t)) as Hi. { intros H. destruct (znth_some t i H) as [c E]. congruence. }
    pose proof (den_len _ _ Hd) as Hl. destruct s as [a| |]; cbn [m_charAt s_len] in *.
    + destruct a; cbn [ma_charAt a_len] in *; [reflexivity| | | |]; rewrite Hl, index_bad by assumption; reflexivity.
    + rewrite Hl, index_bad by assumption. reflexivity.
    + rewrite Hl, index_bad by assumption. reflexivity.
Qed.
Print Assumptions C102_charAt.

Theorem C102_subSequence : forall e t i j, stext e = Some t ->
  exists s, seval e = Ok s /\
    (0 <= i /\ i <= j /\ j <= zlen t -> exists u, m_sub s i j = Val u /\ s_toString u = Ok (slice t i j)) /\
    (~ (0 <= i /\ i <= j /\ j <= zlen t) ->
       m_sub s i j = match s with Leaf AEmpty => Throw IllegalArg Null | _ => Throw IndexOOB (Says (range_message i j (zlen t))) end).
Proof.
  intros e t i j He. destruct (seval_den e t He) as (s & Es & Hd). exists s. split; [exact Es|]. split.
  - intros (H1 & H2 & H3). destruct (seval_sub e t i j He H1 H2 H3) as (s' & u & Es' & Hu & Ht & _).
    rewrite Es in Es'. injection Es' as <-. exists u. split; [|exact Ht]. apply no_error. rewrite (proj1 (proj2 C102_messages_only)). exact Hu.
  - intros Hi. pose proof (den_len _ _ Hd) as Hl. destruct s as [a| |]; cbn [m_sub s_len] in *.
    + destruct a; cbn [ma_sub a_len] in *.
      * destruct (Z.eqb_spec i 0); destruct (Z.eqb_spec j 0); cbn; try reflexivity. exfalso. apply Hi. lia.
      * rewrite Hl, range_bad by assumption. reflexivity.
      * rewrite Hl, range_bad by assumption. reflexivity.
      * rewrite Hl, range_bad by assumption. reflexivity.
      * rewrite Hl, range_bad by assumption. reflexivity.
    + cbv zeta. rewrite Hl, range_bad by assumption. reflexivity.
    + cbv zeta. rewrite Hl, range_bad by assumption. reflexivity.
Qed.
Print Assumptions C102_subSequence.

(** *** The parameter checks of the makers *)

Theorem C102_makers :
  (forall c n, m_repeated c n = if 1 <=? n then Val (ARep c n) else Throw IllegalArg (Says (txt "count < 1"))) /\
  (forall s i j, ~ (0 <= i /\ i <= j /\ j <= zlen s) -> m_wrap3 s i j = Throw IndexOOB (Says (range_message i j (zlen s)))) /\
  (forall s i, ~ (0 <= i <= zlen s) -> m_wrap2 s i = Throw IndexOOB (Says (range_message i (zlen s) (zlen s)))) /\
  (forall act n, n < 0 -> m_lazy act n = Throw IllegalArg (Says (txt "length < 0"))) /\
  (forall i n, n <= 0 -> m_setCapacity i n = Throw IllegalArg (Says (txt "capacity must be positive"))) /\
  (forall n, n < 0 -> m_createWithExpectedSize n = Throw IllegalArg (Says (txt "expectedSize must be non-negative"))) /\
  (forall v, v < 0 -> m_longToInstant v = Throw IllegalArg (Says (txt "The value must not be negative, but was: " ++ dec_text v))).
Proof.
  repeat apply conj.
  - intros c n. unfold m_repeated, m_checkArgument, s_ch. destruct (1 <=? n); cbn [mbind]; [|reflexivity]. destruct (Z.eqb_spec n 1) as [->|]; reflexivity.
  - intros s i j H. unfold m_wrap3. rewrite range_bad by assumption. reflexivity.
  - intros s i H. unfold m_wrap2, m_wrap3. rewrite range_bad by lia. reflexivity.
  - intros act n H. unfold m_lazy, m_checkArgument. destruct (Z.leb_spec 0 n); [lia|]. reflexivity.
  - intros i n H. unfold m_setCapacity, m_checkArgument. destruct (Z.ltb_spec 0 n); [lia|]. reflexivity.
  - intros n H. unfold m_createWithExpectedSize, m_checkArgument. destruct (Z.leb_spec 0 n); [lia|]. reflexivity.
  - intros v H. unfold m_longToInstant, m_checkLongArgument. destruct (Z.leb_spec 0 v); [lia|]. cbn [mbind]. f_equal. f_equal.
    generalize (dec_text v). intros a. unfold lenientFormat. cbn -[app]. rewrite ?app_nil_r, <- ?app_assoc. reflexivity.
Qed.
Print Assumptions C102_makers.

(** forArray with a part of the array that does not exist: the message is about the end, computed in int arithmetic *)
Theorem C102_forArray : forall s i n, is_int i -> is_int n -> zlen s <= int_max ->
  ~ (0 <= i /\ 0 <= n /\ i + n <= zlen s) -> m_forArray3 s i n = Throw IndexOOB (Says (range_message i (wrap32 (i + n)) (zlen s))).
Proof.
  intros s i n Hi Hn Hs H. unfold m_forArray3. rewrite range_bad; [reflexivity|]. intros (H1 & H2 & H3). apply H.
  unfold is_int, int_min, int_max in *. pose proof (Zle_0_nat (List.length s)) as Hz. fold (zlen s) in Hz.
  unfold wrap32, wrapN in *. change (2 ^ (32 - 1)) with 2147483648 in *. change (2 ^ 32) with 4294967296 in *.
  pose proof (Z.div_mod (i + n + 2147483648) 4294967296 ltac:(lia)) as D. pose proof (Z.mod_pos_bound (i + n + 2147483648) 4294967296 ltac:(lia)). lia.
Qed.
Print Assumptions C102_forArray.

(** A LazySeq whose action does not write as many characters as announced says both counts. *)
Theorem C102_lazy_mismatch : forall act n w, act [] = Ok w -> zlen w <> n ->
  m_buildEagerly act n = Throw IllegalState (Says (txt "Length mismatch: expected " ++ dec_text n ++ txt " but got " ++ dec_text (zlen w))).
Proof. intros act n w Ha Hn. unfold m_buildEagerly. rewrite Ha. cbn [jdk_text mbind]. destruct (Z.eqb_spec n (zlen w)); [lia|reflexivity]. Qed.
Print Assumptions C102_lazy_mismatch.

(** *** Where the messages mislead *)

(** the empty sequence: another exception, and no message at all *)
Theorem C102_empty_refuted : exists e s, stext e = Some [] /\ seval e = Ok s /\
  m_charAt s 5 = Throw IndexOOB (Says (txt "5")) /\ m_sub s 0 1 = Throw IllegalArg Null.
Proof. exists (Xatom Xempty). eexists. repeat split. Qed.
Print Assumptions C102_empty_refuted.

(** an end that was not asked for: forArray(ch, 2, Integer.MAX_VALUE) *)
Theorem C102_forArray_refuted : m_forArray3 (txt "abc") 2 int_max = Throw IndexOOB (Says (txt "start: 2, end: -2147483647, size: 3")).
Proof. vm_compute. reflexivity. Qed.
Print Assumptions C102_forArray_refuted.

(** a slice of a composite sequence: "bc" has size 1 for charAt(1) *)
Theorem C102_slice_refuted : exists e s u, seval e = Ok s /\ m_sub s 1 3 = Val u /\ s_toString u = Ok (txt "bc") /\
  m_charAt u 1 = Throw IndexOOB (Says (txt "index: 1, size: 1")).
Proof.
  exists (Xconcat (Xatom (Xwrap (txt "ab"))) (Xatom (Xwrap (txt "cd")))). eexists _, _. split; [reflexivity|]. split; [reflexivity|]. split; vm_compute; reflexivity.
Qed.
Print Assumptions C102_slice_refuted.

Example C102_example :
  m_charAt (Leaf (s_wrap (txt "abc"))) (-1) = Throw IndexOOB (Says (txt "index: -1, size: 3")) /\
  m_charAt (Leaf (s_wrap (txt "abc"))) 2 = Val (ch "c") /\
  m_sub (Leaf (s_wrap (txt "abc"))) 2 4 = Throw IndexOOB (Says (txt "start: 2, end: 4, size: 3")) /\
  m_repeated (ch "x") 0 = Throw IllegalArg (Says (txt "count < 1")) /\
  m_longToInstant (-7) = Throw IllegalArg (Says (txt "The value must not be negative, but was: -7")) /\
  m_lazy (fun sb => Ok (sb ++ txt "ab")) 1 = Throw IllegalState (Says (txt "Length mismatch: expected 1 but got 2")).
Proof. vm_compute. repeat split; reflexivity. Qed.
