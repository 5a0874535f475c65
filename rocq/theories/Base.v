(** Base vocabulary shared by the model: characters, text, Java machine integers, results. *)
From Coq Require Export ZArith Bool Lia Ascii String List.
Export ListNotations.
Open Scope Z_scope.

(** ** Text *)

(** A Java [char] is a UTF-16 code unit, represented by a [Z] (0..65535). *)
Notation text := (list Z) (only parsing).

Definition ch (a : ascii) : Z := Z.of_N (N_of_ascii a).

Fixpoint txt (s : string) : list Z :=
  match s with
  | EmptyString => []
  | String a r => ch a :: txt r
  end.

Definition zlen {A} (l : list A) : Z := Z.of_nat (List.length l).

(** [l.charAt(i)] when in range. *)
Definition znth {A} (l : list A) (i : Z) : option A :=
  if i <? 0 then None else nth_error l (Z.to_nat i).

(** characters [i..j-1] *)
Definition slice {A} (l : list A) (i j : Z) : list A :=
  firstn (Z.to_nat (j - i)) (skipn (Z.to_nat i) l).

Definition rep {A} (x : A) (n : Z) : list A := repeat x (Z.to_nat n).

(** ** Java integers *)

Definition wrapN (bits x : Z) : Z :=
  (x + 2 ^ (bits - 1)) mod 2 ^ bits - 2 ^ (bits - 1).
Definition wrap32 (x : Z) : Z := wrapN 32 x.
Definition wrap64 (x : Z) : Z := wrapN 64 x.

Definition int_min : Z := -2147483648.
Definition int_max : Z := 2147483647.
Definition long_min : Z := -9223372036854775808.
Definition long_max : Z := 9223372036854775807.

Definition is_int (x : Z) : Prop := int_min <= x <= int_max.
Definition is_long (x : Z) : Prop := long_min <= x <= long_max.

(** ** Results: a value or a thrown exception *)

(** Kinds of PrintfSyntaxException raised by Compiler.java. *)
Inductive syn :=
| DuplicateFlag      (* Compiler.java:73 *)
| UnexpectedEnd      (* Compiler.java:83 *)
| BadWidth           (* Compiler.java:108 *)
| BadPrecision       (* Compiler.java:140 *)
| UnclosedDate       (* Compiler.java:172-173 *)
| EmptyDate          (* Compiler.java:178 *)
| InvalidDate        (* Compiler.java:186-187 *)
| BadSpecifier.      (* Compiler.java:196-197 *)

(** Kinds of PrintfException. *)
Inductive pk :=
| WidthRange | PrecisionRange | DupFlagArg | MissingArg | NegativeUnsigned
| BadConversion | NotHex | PrimitivePointer.

Inductive exn :=
| Syntax (k : syn) (index : Z)
| Printf (k : pk)
| IndexOOB
| IllegalArg
| IllegalState
| NullPtr
| NoSuchElem
| OtherExn (n : Z)       (** exception thrown by code outside the library *)
| OutOfFuel.             (** never thrown by Java: marks an exhausted fuel argument *)

Inductive res (A : Type) :=
| Ok (a : A)
| Err (e : exn).
Arguments Ok {A} a.
Arguments Err {A} e.

Definition bind {A B} (r : res A) (f : A -> res B) : res B :=
  match r with Ok a => f a | Err e => Err e end.

Notation "'let*' x := r 'in' k" := (bind r (fun x => k))
  (at level 200, x pattern, r at level 100, k at level 200, right associativity).

(** ** Generic lemmas *)

Lemma zlen_nonneg {A} (l : list A) : 0 <= zlen l.
Proof. unfold zlen; lia. Qed.

Lemma zlen_nil {A} : zlen (@nil A) = 0.
Proof. reflexivity. Qed.

Lemma zlen_cons {A} (x : A) l : zlen (x :: l) = 1 + zlen l.
Proof. unfold zlen; cbn [List.length]; lia. Qed.

Lemma zlen_app {A} (a b : list A) : zlen (a ++ b) = zlen a + zlen b.
Proof. unfold zlen; rewrite app_length; lia. Qed.

Lemma zlen_map {A B} (f : A -> B) l : zlen (map f l) = zlen l.
Proof. unfold zlen; rewrite map_length; reflexivity. Qed.

Lemma zlen_rep {A} (x : A) n : zlen (rep x n) = Z.max 0 n.
Proof. unfold zlen, rep; rewrite repeat_length; lia. Qed.

Lemma zlen_0_nil {A} (l : list A) : zlen l = 0 -> l = [].
Proof. destruct l; [reflexivity|]. rewrite zlen_cons. pose proof (zlen_nonneg l). lia. Qed.

Lemma rep_nonpos {A} (x : A) n : n <= 0 -> rep x n = [].
Proof. intros; unfold rep. replace (Z.to_nat n) with 0%nat by lia. reflexivity. Qed.

Lemma rep_succ {A} (x : A) n : 0 <= n -> rep x (n + 1) = x :: rep x n.
Proof. intros; unfold rep. replace (Z.to_nat (n+1)) with (S (Z.to_nat n)) by lia. reflexivity. Qed.

Lemma rep_one {A} (x : A) : rep x 1 = [x].
Proof. reflexivity. Qed.

Lemma rep_add {A} (x : A) n m : 0 <= n -> 0 <= m -> rep x (n + m) = rep x n ++ rep x m.
Proof.
  intros; unfold rep. rewrite <- repeat_app. f_equal. lia.
Qed.

Lemma map_rep {A B} (f : A -> B) x n : map f (rep x n) = rep (f x) n.
Proof.
  unfold rep. induction (Z.to_nat n); cbn; [reflexivity|]. f_equal; auto.
Qed.

Lemma in_rep {A} (x y : A) n : In y (rep x n) -> y = x.
Proof. unfold rep; intros H. eapply repeat_spec; eauto. Qed.

Lemma zlen_slice {A} (l : list A) i j :
  0 <= i -> i <= j -> j <= zlen l -> zlen (slice l i j) = j - i.
Proof.
  unfold slice, zlen; intros. rewrite firstn_length, skipn_length. lia.
Qed.

Lemma slice_full {A} (l : list A) : slice l 0 (zlen l) = l.
Proof.
  unfold slice, zlen. rewrite Z.sub_0_r, Nat2Z.id. cbn. apply firstn_all.
Qed.

Lemma slice_empty {A} (l : list A) i j : j <= i -> slice l i j = [].
Proof. intros; unfold slice. replace (Z.to_nat (j-i)) with 0%nat by lia. reflexivity. Qed.

Lemma slice_app_l {A} (a b : list A) i j :
  0 <= i -> j <= zlen a -> slice (a ++ b) i j = slice a i j.
Proof.
  intros Hi Hj. unfold slice, zlen in *.
  destruct (Z_le_gt_dec j i) as [H|H].
  - replace (Z.to_nat (j-i)) with 0%nat by lia. reflexivity.
  - rewrite skipn_app, firstn_app, skipn_length.
    replace (Z.to_nat (j - i) - (List.length a - Z.to_nat i))%nat with 0%nat by lia.
    rewrite firstn_O, app_nil_r. reflexivity.
Qed.

Lemma slice_app_r {A} (a b : list A) i j :
  zlen a <= i -> slice (a ++ b) i j = slice b (i - zlen a) (j - zlen a).
Proof.
  intros Hi. unfold slice, zlen in *.
  rewrite skipn_app. rewrite skipn_all2 by lia. cbn [app].
  f_equal; [lia|]. f_equal. lia.
Qed.

Lemma slice_app_mid {A} (a b : list A) i j :
  0 <= i -> i <= zlen a -> zlen a <= j ->
  slice (a ++ b) i j = slice a i (zlen a) ++ slice b 0 (j - zlen a).
Proof.
  intros Hi Hia Hj. unfold slice, zlen in *.
  rewrite skipn_app, firstn_app, skipn_length.
  replace (Z.to_nat i - List.length a)%nat with 0%nat by lia.
  cbn [skipn]. change (Z.to_nat 0) with 0%nat. cbn [skipn].
  f_equal.
  - rewrite !firstn_all2; [reflexivity | rewrite skipn_length; lia | rewrite skipn_length; lia].
  - f_equal. lia.
Qed.

Lemma skipn_skipn' {A} (x y : nat) (l : list A) : skipn x (skipn y l) = skipn (x + y) l.
Proof.
  revert l. induction y as [|y IH]; intros l.
  - rewrite Nat.add_0_r. reflexivity.
  - rewrite Nat.add_succ_r. destruct l as [|a l]; cbn [skipn].
    + rewrite !skipn_nil. reflexivity.
    + apply IH.
Qed.

Lemma slice_slice {A} (l : list A) a b i j :
  0 <= a -> 0 <= i -> j <= b - a ->
  slice (slice l a b) i j = slice l (a + i) (a + j).
Proof.
  intros Ha Hi Hj. unfold slice.
  destruct (Z_le_gt_dec j i) as [H|H].
  { replace (Z.to_nat (j - i)) with 0%nat by lia.
    replace (Z.to_nat (a + j - (a + i))) with 0%nat by lia. reflexivity. }
  rewrite skipn_firstn_comm. rewrite firstn_firstn.
  rewrite skipn_skipn'.
  f_equal; [lia|]. f_equal. lia.
Qed.

Lemma slice_map {A B} (f : A -> B) l i j : slice (map f l) i j = map f (slice l i j).
Proof. unfold slice. rewrite skipn_map, firstn_map. reflexivity. Qed.

Lemma slice_rep {A} (x : A) n i j :
  0 <= i -> j <= n -> slice (rep x n) i j = rep x (j - i).
Proof.
  intros Hi Hj. unfold slice, rep.
  assert (Hs : forall m k, skipn m (repeat x k) = repeat x (k - m)).
  { induction m; intros [|k]; cbn; auto. }
  assert (Hf : forall m k, firstn m (repeat x k) = repeat x (Nat.min m k)).
  { induction m; intros [|k]; cbn; auto. f_equal; auto. }
  rewrite Hs, Hf. f_equal. lia.
Qed.

Lemma znth_app_l {A} (a b : list A) i : i < zlen a -> znth (a ++ b) i = znth a i.
Proof.
  unfold znth, zlen; intros. destruct (i <? 0) eqn:E; [reflexivity|].
  apply nth_error_app1. apply Z.ltb_ge in E. lia.
Qed.

Lemma znth_app_r {A} (a b : list A) i :
  zlen a <= i -> znth (a ++ b) i = znth b (i - zlen a).
Proof.
  unfold znth, zlen; intros H.
  destruct (i <? 0) eqn:E; [apply Z.ltb_lt in E; lia|].
  destruct (i - Z.of_nat (List.length a) <? 0) eqn:E2; [apply Z.ltb_lt in E2; lia|].
  rewrite nth_error_app2 by lia. f_equal. lia.
Qed.

Lemma znth_some {A} (l : list A) i : 0 <= i < zlen l -> exists x, znth l i = Some x.
Proof.
  unfold znth, zlen; intros H.
  destruct (i <? 0) eqn:E; [apply Z.ltb_lt in E; lia|].
  destruct (nth_error l (Z.to_nat i)) eqn:E2; [eauto|].
  apply nth_error_None in E2. lia.
Qed.

Lemma znth_range {A} (l : list A) i x : znth l i = Some x -> 0 <= i < zlen l.
Proof.
  unfold znth, zlen; intros H.
  destruct (i <? 0) eqn:E; [discriminate|]. apply Z.ltb_ge in E.
  assert (nth_error l (Z.to_nat i) <> None) by congruence.
  apply nth_error_Some in H0. lia.
Qed.

Lemma znth_none {A} (l : list A) i : zlen l <= i -> znth l i = None.
Proof.
  unfold znth, zlen; intros H. destruct (i <? 0); [reflexivity|].
  apply nth_error_None. lia.
Qed.

Lemma znth_map {A B} (f : A -> B) l i : znth (map f l) i = option_map f (znth l i).
Proof.
  unfold znth. destruct (i <? 0); [reflexivity|]. apply nth_error_map.
Qed.

Lemma skipn_znth {A} (l : list A) i x :
  znth l i = Some x -> skipn (Z.to_nat i) l = x :: skipn (Z.to_nat (i + 1)) l.
Proof.
  intros H. pose proof (znth_range _ _ _ H) as Hr.
  unfold znth in H. destruct (i <? 0) eqn:E; [discriminate|].
  replace (Z.to_nat (i+1)) with (S (Z.to_nat i)) by lia.
  revert H. generalize (Z.to_nat i) as n. clear.
  induction l as [|y l IH]; intros [|n] H; cbn in *; try discriminate.
  - congruence.
  - apply IH in H. exact H.
Qed.

Lemma znth_slice {A} (l : list A) a b i :
  0 <= a -> 0 <= i -> a + i < b -> znth (slice l a b) i = znth l (a + i).
Proof.
  intros Ha Hi Hb. unfold znth, slice.
  destruct (i <? 0) eqn:E; [apply Z.ltb_lt in E; lia|].
  destruct (a + i <? 0) eqn:E2; [apply Z.ltb_lt in E2; lia|].
  assert (Hf : forall n k (m : list A), (k < n)%nat -> nth_error (firstn n m) k = nth_error m k).
  { induction n; intros [|k] [|y m] Hk; cbn; try lia; auto. apply IHn. lia. }
  rewrite Hf by lia.
  assert (Hs : forall n k (m : list A), nth_error (skipn n m) k = nth_error m (n + k)%nat).
  { induction n; intros k [|y m]; cbn; auto. destruct k; reflexivity. }
  rewrite Hs. f_equal. lia.
Qed.

Lemma wrapN_id bits x :
  0 < bits -> - 2 ^ (bits - 1) <= x < 2 ^ (bits - 1) -> wrapN bits x = x.
Proof.
  intros Hb Hx. unfold wrapN.
  assert (2 ^ bits = 2 * 2 ^ (bits - 1)).
  { rewrite <- Z.pow_succ_r by lia. f_equal. lia. }
  rewrite Z.mod_small by lia. lia.
Qed.

Lemma wrap32_id x : is_int x -> wrap32 x = x.
Proof. intros H. apply wrapN_id; [lia|]. unfold is_int, int_min, int_max in H. cbn. lia. Qed.

Lemma wrap64_id x : is_long x -> wrap64 x = x.
Proof. intros H. apply wrapN_id; [lia|]. unfold is_long, long_min, long_max in H. cbn. lia. Qed.

Lemma wrapN_range bits x :
  0 < bits -> - 2 ^ (bits - 1) <= wrapN bits x < 2 ^ (bits - 1).
Proof.
  intros Hb. unfold wrapN.
  assert (2 ^ bits = 2 * 2 ^ (bits - 1)).
  { rewrite <- Z.pow_succ_r by lia. f_equal. lia. }
  assert (0 < 2 ^ (bits - 1)) by (apply Z.pow_pos_nonneg; lia).
  pose proof (Z.mod_pos_bound (x + 2 ^ (bits - 1)) (2 ^ bits) ltac:(lia)). lia.
Qed.

Lemma wrapN_mod bits x : 0 < bits -> (wrapN bits x) mod 2 ^ bits = x mod 2 ^ bits.
Proof.
  intros Hb. unfold wrapN.
  assert (0 < 2 ^ bits) by (apply Z.pow_pos_nonneg; lia).
  rewrite Zminus_mod_idemp_l. f_equal. lia.
Qed.

Lemma wrapN_eqm bits x y : 0 < bits -> x mod 2 ^ bits = y mod 2 ^ bits -> wrapN bits x = wrapN bits y.
Proof.
  intros Hb H. unfold wrapN.
  assert (0 < 2 ^ bits) by (apply Z.pow_pos_nonneg; lia).
  rewrite <- (Zplus_mod_idemp_l x), <- (Zplus_mod_idemp_l y), H. reflexivity.
Qed.
