(** Proofs: the sequence model refines lists of characters. *)
From Verif Require Import Base Digits UtilsM SeqM SeqSpec.

(** ** upper-casing *)

Lemma toUpperCase_spec c : toUpperCase c = ascii_upper c.
Proof.
  unfold toUpperCase, ascii_upper, isLowerCase.
  destruct ((97 <=? c) && (c <=? 122)) eqn:E; [|reflexivity].
  apply andb_prop in E as [E1 E2]. apply Z.leb_le in E1, E2.
  assert (H : forallb (fun k => Z.lxor (97 + Z.of_nat k) 32 =? 97 + Z.of_nat k - 32) (List.seq 0 26) = true)
    by (vm_compute; reflexivity).
  rewrite forallb_forall in H.
  specialize (H (Z.to_nat (c - 97))).
  rewrite in_seq in H. specialize (H ltac:(lia)).
  apply Z.eqb_eq in H. rewrite Z2Nat.id in H by lia.
  replace (97 + (c - 97)) with c in H by lia. exact H.
Qed.

Lemma toUpperCaseArr_spec l : toUpperCaseArr l = map ascii_upper l.
Proof.
  unfold toUpperCaseArr. apply map_ext. intros c. apply toUpperCase_spec.
Qed.

Lemma toUpperCaseStr_spec l : toUpperCaseStr l = map ascii_upper l.
Proof.
  induction l as [|c r IH]; cbn [toUpperCaseStr]; [reflexivity|].
  destruct (isLowerCase c) eqn:E.
  - apply toUpperCaseArr_spec.
  - cbn [map]. rewrite IH. f_equal. rewrite <- toUpperCase_spec. unfold toUpperCase. rewrite E. reflexivity.
Qed.

Lemma ascii_upper_idem c : ascii_upper (ascii_upper c) = ascii_upper c.
Proof.
  unfold ascii_upper. destruct ((97 <=? c) && (c <=? 122)) eqn:E.
  - apply andb_prop in E as [E1 E2]. apply Z.leb_le in E1, E2.
    replace ((97 <=? c - 32) && (c - 32 <=? 122)) with false; [reflexivity|].
    symmetry. apply andb_false_intro1. apply Z.leb_gt. lia.
  - rewrite E. reflexivity.
Qed.

(** ** character access *)

Lemma jcharAt_ok s i c : znth s i = Some c -> jcharAt s i = Ok c.
Proof. unfold jcharAt; intros ->; reflexivity. Qed.

Lemma checkIdx_ok i n : 0 <= i < n -> checkPositionIndex i n = Ok tt.
Proof.
  unfold checkPositionIndex; intros.
  replace (i <? 0) with false by (symmetry; apply Z.ltb_ge; lia).
  replace (n <=? i) with false by (symmetry; apply Z.leb_gt; lia). reflexivity.
Qed.

Lemma checkIdx_bad i n : ~ (0 <= i < n) -> checkPositionIndex i n = Err IndexOOB.
Proof.
  unfold checkPositionIndex; intros.
  destruct (i <? 0) eqn:E; [reflexivity|]. apply Z.ltb_ge in E.
  replace (n <=? i) with true by (symmetry; apply Z.leb_le; lia). reflexivity.
Qed.

Lemma checkIdxs_ok i j n : 0 <= i -> i <= j -> j <= n -> checkPositionIndexes i j n = Ok tt.
Proof.
  unfold checkPositionIndexes; intros.
  replace (i <? 0) with false by (symmetry; apply Z.ltb_ge; lia).
  replace (j <? i) with false by (symmetry; apply Z.ltb_ge; lia).
  replace (n <? j) with false by (symmetry; apply Z.ltb_ge; lia). reflexivity.
Qed.

Lemma checkIdxs_bad i j n : ~ (0 <= i /\ i <= j /\ j <= n) -> checkPositionIndexes i j n = Err IndexOOB.
Proof.
  unfold checkPositionIndexes; intros.
  destruct (i <? 0) eqn:E; [reflexivity|]. apply Z.ltb_ge in E.
  destruct (j <? i) eqn:E2; [reflexivity|]. apply Z.ltb_ge in E2.
  replace (n <? j) with true by (symmetry; apply Z.ltb_lt; lia). reflexivity.
Qed.

Lemma den_atom_len a t : den_atom a t -> a_len a = zlen t.
Proof.
  intros [Hm H]. destruct a; cbn [a_len].
  - subst; reflexivity.
  - destruct H as [H1 ->]. rewrite zlen_rep. lia.
  - destruct H as (H1 & H2 & H3 & ->). destruct up; rewrite ?zlen_map, zlen_slice; lia.
  - destruct H as (H1 & H2 & H3 & ->). destruct up; rewrite ?zlen_map, zlen_slice; lia.
  - destruct H as [H _]. exact H.
Qed.

Lemma build_ok act t : (forall sb, act sb = Ok (sb ++ t)) -> buildEagerly act (zlen t) = Ok t.
Proof.
  intros H. unfold buildEagerly. rewrite H. cbn [bind app]. rewrite Z.eqb_refl. reflexivity.
Qed.

Lemma upIf_map (up : bool) (s : list Z) i :
  znth (if up then map ascii_upper s else s) i = option_map (upIf up) (znth s i).
Proof.
  destruct up; cbn [upIf].
  - rewrite znth_map. destruct (znth s i); cbn; [|reflexivity]. unfold upIf. rewrite toUpperCase_spec. reflexivity.
  - destruct (znth s i); reflexivity.
Qed.

Lemma view_charAt s st n (up : bool) i :
  0 <= st -> st + n <= zlen s -> 0 <= i < n ->
  exists c, jcharAt s (st + i) = Ok c /\
    znth (if up then map ascii_upper (slice s st (st + n)) else slice s st (st + n)) i = Some (upIf up c).
Proof.
  intros Hst Hn Hi. destruct (znth_some s (st + i)) as [c Hc]; [lia|].
  exists c. split; [apply jcharAt_ok; exact Hc|].
  rewrite upIf_map. rewrite znth_slice by lia. rewrite Hc. reflexivity.
Qed.

Lemma a_charAt_ok a t i c : den_atom a t -> znth t i = Some c -> a_charAt a i = Ok c.
Proof.
  intros Hd Hc. pose proof (znth_range _ _ _ Hc) as Hr. pose proof (den_atom_len _ _ Hd) as Hl.
  destruct Hd as [Hm H]. destruct a; cbn [a_charAt a_len] in *.
  - subst t. cbn in Hr. lia.
  - destruct H as [H1 Ht]. rewrite checkIdx_ok by lia. cbn.
    rewrite Ht in Hc. unfold znth in Hc. destruct (i <? 0); [discriminate|].
    apply nth_error_In in Hc. apply in_rep in Hc. congruence.
  - destruct H as (H1 & H2 & H3 & Ht). rewrite checkIdx_ok by lia. cbn.
    destruct (view_charAt s start len up i) as (x & E1 & E2); try lia.
    rewrite E1. cbn. rewrite Ht in Hc. congruence.
  - destruct H as (H1 & H2 & H3 & Ht). rewrite checkIdx_ok by lia. cbn.
    destruct (view_charAt a start len up i) as (x & E1 & E2); try lia.
    rewrite E1. cbn. rewrite Ht in Hc. congruence.
  - destruct H as [H1 H2]. rewrite checkIdx_ok by lia. cbn.
    unfold getCachedString. rewrite H1, build_ok by exact H2. cbn. apply jcharAt_ok; exact Hc.
Qed.

Lemma a_charAt_bad a t i : den_atom a t -> ~ (0 <= i < zlen t) -> a_charAt a i = Err IndexOOB.
Proof.
  intros Hd Hi. pose proof (den_atom_len _ _ Hd) as Hl. rewrite <- Hl in Hi.
  destruct a; cbn [a_charAt a_len] in *; [reflexivity|..]; rewrite checkIdx_bad by lia; reflexivity.
Qed.

(** ** factories *)

Lemma s_ch_den c : den_atom (s_ch c) [c].
Proof. split; [vm_compute; discriminate|]. cbn. split; [lia|reflexivity]. Qed.

Lemma s_repeated_den c n : 1 <= n <= int_max -> exists a, s_repeated c n = Ok a /\ den_atom a (rep c n).
Proof.
  intros H. unfold s_repeated, checkArgument.
  replace (1 <=? n) with true by (symmetry; apply Z.leb_le; lia). cbn.
  destruct (n =? 1) eqn:E.
  - apply Z.eqb_eq in E. subst. eexists; split; [reflexivity|]. apply s_ch_den.
  - eexists; split; [reflexivity|]. split; [rewrite zlen_rep; lia|]. cbn. split; [lia|reflexivity].
Qed.

Lemma s_wrap_den s : zlen s <= int_max -> den_atom (s_wrap s) s.
Proof.
  intros Hm. unfold s_wrap. destruct (0 <? zlen s) eqn:E.
  - apply Z.ltb_lt in E. destruct s as [|c [|d r]].
    + cbn in E. lia.
    + apply s_ch_den.
    + split; [exact Hm|]. cbn beta iota. repeat split; try lia.
      rewrite Z.add_0_l. symmetry. apply slice_full.
  - apply Z.ltb_ge in E. pose proof (zlen_nonneg s).
    assert (s = []) as -> by (apply zlen_0_nil; lia). split; [exact Hm|reflexivity].
Qed.

Lemma slice_one {A} (s : list A) i c : znth s i = Some c -> slice s i (i + 1) = [c].
Proof.
  intros H. unfold slice. rewrite (skipn_znth _ _ _ H).
  replace (Z.to_nat (i + 1 - i)) with 1%nat by lia. reflexivity.
Qed.

Lemma s_wrap3_den s i j :
  zlen s <= int_max -> 0 <= i -> i <= j -> j <= zlen s ->
  exists a, s_wrap3 s i j = Ok a /\ den_atom a (slice s i j).
Proof.
  intros Hm Hi Hij Hj. unfold s_wrap3. rewrite checkIdxs_ok by lia. cbn.
  destruct (i =? j) eqn:E.
  - apply Z.eqb_eq in E. subst. eexists; split; [reflexivity|].
    rewrite slice_empty by lia. split; [vm_compute; discriminate|reflexivity].
  - apply Z.eqb_neq in E. destruct (j =? i + 1) eqn:E2.
    + apply Z.eqb_eq in E2. destruct (znth_some s i) as [c Hc]; [lia|].
      rewrite (jcharAt_ok _ _ _ Hc). cbn. eexists; split; [reflexivity|].
      subst j. rewrite (slice_one _ _ _ Hc). apply s_ch_den.
    + eexists; split; [reflexivity|]. split; [rewrite zlen_slice; lia|]. cbn.
      repeat split; try lia. f_equal; lia.
Qed.

Lemma s_wrap3_bad s i j : ~ (0 <= i /\ i <= j /\ j <= zlen s) -> s_wrap3 s i j = Err IndexOOB.
Proof. intros. unfold s_wrap3. rewrite checkIdxs_bad by lia. reflexivity. Qed.

Lemma s_forArray_den s : zlen s <= int_max -> den_atom (s_forArray s) s.
Proof.
  intros Hm. split; [exact Hm|]. cbn. pose proof (zlen_nonneg s). repeat split; try lia.
  rewrite slice_full. reflexivity.
Qed.

Lemma s_forArray3_den s i n :
  zlen s <= int_max -> 0 <= i -> 0 <= n -> i + n <= zlen s ->
  s_forArray3 s i n = Ok (AArr s i n false) /\ den_atom (AArr s i n false) (slice s i (i + n)).
Proof.
  intros Hm Hi Hn Hj. unfold s_forArray3.
  rewrite wrap32_id by (unfold is_int, int_min in *; lia).
  rewrite checkIdxs_ok by lia. split; [reflexivity|].
  split; [rewrite zlen_slice; lia|]. cbn. repeat split; lia.
Qed.

Lemma s_forArray3_bad s i n :
  zlen s <= int_max -> is_int i -> is_int n -> ~ (0 <= i /\ 0 <= n /\ i + n <= zlen s) ->
  s_forArray3 s i n = Err IndexOOB.
Proof.
  intros Hm Hi Hn Hb. unfold s_forArray3. rewrite checkIdxs_bad; [reflexivity|].
  intros (H1 & H2 & H3). apply Hb. unfold is_int, int_min, int_max in *.
  unfold wrap32, wrapN in *. change (2 ^ 32) with 4294967296 in *.
  change (2 ^ (32 - 1)) with 2147483648 in *.
  pose proof (zlen_nonneg s).
  destruct (Z_lt_le_dec (i + n) 2147483648) as [L|L].
  - rewrite Z.mod_small in * by lia. lia.
  - assert ((i + n + 2147483648) mod 4294967296 = i + n + 2147483648 - 4294967296) as E.
    { symmetry. apply (Z.mod_unique_pos _ _ 1); lia. }
    rewrite E in *. lia.
Qed.

Lemma s_lazy_den t act :
  zlen t <= int_max -> (forall sb, act sb = Ok (sb ++ t)) ->
  exists a, s_lazy act (zlen t) = Ok a /\ den_atom a t.
Proof.
  intros Hm Ha. unfold s_lazy, checkArgument. pose proof (zlen_nonneg t).
  replace (0 <=? zlen t) with true by (symmetry; apply Z.leb_le; lia). cbn.
  destruct (zlen t =? 0) eqn:E.
  - apply Z.eqb_eq in E. apply zlen_0_nil in E. subst t. eexists; split; [reflexivity|].
    split; [exact Hm|reflexivity].
  - destruct (zlen t =? 1) eqn:E2.
    + apply Z.eqb_eq in E2. rewrite build_ok by exact Ha. cbn.
      destruct t as [|c r]; [rewrite zlen_nil in E2; discriminate|].
      rewrite zlen_cons in E2. assert (r = []) as -> by (apply zlen_0_nil; lia).
      cbn. eexists; split; [reflexivity|]. apply s_ch_den.
    + eexists; split; [reflexivity|]. split; [exact Hm|]. split; [reflexivity|exact Ha].
Qed.

(** ** atom operations *)

Lemma zlen_slice_le {A} (s : list A) i j : zlen (slice s i j) <= zlen s.
Proof. unfold slice, zlen. rewrite firstn_length, skipn_length. lia. Qed.

Lemma view_slice s st n i j (up : bool) :
  0 <= st -> 0 <= i -> j <= n ->
  slice (if up then map ascii_upper (slice s st (st + n)) else slice s st (st + n)) i j =
  (if up then map ascii_upper (slice s (st + i) (st + i + (j - i)))
   else slice s (st + i) (st + i + (j - i))).
Proof.
  intros. replace (st + i + (j - i)) with (st + j) by lia.
  destruct up; rewrite ?slice_map, slice_slice by lia; reflexivity.
Qed.

Lemma upIf_one s i c (up : bool) :
  znth s i = Some c ->
  (if up then map ascii_upper (slice s i (i + 1)) else slice s i (i + 1)) = [upIf up c].
Proof.
  intros H. rewrite (slice_one _ _ _ H). destruct up; cbn; [rewrite toUpperCase_spec|]; reflexivity.
Qed.

Lemma a_sub_den a t i j :
  den_atom a t -> 0 <= i -> i <= j -> j <= zlen t ->
  exists b, a_sub a i j = Ok b /\ den_atom b (slice t i j).
Proof.
  intros Hd Hi Hij Hj. pose proof (den_atom_len _ _ Hd) as Hl. destruct Hd as [Hm H].
  assert (Hsl : zlen (slice t i j) <= int_max) by (rewrite zlen_slice; lia).
  destruct a; cbn [a_sub a_len] in *.
  - subst t. rewrite zlen_nil in *. assert (i = 0) by lia. assert (j = 0) by lia. subst. cbn.
    eexists; split; [reflexivity|]. split; [vm_compute; discriminate|reflexivity].
  - destruct H as [H1 Ht]. rewrite checkIdxs_ok by lia. cbn [bind]. destruct (i =? j) eqn:E.
    + apply Z.eqb_eq in E. subst j. eexists; split; [reflexivity|].
      rewrite slice_empty by lia. split; [vm_compute; discriminate|reflexivity].
    + apply Z.eqb_neq in E. eexists; split; [reflexivity|]. split; [exact Hsl|]. cbn. split; [lia|].
      rewrite Ht, slice_rep by lia. reflexivity.
  - destruct H as (H1 & H2 & H3 & Ht). rewrite checkIdxs_ok by lia. cbn [bind].
    destruct (i =? j) eqn:E.
    + apply Z.eqb_eq in E. subst j. eexists; split; [reflexivity|].
      rewrite slice_empty by lia. split; [vm_compute; discriminate|reflexivity].
    + apply Z.eqb_neq in E. destruct (j =? i + 1) eqn:E2.
      * apply Z.eqb_eq in E2. destruct (znth_some s (start + i)) as [c Hc]; [lia|].
        rewrite (jcharAt_ok _ _ _ Hc). cbn [bind]. eexists; split; [reflexivity|].
        rewrite Ht, view_slice by lia. replace (start + i + (j - i)) with (start + i + 1) by lia.
        rewrite (upIf_one _ _ _ up Hc). apply s_ch_den.
      * eexists; split; [reflexivity|]. split; [exact Hsl|]. cbn. repeat split; try lia.
        rewrite Ht, view_slice by lia. reflexivity.
  - destruct H as (H1 & H2 & H3 & Ht). rewrite checkIdxs_ok by lia. cbn [bind].
    destruct (i =? j) eqn:E.
    + apply Z.eqb_eq in E. subst j. eexists; split; [reflexivity|].
      rewrite slice_empty by lia. split; [vm_compute; discriminate|reflexivity].
    + apply Z.eqb_neq in E. destruct (j =? i + 1) eqn:E2.
      * apply Z.eqb_eq in E2. destruct (znth_some a (start + i)) as [c Hc]; [lia|].
        rewrite (jcharAt_ok _ _ _ Hc). cbn [bind]. eexists; split; [reflexivity|].
        rewrite Ht, view_slice by lia. replace (start + i + (j - i)) with (start + i + 1) by lia.
        rewrite (upIf_one _ _ _ up Hc). apply s_ch_den.
      * eexists; split; [reflexivity|]. split; [exact Hsl|]. cbn. repeat split; try lia.
        rewrite Ht, view_slice by lia. reflexivity.
  - destruct H as [H1 H2]. rewrite checkIdxs_ok by lia. cbn [bind].
    unfold getCachedString. rewrite H1, build_ok by exact H2. cbn [bind].
    apply s_wrap3_den; lia.
Qed.

Lemma a_sub_bad a t i j :
  den_atom a t -> ~ (0 <= i /\ i <= j /\ j <= zlen t) ->
  a_sub a i j = Err (match a with AEmpty => IllegalArg | _ => IndexOOB end).
Proof.
  intros Hd Hi. pose proof (den_atom_len _ _ Hd) as Hl. rewrite <- Hl in Hi.
  destruct a; cbn [a_sub a_len] in *; try (rewrite checkIdxs_bad by lia; reflexivity).
  destruct (i =? 0) eqn:E1; destruct (j =? 0) eqn:E2; cbn; try reflexivity.
  apply Z.eqb_eq in E1, E2. lia.
Qed.

Lemma a_upper0_den a t :
  den_atom a t -> (forall act n, a <> ALazy act n) -> den_atom (a_upper0 a) (map ascii_upper t).
Proof.
  intros [Hm H] Hnl. split.
  { destruct a; rewrite zlen_map; exact Hm. }
  destruct a; cbn [a_upper0].
  - subst; reflexivity.
  - destruct H as [H1 ->]. rewrite map_rep. rewrite <- toUpperCase_spec.
    destruct (isLowerCase c) eqn:E.
    + split; [lia|]. reflexivity.
    + split; [lia|]. unfold toUpperCase. rewrite E. reflexivity.
  - destruct H as (H1 & H2 & H3 & Ht). destruct up; repeat split; auto; rewrite Ht; [|reflexivity].
    rewrite map_map. apply map_ext. intros; apply ascii_upper_idem.
  - destruct H as (H1 & H2 & H3 & Ht). destruct up; repeat split; auto; rewrite Ht; [|reflexivity].
    rewrite map_map. apply map_ext. intros; apply ascii_upper_idem.
  - exfalso. eapply Hnl; reflexivity.
Qed.

Lemma a_upper_den a t :
  den_atom a t -> exists b, a_upper a = Ok b /\ den_atom b (map ascii_upper t).
Proof.
  intros Hd. destruct a; cbn [a_upper];
    try (eexists; split; [reflexivity|]; apply a_upper0_den; [exact Hd | congruence]).
  destruct Hd as [Hm [H1 H2]]. unfold getCachedString. rewrite H1, build_ok by exact H2. cbn [bind].
  eexists; split; [reflexivity|]. apply a_upper0_den; [apply s_wrap_den; exact Hm|].
  intros act' n'. unfold s_wrap. destruct (0 <? zlen t); [|discriminate].
  destruct t as [|x [|y r]]; discriminate.
Qed.

(** ** indexOf *)

Lemma index_of_range c s : -1 <= index_of c s < zlen s \/ s = [] /\ index_of c s = -1.
Proof.
  induction s as [|x r IH]; cbn [index_of]; [right; auto|].
  left. rewrite zlen_cons. pose proof (zlen_nonneg r). destruct (x =? c); [lia|].
  destruct (index_of c r =? -1) eqn:E; [lia|]. apply Z.eqb_neq in E.
  destruct IH as [IH|[-> IH]]; [lia|]. congruence.
Qed.

Lemma index_of_bounds c s : -1 <= index_of c s <= zlen s - 1.
Proof.
  destruct (index_of_range c s) as [H|[-> H]]; [lia|]. rewrite H. change (zlen (@nil Z)) with 0. lia.
Qed.

Lemma index_of_app c a b :
  index_of c (a ++ b) =
  if index_of c a =? -1 then (if index_of c b =? -1 then -1 else zlen a + index_of c b) else index_of c a.
Proof.
  induction a as [|x r IH]; cbn [index_of app].
  - cbn. destruct (index_of c b =? -1) eqn:E; [apply Z.eqb_eq in E; lia|lia].
  - destruct (x =? c); [reflexivity|]. rewrite IH. rewrite zlen_cons.
    pose proof (index_of_bounds c r). pose proof (index_of_bounds c b). pose proof (zlen_nonneg r).
    destruct (index_of c r =? -1) eqn:E1.
    + cbn [Z.eqb Pos.eqb]. destruct (index_of c b =? -1) eqn:E2; [reflexivity|].
      apply Z.eqb_neq in E2.
      replace (zlen r + index_of c b =? -1) with false by (symmetry; apply Z.eqb_neq; lia). lia.
    + rewrite E1. apply Z.eqb_neq in E1.
      replace (index_of c r + 1 =? -1) with false by (symmetry; apply Z.eqb_neq; lia). reflexivity.
Qed.

Lemma find_index_of c s : match find c s with Some k => index_of c s = k /\ 0 <= k | None => index_of c s = -1 end.
Proof.
  induction s as [|x r IH]; cbn [find index_of]; [reflexivity|].
  destruct (x =? c); [lia|]. destruct (find c r) as [k|]; cbn.
  - destruct IH as [-> Hk]. replace (k =? -1) with false by (symmetry; apply Z.eqb_neq; lia). lia.
  - rewrite IH. reflexivity.
Qed.

Lemma fastIndexOf_spec s st n c :
  0 <= st -> 0 <= n -> st + n <= zlen s ->
  fastIndexOf s st n c = index_of c (slice s st (st + n)).
Proof.
  intros Hs Hn Hl. unfold fastIndexOf, NOT_FOUND.
  assert (E : skipn (Z.to_nat st) s = slice s st (st + n) ++ skipn (Z.to_nat n) (skipn (Z.to_nat st) s)).
  { unfold slice. replace (st + n - st) with n by lia. symmetry. apply firstn_skipn. }
  pose proof (find_index_of c (skipn (Z.to_nat st) s)) as F.
  set (tail := skipn (Z.to_nat n) (skipn (Z.to_nat st) s)) in *.
  assert (Ei := f_equal (index_of c) E). rewrite index_of_app in Ei.
  rewrite zlen_slice in Ei by lia. replace (st + n - st) with n in Ei by lia.
  rewrite Ei in F. clear E Ei.
  set (k0 := index_of c (slice s st (st + n))) in *.
  pose proof (index_of_bounds c (slice s st (st + n))) as B. fold k0 in B.
  rewrite zlen_slice in B by lia. pose proof (index_of_bounds c tail) as Bt.
  destruct (find c (skipn (Z.to_nat st) s)) as [k|].
  - destruct F as [F Hk]. destruct (k0 =? -1) eqn:E1.
    + apply Z.eqb_eq in E1. destruct (index_of c tail =? -1) eqn:E2; [lia|]. apply Z.eqb_neq in E2.
      replace (st + n <=? st + k) with true by (symmetry; apply Z.leb_le; lia). lia.
    + apply Z.eqb_neq in E1. replace (st + n <=? st + k) with false by (symmetry; apply Z.leb_gt; lia). lia.
  - destruct (k0 =? -1) eqn:E1.
    + apply Z.eqb_eq in E1. lia.
    + apply Z.eqb_neq in E1. lia.
Qed.

Lemma indexLoop_spec at_ t c : forall fuel i,
  (forall j x, znth t j = Some x -> at_ j = Ok x) ->
  0 <= i -> i <= zlen t -> Z.of_nat fuel = zlen t - i ->
  indexLoop fuel at_ i (zlen t) c =
  Ok (let k := index_of c (skipn (Z.to_nat i) t) in if k =? -1 then -1 else i + k).
Proof.
  induction fuel as [|f IH]; intros i Hat Hi Hle Hf; cbn [indexLoop].
  - rewrite skipn_all2 by (unfold zlen in *; lia). reflexivity.
  - replace (i <? zlen t) with true by (symmetry; apply Z.ltb_lt; lia).
    destruct (znth_some t i) as [x Hx]; [lia|].
    rewrite (Hat _ _ Hx). cbn [bind]. rewrite (skipn_znth _ _ _ Hx). cbn [index_of].
    destruct (x =? c); [cbn; f_equal; lia|].
    rewrite IH by (auto; lia). f_equal. cbn zeta.
    pose proof (index_of_bounds c (skipn (Z.to_nat (i + 1)) t)) as B.
    destruct (index_of c (skipn (Z.to_nat (i + 1)) t) =? -1) eqn:E; [reflexivity|].
    apply Z.eqb_neq in E.
    replace (index_of c (skipn (Z.to_nat (i + 1)) t) + 1 =? -1) with false by (symmetry; apply Z.eqb_neq; lia).
    lia.
Qed.

Lemma indexLoop_full at_ t c :
  (forall j x, znth t j = Some x -> at_ j = Ok x) ->
  indexLoop (Z.to_nat (zlen t)) at_ 0 (zlen t) c = Ok (index_of c t).
Proof.
  intros H. pose proof (zlen_nonneg t). rewrite (indexLoop_spec at_ t c) by (auto; lia).
  f_equal. cbn [Z.to_nat skipn]. cbn zeta.
  destruct (index_of c t =? -1) eqn:E; [apply Z.eqb_eq in E|]; lia.
Qed.

Lemma index_of_none c s : ~ In c s -> index_of c s = -1.
Proof.
  induction s as [|x r IH]; cbn; intros H; [reflexivity|].
  destruct (x =? c) eqn:E; [apply Z.eqb_eq in E; tauto|]. rewrite IH by tauto. reflexivity.
Qed.

Lemma index_of_rep c d n : 0 <= n -> index_of c (rep d n) = if (d =? c) && (0 <? n) then 0 else -1.
Proof.
  intros Hn. destruct (Z.eq_dec n 0) as [->|Hz].
  - cbn. rewrite andb_false_r. reflexivity.
  - replace (0 <? n) with true by (symmetry; apply Z.ltb_lt; lia). rewrite andb_true_r.
    destruct (d =? c) eqn:E.
    + replace n with (n - 1 + 1) by lia. rewrite rep_succ by lia. cbn. rewrite E. reflexivity.
    + apply index_of_none. intros H. apply in_rep in H. apply Z.eqb_neq in E. congruence.
Qed.

Lemma ascii_upper_not_lower c : isLowerCase (ascii_upper c) = false.
Proof.
  unfold isLowerCase, ascii_upper. destruct ((97 <=? c) && (c <=? 122)) eqn:E; [|exact E].
  apply andb_prop in E as [E1 E2]. apply Z.leb_le in E1, E2.
  apply andb_false_intro1. apply Z.leb_gt. lia.
Qed.

Lemma index_of_upper_nonletter c s :
  isLowerCase c = false -> isUpperCase c = false ->
  index_of c (map ascii_upper s) = index_of c s.
Proof.
  intros H1 H2. induction s as [|x r IH]; cbn [map index_of]; [reflexivity|].
  rewrite IH. replace (ascii_upper x =? c) with (x =? c); [reflexivity|].
  unfold ascii_upper. destruct ((97 <=? x) && (x <=? 122)) eqn:E; [|reflexivity].
  apply andb_prop in E as [E1 E2]. apply Z.leb_le in E1, E2.
  unfold isLowerCase, isUpperCase in *.
  apply andb_false_iff in H1, H2. rewrite !Z.leb_gt in *.
  transitivity false; [apply Z.eqb_neq; lia | symmetry; apply Z.eqb_neq; lia].
Qed.

Lemma a_indexOf_den a t c : den_atom a t -> a_indexOf a c = Ok (index_of c t).
Proof.
  intros Hd. pose proof (den_atom_len _ _ Hd) as Hl. destruct a; cbn [a_indexOf a_len] in *.
  - destruct Hd as [_ ->]. reflexivity.
  - destruct Hd as [Hm [H1 ->]]. rewrite index_of_rep by lia. reflexivity.
  - destruct Hd as [Hm (H1 & H2 & H3 & Ht)]. destruct up.
    + destruct (isLowerCase c) eqn:EL.
      * rewrite index_of_none; [reflexivity|]. rewrite Ht. intros Hin.
        apply in_map_iff in Hin as (x & Hx & _). pose proof (ascii_upper_not_lower x). congruence.
      * destruct (isUpperCase c) eqn:EU; cbn [negb].
        -- rewrite Hl. apply indexLoop_full. intros j x Hx. pose proof (znth_range _ _ _ Hx).
           destruct (view_charAt s start len true j) as (y & E1 & E2); try lia.
           rewrite E1. cbn [bind]. rewrite Ht in Hx. cbn [upIf] in E2. congruence.
        -- rewrite fastIndexOf_spec by lia. rewrite Ht. rewrite index_of_upper_nonletter by assumption. reflexivity.
    + rewrite fastIndexOf_spec by lia. rewrite Ht. reflexivity.
  - destruct Hd as [Hm (H1 & H2 & H3 & Ht)]. destruct up.
    + destruct (isLowerCase c) eqn:EL.
      * rewrite index_of_none; [reflexivity|]. rewrite Ht. intros Hin.
        apply in_map_iff in Hin as (x & Hx & _). pose proof (ascii_upper_not_lower x). congruence.
      * rewrite Hl. apply indexLoop_full. intros j x Hx. pose proof (znth_range _ _ _ Hx).
        destruct (view_charAt a start len true j) as (y & E1 & E2); try lia.
        rewrite E1. cbn [bind]. rewrite Ht in Hx. cbn [upIf] in E2. congruence.
    + rewrite Hl. apply indexLoop_full. intros j x Hx. pose proof (znth_range _ _ _ Hx).
      destruct (view_charAt a start len false j) as (y & E1 & E2); try lia.
      rewrite E1. rewrite Ht in Hx. cbn [upIf] in E2. congruence.
  - rewrite Hl. apply indexLoop_full. intros j x Hx.
    rewrite <- Hl. eapply (a_charAt_ok (ALazy act len)); eauto.
Qed.

(** ** output *)

Lemma appendLoop_spec at_ s : forall fuel i e sb,
  (forall j x, i <= j < e -> znth s j = Some x -> at_ j = Ok (x : Z)) ->
  0 <= i -> i <= e -> e <= zlen s -> Z.of_nat fuel = e - i ->
  appendLoop fuel at_ i e sb = Ok (sb ++ slice s i e).
Proof.
  induction fuel as [|f IH]; intros i e sb Hat Hi Hie He Hf; cbn [appendLoop].
  - rewrite slice_empty by lia. rewrite app_nil_r. reflexivity.
  - replace (i <? e) with true by (symmetry; apply Z.ltb_lt; lia).
    destruct (znth_some s i) as [x Hx]; [lia|].
    rewrite (Hat i x) by (auto; lia). cbn [bind]. rewrite IH; try lia.
    + f_equal. rewrite <- app_assoc. f_equal. unfold slice.
      rewrite (skipn_znth _ _ _ Hx). replace (Z.to_nat (e - i)) with (S (Z.to_nat (e - (i + 1)))) by lia.
      reflexivity.
    + intros j y Hj Hy. apply Hat; auto; lia.
Qed.

Lemma appendLoop_upper s st n sb :
  0 <= st -> 0 <= n -> st + n <= zlen s ->
  appendLoop (Z.to_nat n) (fun i => let* x := jcharAt s i in Ok (toUpperCase x)) st (st + n) sb =
  Ok (sb ++ map ascii_upper (slice s st (st + n))).
Proof.
  intros. rewrite <- slice_map. apply appendLoop_spec; rewrite ?zlen_map; try lia.
  intros j x Hj Hx. rewrite znth_map in Hx. destruct (znth s j) as [y|] eqn:E; [|discriminate].
  rewrite (jcharAt_ok _ _ _ E). cbn in *. rewrite toUpperCase_spec. congruence.
Qed.

Lemma appendLoop_plain s st n sb :
  0 <= st -> 0 <= n -> st + n <= zlen s ->
  appendLoop (Z.to_nat n) (fun i => jcharAt s i) st (st + n) sb = Ok (sb ++ slice s st (st + n)).
Proof.
  intros. apply appendLoop_spec; try lia. intros j x Hj Hx. apply jcharAt_ok; exact Hx.
Qed.

Lemma appendLoop_rep c n sb :
  0 <= n -> appendLoop (Z.to_nat n) (fun _ => Ok c) 0 n sb = Ok (sb ++ rep c n).
Proof.
  intros. rewrite (appendLoop_spec (fun _ => Ok c) (rep c n)); rewrite ?zlen_rep; try lia.
  - rewrite slice_rep by lia. rewrite Z.sub_0_r. reflexivity.
  - intros j x Hj Hx. unfold znth in Hx. destruct (j <? 0); [discriminate|].
    apply nth_error_In in Hx. apply in_rep in Hx. congruence.
Qed.

Lemma a_toSB_den a t sb : den_atom a t -> a_toSB a sb = Ok (sb ++ t).
Proof.
  intros [Hm H]. destruct a; cbn [a_toSB].
  - subst. rewrite app_nil_r. reflexivity.
  - destruct H as [H1 ->]. destruct (count =? 0) eqn:E.
    + apply Z.eqb_eq in E. subst. cbn. rewrite app_nil_r. reflexivity.
    + destruct (count <? THRESHOLD); [apply appendLoop_rep; lia|reflexivity].
  - destruct H as (H1 & H2 & H3 & ->). destruct up.
    + destruct (len <? THRESHOLD); [apply appendLoop_upper; lia|].
      rewrite toUpperCaseArr_spec. reflexivity.
    + destruct ((start =? 0) && (len =? zlen s)) eqn:E; [|reflexivity].
      apply andb_prop in E as [E1 E2]. apply Z.eqb_eq in E1, E2. subst.
      rewrite Z.add_0_l, slice_full. reflexivity.
  - destruct H as (H1 & H2 & H3 & ->). destruct up; [|reflexivity].
    destruct (len <? THRESHOLD); [apply appendLoop_upper; lia|].
    rewrite toUpperCaseArr_spec. reflexivity.
  - destruct H as [H1 H2]. apply H2.
Qed.

Lemma a_toApp_den a t sb : den_atom a t -> a_toApp a sb = Ok (sb ++ t).
Proof.
  intros [Hm H]. destruct a; cbn [a_toApp].
  - subst. rewrite app_nil_r. reflexivity.
  - destruct H as [H1 ->]. apply appendLoop_rep; lia.
  - destruct H as (H1 & H2 & H3 & ->). destruct up; [apply appendLoop_upper; lia|reflexivity].
  - destruct H as (H1 & H2 & H3 & ->). destruct up; [apply appendLoop_upper; lia|apply appendLoop_plain; lia].
  - destruct H as [H1 H2]. unfold getCachedString. rewrite H1, build_ok by exact H2. reflexivity.
Qed.

Lemma a_toString_den a t : den_atom a t -> a_toString a = Ok t.
Proof.
  intros Hd. pose proof Hd as [Hm H]. destruct a; cbn [a_toString].
  - subst. reflexivity.
  - destruct H as [H1 ->]. reflexivity.
  - destruct H as (H1 & H2 & H3 & ->). destruct up; [rewrite toUpperCaseArr_spec|]; reflexivity.
  - destruct H as (H1 & H2 & H3 & Ht). destruct up; [|rewrite Ht; reflexivity].
    exact (a_toSB_den _ _ [] Hd).
  - destruct H as [H1 H2]. unfold getCachedString. rewrite H1, build_ok by exact H2. reflexivity.
Qed.

(** ** composite sequences: iteration *)

Fixpoint ne (s : seq) : Prop :=
  match s with
  | Leaf _ => True
  | Cat l r _ _ => ne l /\ ne r
  | Arr ps _ => ps <> []
  end.

Lemma nleaves_leaves s : nleaves s = List.length (leaves s).
Proof. induction s; cbn; auto. rewrite app_length. lia. Qed.

Lemma ne_leaves s : ne s -> leaves s <> [].
Proof.
  induction s; cbn; intros H.
  - discriminate.
  - destruct H as [H _]. specialize (IHs1 H). destruct (leaves s1); [tauto|discriminate].
  - exact H.
Qed.

Lemma descend_spec node : forall stack, ne node -> Forall ne stack ->
  exists a st, descend node stack = Ok (a, st) /\
    a :: flat_map leaves st = leaves node ++ flat_map leaves stack /\ Forall ne st.
Proof.
  induction node as [a|l IHl r IHr n k|ps n]; intros stack Hn Hs; cbn [descend leaves].
  - eauto.
  - destruct Hn as [Hl Hr]. destruct (IHl (r :: stack) Hl) as (a & st & E1 & E2 & E3).
    { constructor; assumption. }
    exists a, st. split; [exact E1|]. split; [|exact E3]. rewrite E2. cbn [flat_map].
    rewrite app_assoc. reflexivity.
  - cbn in Hn. destruct ps as [|p ps]; [tauto|]. eexists _, _. split; [reflexivity|]. split.
    + rewrite flat_map_app. cbn [app]. f_equal. f_equal.
      clear Hn. induction ps; cbn; [reflexivity|]. f_equal. assumption.
    + apply Forall_app; split; [|exact Hs]. apply Forall_forall. intros x Hx.
      apply in_map_iff in Hx as (y & <- & _). exact I.
Qed.

Lemma drain_spec : forall fuel stack,
  Forall ne stack -> (List.length (flat_map leaves stack) <= fuel)%nat ->
  drain fuel stack = Ok (flat_map leaves stack).
Proof.
  induction fuel as [|f IH]; intros stack Hs Hf.
  - destruct stack as [|n st]; [reflexivity|]. inversion Hs; subst.
    cbn [flat_map] in Hf. rewrite app_length in Hf. apply ne_leaves in H1.
    destruct (leaves n); [tauto|cbn in Hf; lia].
  - destruct stack as [|n st]; [reflexivity|]. inversion Hs; subst.
    cbn [drain it_next]. destruct (descend_spec n st H1 H2) as (a & st' & E1 & E2 & E3).
    rewrite E1. cbn [bind]. rewrite IH.
    + cbn [bind]. rewrite E2. reflexivity.
    + exact E3.
    + cbn [flat_map] in Hf. rewrite <- E2 in Hf. cbn [List.length] in Hf. lia.
Qed.

Lemma s_iter_spec s : ne s -> s_iter s = Ok (leaves s).
Proof.
  intros H. destruct s; try reflexivity.
  unfold s_iter. rewrite drain_spec.
  - cbn [flat_map]. rewrite app_nil_r. reflexivity.
  - constructor; [exact H|constructor].
  - cbn [flat_map]. rewrite app_nil_r. rewrite nleaves_leaves. lia.
Qed.

Lemma den_wden s t : den s t -> wden s t.
Proof. induction 1; constructor; auto. Qed.

Lemma wden_ne s t : wden s t -> ne s.
Proof. induction 1; cbn; auto. discriminate. Qed.

Lemma wden_leaves s t : wden s t -> exists ts, Forall2 den_atom (leaves s) ts /\ t = concat ts.
Proof.
  induction 1 as [a t H|l r tl tr n k H1 (ts1 & F1 & E1) H2 (ts2 & F2 & E2)|p ps ts n H]; cbn [leaves].
  - exists [t]. split; [constructor; [exact H|constructor]|]. cbn. rewrite app_nil_r. reflexivity.
  - exists (ts1 ++ ts2). split; [apply Forall2_app; assumption|]. rewrite concat_app. congruence.
  - exists ts. split; [exact H|reflexivity].
Qed.

Lemma den_max s t : den s t -> zlen t <= int_max.
Proof. destruct 1 as [a t [H _]|l r tl tr k Hl Hr Hm|p ps ts F Hm]; assumption. Qed.

Lemma den_len s t : den s t -> s_len s = zlen t.
Proof. destruct 1 as [a t H|l r tl tr k Hl Hr Hm|p ps ts F Hm]; cbn; [apply den_atom_len; exact H|reflexivity|reflexivity]. Qed.

Lemma den_isEmpty s t : den s t -> s_isEmpty s = true <-> t = [].
Proof.
  intros H. unfold s_isEmpty. rewrite (den_len _ _ H). rewrite Z.eqb_eq. split.
  - apply zlen_0_nil.
  - intros ->. reflexivity.
Qed.

Lemma each_spec f : (forall a t sb, den_atom a t -> f a sb = Ok (sb ++ t)) ->
  forall atoms ts sb, Forall2 den_atom atoms ts -> each f atoms sb = Ok (sb ++ concat ts).
Proof.
  intros Hf. induction atoms as [|a r IH]; intros ts sb H; inversion H; subst; cbn [each concat].
  - rewrite app_nil_r. reflexivity.
  - rewrite (Hf _ y) by assumption. cbn [bind]. rewrite (IH l') by assumption.
    rewrite app_assoc. reflexivity.
Qed.

(** Both sinks receive exactly the text, even when recorded lengths are wrong. *)
Lemma s_toSB_wden s t sb : wden s t -> s_toSB s sb = Ok (sb ++ t).
Proof.
  intros H. pose proof (wden_ne _ _ H) as Hne. destruct (wden_leaves _ _ H) as (ts & F & ->).
  destruct s.
  - cbn in F. inversion F as [|x y l l' Hxy Hl]; subst. inversion Hl; subst. cbn [s_toSB concat].
    rewrite app_nil_r. apply a_toSB_den; assumption.
  - unfold s_toSB. rewrite s_iter_spec by exact Hne. cbn [bind]. apply each_spec; [apply a_toSB_den|exact F].
  - unfold s_toSB. rewrite s_iter_spec by exact Hne. cbn [bind]. apply each_spec; [apply a_toSB_den|exact F].
Qed.

Lemma s_toApp_wden s t sb : wden s t -> s_toApp s sb = Ok (sb ++ t).
Proof.
  intros H. pose proof (wden_ne _ _ H) as Hne. destruct (wden_leaves _ _ H) as (ts & F & ->).
  destruct s.
  - cbn in F. inversion F as [|x y l l' Hxy Hl]; subst. inversion Hl; subst. cbn [s_toApp concat].
    rewrite app_nil_r. apply a_toApp_den; assumption.
  - unfold s_toApp. rewrite s_iter_spec by exact Hne. cbn [bind]. apply each_spec; [apply a_toApp_den|exact F].
  - unfold s_toApp. rewrite s_iter_spec by exact Hne. cbn [bind]. apply each_spec; [apply a_toApp_den|exact F].
Qed.

Lemma s_toString_wden s t : wden s t -> s_toString s = Ok t.
Proof.
  intros H. destruct s.
  - inversion H; subst. apply a_toString_den; assumption.
  - exact (s_toSB_wden _ _ [] H).
  - exact (s_toSB_wden _ _ [] H).
Qed.

(** ** construction *)

Lemma concat0_den l r tl tr :
  den l tl -> den r tr -> zlen (tl ++ tr) <= int_max -> den (concat0 l r) (tl ++ tr).
Proof.
  intros Hl Hr Hm. unfold concat0. rewrite (den_len _ _ Hl), (den_len _ _ Hr).
  rewrite <- zlen_app. rewrite (wrap32_id (zlen (tl ++ tr))).
  - constructor; assumption.
  - pose proof (zlen_nonneg (tl ++ tr)). unfold is_int, int_min. lia.
Qed.

Lemma s_concat_den l r tl tr :
  den l tl -> den r tr -> zlen (tl ++ tr) <= int_max -> den (s_concat l r) (tl ++ tr).
Proof.
  intros Hl Hr Hm. destruct l as [a|ll lr n k|ps n]; cbn [s_concat];
    try (apply concat0_den; assumption).
  inversion Hl; subst. rewrite <- app_assoc. apply concat0_den; [assumption| |].
  - apply concat0_den; try assumption. rewrite <- app_assoc in Hm.
    rewrite (zlen_app tl0) in Hm. pose proof (zlen_nonneg tl0). lia.
  - rewrite <- app_assoc in Hm. exact Hm.
Qed.

Lemma s_append_den s x ts tx :
  den s ts -> den x tx -> zlen (ts ++ tx) <= int_max -> den (s_append s x) (ts ++ tx).
Proof.
  intros Hs Hx Hm. unfold s_append.
  assert (G : den (if s_isEmpty x then s else s_concat s x) (ts ++ tx)).
  { destruct (s_isEmpty x) eqn:E.
    - apply (den_isEmpty _ _ Hx) in E. subst. rewrite app_nil_r. exact Hs.
    - apply s_concat_den; assumption. }
  destruct s as [[]| |]; try exact G.
  inversion Hs as [a t [_ Ht]| |]; subst. exact Hx.
Qed.

Lemma s_prepend_den s x ts tx :
  den s ts -> den x tx -> zlen (tx ++ ts) <= int_max -> den (s_prepend s x) (tx ++ ts).
Proof.
  intros Hs Hx Hm. unfold s_prepend.
  assert (G : den (if s_isEmpty x then s else s_concat x s) (tx ++ ts)).
  { destruct (s_isEmpty x) eqn:E.
    - apply (den_isEmpty _ _ Hx) in E. subst. exact Hs.
    - apply s_concat_den; assumption. }
  destruct s as [[]| |]; try exact G.
  inversion Hs as [a t [_ Ht]| |]; subst. rewrite app_nil_r. exact Hx.
Qed.

Lemma join_len ps : forall ts n,
  Forall2 den_atom ps ts -> 0 <= n -> n + zlen (concat ts) <= int_max ->
  fold_left (fun n a => wrap32 (n + a_len a)) ps n = n + zlen (concat ts).
Proof.
  induction ps as [|a r IH]; intros ts n F Hn Hm; inversion F; subst; cbn [fold_left concat] in *.
  - rewrite zlen_nil. lia.
  - rewrite zlen_app in *. rewrite (den_atom_len _ _ H1).
    pose proof (zlen_nonneg y). pose proof (zlen_nonneg (concat l')).
    rewrite (wrap32_id (n + zlen y)) by (unfold is_int, int_min; lia).
    rewrite (IH l') by (auto; lia). lia.
Qed.

Lemma s_join_den ps ts :
  Forall2 den_atom ps ts -> zlen (concat ts) <= int_max -> den (s_join ps) (concat ts).
Proof.
  intros F Hm. destruct ps as [|a [|b r]]; cbn [s_join].
  - inversion F; subst. constructor. split; [exact Hm|reflexivity].
  - inversion F as [|x y l l' Hxy Hl]; subst. inversion Hl; subst. cbn. rewrite app_nil_r. constructor. exact Hxy.
  - rewrite (join_len _ ts) by (auto; lia). rewrite Z.add_0_l. constructor; assumption.
Qed.

(** ** observation *)

Lemma charAt_loop_spec atoms : forall ts i c,
  Forall2 den_atom atoms ts -> znth (concat ts) i = Some c -> charAt_loop atoms i = Ok c.
Proof.
  induction atoms as [|a r IH]; intros ts i c F Hc; inversion F; subst; cbn [concat charAt_loop] in *.
  - unfold znth in Hc. destruct (i <? 0); [discriminate|]. destruct (Z.to_nat i); discriminate.
  - rewrite (den_atom_len _ _ H1). destruct (i <? zlen y) eqn:E.
    + apply Z.ltb_lt in E. rewrite znth_app_l in Hc by lia. eapply a_charAt_ok; eauto.
    + apply Z.ltb_ge in E. rewrite znth_app_r in Hc by lia. eapply IH; eauto.
Qed.

Lemma s_charAt_ok s t i c : den s t -> znth t i = Some c -> s_charAt s i = Ok c.
Proof.
  intros Hd Hc. pose proof (znth_range _ _ _ Hc) as Hr. pose proof (den_len _ _ Hd) as Hl.
  pose proof (den_wden _ _ Hd) as Hw. pose proof (wden_ne _ _ Hw) as Hne.
  destruct (wden_leaves _ _ Hw) as (ts & F & Et).
  destruct s.
  - inversion Hd; subst. eapply a_charAt_ok; eauto.
  - unfold s_charAt. rewrite checkIdx_ok by lia. cbn [bind]. rewrite s_iter_spec by exact Hne. cbn [bind].
    eapply charAt_loop_spec; [exact F|]. congruence.
  - unfold s_charAt. rewrite checkIdx_ok by lia. cbn [bind]. rewrite s_iter_spec by exact Hne. cbn [bind].
    eapply charAt_loop_spec; [exact F|]. congruence.
Qed.

Lemma s_charAt_bad s t i : den s t -> ~ (0 <= i < zlen t) -> s_charAt s i = Err IndexOOB.
Proof.
  intros Hd Hi. pose proof (den_len _ _ Hd) as Hl. destruct s.
  - inversion Hd; subst. eapply a_charAt_bad; eauto.
  - unfold s_charAt. rewrite checkIdx_bad by lia. reflexivity.
  - unfold s_charAt. rewrite checkIdx_bad by lia. reflexivity.
Qed.

Lemma indexOf_loop_spec atoms : forall ts cur c,
  Forall2 den_atom atoms ts -> 0 <= cur -> cur + zlen (concat ts) <= int_max ->
  indexOf_loop atoms cur c =
  Ok (let k := index_of c (concat ts) in if k =? -1 then -1 else cur + k).
Proof.
  induction atoms as [|a r IH]; intros ts cur c F Hc Hm; inversion F; subst; cbn [concat indexOf_loop] in *.
  - reflexivity.
  - rewrite (a_indexOf_den _ _ c H1). cbn [bind]. rewrite zlen_app in Hm.
    pose proof (zlen_nonneg y). pose proof (zlen_nonneg (concat l')).
    rewrite index_of_app. pose proof (index_of_bounds c y) as B. pose proof (index_of_bounds c (concat l')) as B2.
    unfold NOT_FOUND. destruct (index_of c y =? -1) eqn:E.
    + rewrite (den_atom_len _ _ H1). rewrite wrap32_id by (unfold is_int, int_min; lia).
      rewrite (IH l') by (auto; lia). f_equal. cbn zeta.
      destruct (index_of c (concat l') =? -1) eqn:E2; [reflexivity|].
      apply Z.eqb_neq in E2.
      replace (zlen y + index_of c (concat l') =? -1) with false by (symmetry; apply Z.eqb_neq; lia). lia.
    + cbn zeta. rewrite E. apply Z.eqb_neq in E. rewrite wrap32_id by (unfold is_int, int_min; lia).
      f_equal. lia.
Qed.

Lemma s_indexOf_wden s t c : wden s t -> zlen t <= int_max -> s_indexOf s c = Ok (index_of c t).
Proof.
  intros Hw Hm. pose proof (wden_ne _ _ Hw) as Hne.
  destruct (wden_leaves _ _ Hw) as (ts & F & Et).
  assert (G : forall atoms, Forall2 den_atom atoms ts -> indexOf_loop atoms 0 c = Ok (index_of c t)).
  { intros atoms Fa. subst t. rewrite (indexOf_loop_spec atoms ts) by (auto; lia). cbn zeta.
    destruct (index_of c (concat ts) =? -1) eqn:E; [apply Z.eqb_eq in E|]; f_equal; lia. }
  destruct s.
  - inversion Hw; subst. apply a_indexOf_den. assumption.
  - unfold s_indexOf. rewrite s_iter_spec by exact Hne. cbn [bind]. apply G; exact F.
  - unfold s_indexOf. rewrite s_iter_spec by exact Hne. cbn [bind]. apply G; exact F.
Qed.

Lemma s_startsWith_den s t c :
  den s t -> s_startsWith s c = Ok (match t with x :: _ => x =? c | [] => false end).
Proof.
  intros Hd. unfold s_startsWith. rewrite (den_len _ _ Hd).
  destruct t as [|x r]; [reflexivity|]. rewrite zlen_cons. pose proof (zlen_nonneg r).
  replace (0 <? 1 + zlen r) with true by (symmetry; apply Z.ltb_lt; lia).
  rewrite (s_charAt_ok s (x :: r) 0 x) by (auto; reflexivity). reflexivity.
Qed.

Lemma mapM_upper atoms : forall ts, Forall2 den_atom atoms ts ->
  exists ups, mapM a_upper atoms = Ok ups /\ Forall2 den_atom ups (map (map ascii_upper) ts) /\
    List.length ups = List.length atoms.
Proof.
  induction atoms as [|a r IH]; intros ts F; inversion F; subst; cbn [mapM map].
  - eexists; split; [reflexivity|]. split; [constructor|reflexivity].
  - destruct (a_upper_den _ _ H1) as (b & E & Hb). rewrite E. cbn [bind].
    destruct (IH _ H3) as (bs & E2 & Hbs & Hlen). rewrite E2. cbn [bind].
    eexists; split; [reflexivity|]. split; [constructor; assumption|cbn; lia].
Qed.

Lemma s_upper_den s t : den s t -> exists u, s_upper s = Ok u /\ den u (map ascii_upper t).
Proof.
  intros Hd. pose proof (den_wden _ _ Hd) as Hw. pose proof (wden_ne _ _ Hw) as Hne.
  pose proof (den_len _ _ Hd) as Hl. pose proof (den_max _ _ Hd) as Hm.
  destruct (wden_leaves _ _ Hw) as (ts & F & Et).
  assert (G : exists u, (let* ups := mapM a_upper (leaves s) in Ok (Arr ups (s_len s))) = Ok u
                        /\ den u (map ascii_upper t)).
  { destruct (mapM_upper _ _ F) as (ups & E & Fu & Hlen). rewrite E. cbn [bind].
    eexists; split; [reflexivity|]. rewrite Hl.
    assert (zlen t = zlen (concat (map (map ascii_upper) ts))) as ->.
    { rewrite <- concat_map, <- Et, zlen_map. reflexivity. }
    rewrite Et, concat_map.
    destruct ups as [|p ps].
    - pose proof (ne_leaves _ Hne). destruct (leaves s); [tauto|discriminate].
    - constructor; [exact Fu|]. rewrite <- concat_map, <- Et, zlen_map. exact Hm. }
  destruct s.
  - inversion Hd; subst. cbn [s_upper]. destruct (a_upper_den _ _ H0) as (b & E & Hb). rewrite E. cbn [bind].
    eexists; split; [reflexivity|]. constructor; exact Hb.
  - unfold s_upper. rewrite s_iter_spec by exact Hne. exact G.
  - unfold s_upper. rewrite s_iter_spec by exact Hne. exact G.
Qed.
