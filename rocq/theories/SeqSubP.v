(** Proofs about subSequence of composite sequences, and about sequences with wrong recorded lengths. *)
From Verif Require Import Base Digits UtilsM SeqM SeqSpec SeqP.

Lemma sub_loop_spec atoms : forall ts start end_ buf,
  Forall2 den_atom atoms ts ->
  0 <= start -> start < end_ -> end_ <= zlen (concat ts) ->
  exists init ini_t x last s' e',
    sub_loop atoms start end_ buf = Ok (buf ++ init ++ [x], s', e') /\
    Forall2 den_atom init ini_t /\ Forall (fun t => t <> []) ini_t /\
    den_atom x last /\ last <> [] /\
    concat ini_t ++ last = slice (concat ts) start end_ /\
    e' - s' = zlen last.
Proof.
  induction atoms as [|a r IH]; intros ts start end_ buf F Hs Hse He; inversion F; subst; cbn [sub_loop concat] in *.
  - change (zlen (@nil Z)) with 0 in He. lia.
  - rewrite (den_atom_len _ _ H1). rewrite zlen_app in He. pose proof (zlen_nonneg y).
    destruct (start <? zlen y) eqn:E.
    + apply Z.ltb_lt in E. destruct (end_ <=? zlen y) eqn:E2.
      * apply Z.leb_le in E2. destruct (a_sub_den a y start end_ H1) as (b & Eb & Db); try lia.
        rewrite Eb. cbn [bind]. exists [], [], b, (slice y start end_), start, end_.
        repeat split; auto.
        -- apply Db.
        -- apply Db.
        -- intros Hn. apply (f_equal (@zlen Z)) in Hn. rewrite zlen_slice in Hn by lia.
           change (zlen (@nil Z)) with 0 in Hn. lia.
        -- cbn [concat app]. rewrite slice_app_l by lia. reflexivity.
        -- rewrite zlen_slice by lia. reflexivity.
      * apply Z.leb_gt in E2. destruct (a_sub_den a y start (zlen y) H1) as (b & Eb & Db); try lia.
        rewrite Eb. cbn [bind].
        destruct (IH l' 0 (end_ - zlen y) (buf ++ [b]) H3) as (init & it & x & last & s' & e' & R1 & R2 & R3 & R4 & R5 & R6 & R7); try lia.
        exists (b :: init), (slice y start (zlen y) :: it), x, last, s', e'.
        split; [rewrite R1; rewrite <- app_assoc; reflexivity|].
        split; [constructor; assumption|].
        split.
        { constructor; [|assumption]. intros Hn. apply (f_equal (@zlen Z)) in Hn. rewrite zlen_slice in Hn by lia.
          change (zlen (@nil Z)) with 0 in Hn. lia. }
        repeat split; auto.
        -- apply R4.
        -- apply R4.
        -- cbn [concat]. rewrite slice_app_mid by lia. rewrite <- app_assoc. f_equal. exact R6.
    + apply Z.ltb_ge in E.
      destruct (IH l' (start - zlen y) (end_ - zlen y) buf H3) as (init & it & x & last & s' & e' & R1 & R2 & R3 & R4 & R5 & R6 & R7); try lia.
      exists init, it, x, last, s', e'. repeat split; auto.
      * apply R4.
      * apply R4.
      * rewrite slice_app_r by lia. exact R6.
Qed.

(** The result of subSequence on a composite sequence: the right characters; and the recorded length is
    right exactly when the slice lies within a single leaf, otherwise it is the length of the last piece. *)
Lemma s_sub_spec s t i j :
  den s t -> 0 <= i -> i <= j -> j <= zlen t ->
  exists u, s_sub s i j = Ok u /\ wden u (slice t i j) /\
    (den u (slice t i j) \/
     exists ps ini last, u = Arr ps (zlen last) /\ slice t i j = ini ++ last /\ ini <> [] /\ last <> []).
Proof.
  intros Hd Hi Hij Hj. pose proof (den_wden _ _ Hd) as Hw. pose proof (wden_ne _ _ Hw) as Hne.
  pose proof (den_len _ _ Hd) as Hl. pose proof (den_max _ _ Hd) as Hm.
  destruct (wden_leaves _ _ Hw) as (ts & F & Et).
  assert (G : exists u,
    (let* _ := checkPositionIndexes i j (s_len s) in
     if i =? j then Ok (Leaf AEmpty)
     else if (i =? 0) && (j =? s_len s) then Ok s
     else
       let* atoms := Ok (leaves s) in
       let* (buf, start', end') := sub_loop atoms i j [] in
       match buf with
       | [x] => Ok (Leaf x)
       | _ => Ok (Arr buf (wrap32 (end' - start')))
       end) = Ok u /\ wden u (slice t i j) /\
    (den u (slice t i j) \/
     exists ps ini last, u = Arr ps (zlen last) /\ slice t i j = ini ++ last /\ ini <> [] /\ last <> [])).
  { rewrite checkIdxs_ok by lia. cbn [bind]. destruct (i =? j) eqn:E.
    { apply Z.eqb_eq in E. subst j. eexists; split; [reflexivity|]. rewrite slice_empty by lia.
      assert (den (Leaf AEmpty) []) by (constructor; split; [vm_compute; discriminate|reflexivity]).
      split; [apply den_wden|left]; assumption. }
    apply Z.eqb_neq in E. destruct ((i =? 0) && (j =? s_len s)) eqn:E2.
    { apply andb_prop in E2 as [E2 E3]. apply Z.eqb_eq in E2, E3. eexists; split; [reflexivity|].
      subst i. replace j with (zlen t) by lia. rewrite slice_full. split; [assumption|left; assumption]. }
    subst t. destruct (sub_loop_spec (leaves s) ts i j [] F) as (init & it & x & last & s' & e' & R1 & R2 & R3 & R4 & R5 & R6 & R7); try lia.
    rewrite R1. cbn [bind app].
    assert (Hlast : zlen (concat it ++ last) <= int_max).
    { rewrite R6. rewrite zlen_slice by lia. lia. }
    rewrite zlen_app in Hlast. pose proof (zlen_nonneg (concat it)). pose proof (zlen_nonneg last).
    rewrite R7. rewrite wrap32_id by (unfold is_int, int_min; lia).
    destruct init as [|p0 init].
    - inversion R2; subst. cbn [app concat] in *. eexists; split; [reflexivity|].
      rewrite <- R6. assert (den (Leaf x) last) by (constructor; exact R4).
      split; [apply den_wden|left]; assumption.
    - inversion R2; subst. cbn [app].
      assert (W : wden (Arr (p0 :: init ++ [x]) (zlen last)) (slice (concat ts) i j)).
      { rewrite <- R6. replace (concat (y :: l') ++ last) with (concat ((y :: l') ++ [last])).
        - constructor. constructor; [assumption|]. apply Forall2_app; [assumption|].
          constructor; [exact R4|constructor].
        - rewrite concat_app. cbn [concat]. rewrite app_nil_r. reflexivity. }
      exists (Arr (p0 :: init ++ [x]) (zlen last)). split.
      { destruct (init ++ [x]) as [|q l2] eqn:Eq; [destruct init; discriminate|]. reflexivity. }
      split; [exact W|].
      right. exists (p0 :: init ++ [x]), (concat (y :: l')), last. repeat split; auto.
      inversion R3; subst. cbn [concat]. destruct y; [tauto|discriminate]. }
  destruct s.
  - inversion Hd; subst. cbn [s_sub]. destruct (a_sub_den _ _ i j H0) as (b & Eb & Db); try lia.
    rewrite Eb. cbn [bind]. eexists; split; [reflexivity|].
    assert (den (Leaf b) (slice (concat ts) i j)) by (constructor; exact Db).
    split; [apply den_wden|left]; assumption.
  - unfold s_sub. rewrite s_iter_spec by exact Hne. exact G.
  - unfold s_sub. rewrite s_iter_spec by exact Hne. exact G.
Qed.

Lemma s_sub_bad s t i j :
  den s t -> ~ (0 <= i /\ i <= j /\ j <= zlen t) ->
  s_sub s i j = Err (match s with Leaf AEmpty => IllegalArg | _ => IndexOOB end).
Proof.
  intros Hd Hb. pose proof (den_len _ _ Hd) as Hl. destruct s.
  - inversion Hd; subst. cbn [s_sub]. rewrite (a_sub_bad _ _ _ _ H0 Hb). destruct a; reflexivity.
  - unfold s_sub. rewrite checkIdxs_bad by lia. reflexivity.
  - unfold s_sub. rewrite checkIdxs_bad by lia. reflexivity.
Qed.

Lemma s_sub_leaf a t i j :
  den_atom a t -> 0 <= i -> i <= j -> j <= zlen t ->
  exists b, s_sub (Leaf a) i j = Ok (Leaf b) /\ den (Leaf b) (slice t i j).
Proof.
  intros Hd Hi Hij Hj. cbn [s_sub]. destruct (a_sub_den _ _ i j Hd) as (b & Eb & Db); try lia.
  rewrite Eb. cbn [bind]. exists b. split; [reflexivity|]. constructor; exact Db.
Qed.

(** ** Sequences whose recorded length may be wrong keep denoting the right text *)

Lemma concat0_wden l r tl tr : wden l tl -> wden r tr -> wden (concat0 l r) (tl ++ tr).
Proof. intros. constructor; assumption. Qed.

Lemma s_concat_wden l r tl tr : wden l tl -> wden r tr -> wden (s_concat l r) (tl ++ tr).
Proof.
  intros Hl Hr. destruct l as [a|ll lr n k|ps n]; cbn [s_concat]; try (apply concat0_wden; assumption).
  inversion Hl; subst. rewrite <- app_assoc. repeat apply concat0_wden; assumption.
Qed.

Lemma s_append_wden s x ts tx :
  wden s ts -> wden x tx -> (s_isEmpty x = true -> tx = []) -> wden (s_append s x) (ts ++ tx).
Proof.
  intros Hs Hx He. unfold s_append.
  assert (G : wden (if s_isEmpty x then s else s_concat s x) (ts ++ tx)).
  { destruct (s_isEmpty x) eqn:E.
    - rewrite He by reflexivity. rewrite app_nil_r. exact Hs.
    - apply s_concat_wden; assumption. }
  destruct s as [[]| |]; try exact G.
  inversion Hs as [a t [_ Ht]| |]; subst. exact Hx.
Qed.

Lemma s_prepend_wden s x ts tx :
  wden s ts -> wden x tx -> (s_isEmpty x = true -> tx = []) -> wden (s_prepend s x) (tx ++ ts).
Proof.
  intros Hs Hx He. unfold s_prepend.
  assert (G : wden (if s_isEmpty x then s else s_concat x s) (tx ++ ts)).
  { destruct (s_isEmpty x) eqn:E.
    - rewrite He by reflexivity. exact Hs.
    - apply s_concat_wden; assumption. }
  destruct s as [[]| |]; try exact G.
  inversion Hs as [a t [_ Ht]| |]; subst. rewrite app_nil_r. exact Hx.
Qed.

Lemma s_upper_wden s t :
  wden s t -> exists u, s_upper s = Ok u /\ wden u (map ascii_upper t) /\ s_len u = s_len s.
Proof.
  intros Hw. pose proof (wden_ne _ _ Hw) as Hne.
  destruct (wden_leaves _ _ Hw) as (ts & F & Et).
  assert (G : exists u, (let* ups := mapM a_upper (leaves s) in Ok (Arr ups (s_len s))) = Ok u
                        /\ wden u (map ascii_upper t) /\ s_len u = s_len s).
  { destruct (mapM_upper _ _ F) as (ups & E & Fu & Hlen). rewrite E. cbn [bind].
    eexists; split; [reflexivity|]. rewrite Et, concat_map.
    destruct ups as [|p ps].
    - pose proof (ne_leaves _ Hne). destruct (leaves s); [tauto|discriminate].
    - split; [constructor; exact Fu|reflexivity]. }
  destruct s.
  - inversion Hw; subst. cbn [s_upper]. destruct (a_upper_den _ _ H0) as (b & E & Hb). rewrite E. cbn [bind].
    eexists; split; [reflexivity|]. split; [constructor; exact Hb|]. cbn.
    rewrite (den_atom_len _ _ Hb), (den_atom_len _ _ H0). apply zlen_map.
  - unfold s_upper. rewrite s_iter_spec by exact Hne. exact G.
  - unfold s_upper. rewrite s_iter_spec by exact Hne. exact G.
Qed.
