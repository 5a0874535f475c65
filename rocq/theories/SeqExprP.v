(** Proofs: sequence expressions behave as the lists they denote; element counts; iteration. *)
From Verif Require Import Base Digits UtilsM SeqM SeqSpec SeqP SeqSubP SeqExpr.

Lemma fits_some t x : fits t = Some x -> x = t /\ zlen t <= int_max.
Proof. unfold fits. destruct (zlen t <=? int_max) eqn:E; [|discriminate]. intros [= <-]. apply Z.leb_le in E. auto. Qed.

Lemma cut_some t i j x : cut t i j = Some x -> x = slice t i j /\ 0 <= i /\ i <= j /\ j <= zlen t.
Proof.
  unfold cut. destruct (_ && _) eqn:E; [|discriminate]. intros [= <-].
  apply andb_prop in E as [E E3]. apply andb_prop in E as [E1 E2].
  apply Z.leb_le in E1, E2, E3. auto.
Qed.

Lemma cut_none t i j : cut t i j = None -> ~ (0 <= i /\ i <= j /\ j <= zlen t).
Proof.
  unfold cut. destruct (_ && _) eqn:E; [discriminate|]. intros _ (H1 & H2 & H3).
  apply Z.leb_le in H1, H2, H3. rewrite H1, H2, H3 in E. discriminate.
Qed.

Lemma obind_some {A B} (o : option A) (f : A -> option B) b : obind o f = Some b -> exists a, o = Some a /\ f a = Some b.
Proof. destruct o; cbn; [eauto|discriminate]. Qed.

Lemma aeval_den e : forall t, atext e = Some t -> exists a, aeval e = Ok a /\ den_atom a t.
Proof.
  induction e; intros t H; cbn [atext aeval] in *.
  - injection H as <-. eexists; split; [reflexivity|]. split; [vm_compute; discriminate|reflexivity].
  - injection H as <-. eexists; split; [reflexivity|]. apply s_ch_den.
  - destruct (_ && _) eqn:E; [|discriminate]. injection H as <-. apply andb_prop in E as [E1 E2].
    apply Z.leb_le in E1, E2. apply (s_repeated_den c n). lia.
  - apply fits_some in H as [-> H]. eexists; split; [reflexivity|]. apply s_wrap_den. exact H.
  - apply obind_some in H as (x & H1 & H2). apply fits_some in H1 as [-> H1].
    apply cut_some in H2 as (-> & ? & ? & ?). apply s_wrap3_den; assumption.
  - apply fits_some in H as [-> H]. eexists; split; [reflexivity|]. apply s_forArray_den. exact H.
  - destruct (0 <=? n) eqn:E; [|discriminate]. apply Z.leb_le in E.
    apply obind_some in H as (x & H1 & H2). apply fits_some in H1 as [-> H1].
    apply cut_some in H2 as (-> & ? & ? & ?).
    destruct (s_forArray3_den s i n) as [E1 E2]; try assumption. eauto.
  - apply fits_some in H as [-> H]. apply s_lazy_den; [exact H|reflexivity].
  - apply obind_some in H as (x & H1 & H2). destruct (IHe _ H1) as (a & -> & Da). cbn [bind].
    apply cut_some in H2 as (-> & ? & ? & ?). apply a_sub_den; assumption.
  - apply obind_some in H as (x & H1 & H2). destruct (IHe _ H1) as (a & -> & Da). cbn [bind].
    injection H2 as <-. apply a_upper_den. assumption.
Qed.

Lemma atexts_den l : forall t, atexts l = Some t ->
  exists xs ts, mapM aeval l = Ok xs /\ Forall2 den_atom xs ts /\ t = concat ts /\ zlen t <= int_max.
Proof.
  induction l as [|e l IH]; intros t H; cbn [atexts mapM] in *.
  - injection H as <-. exists [], []. repeat split; [constructor|vm_compute; discriminate].
  - apply obind_some in H as (x & H1 & H). apply obind_some in H as (y & H2 & H).
    apply fits_some in H as [-> H]. destruct (aeval_den _ _ H1) as (a & -> & Da). cbn [bind].
    destruct (IH _ H2) as (xs & ts & -> & F & -> & _). cbn [bind].
    exists (a :: xs), (x :: ts). repeat split; [constructor; assumption|exact H].
Qed.

Lemma seval_den e : forall t, stext e = Some t -> exists s, seval e = Ok s /\ den s t.
Proof.
  induction e; intros t H; cbn [stext seval] in *.
  - destruct (aeval_den _ _ H) as (x & -> & D). cbn [bind]. eexists; split; [reflexivity|]. constructor. exact D.
  - apply obind_some in H as (x & H1 & H). apply obind_some in H as (y & H2 & H). apply fits_some in H as [-> H].
    destruct (IHe1 _ H1) as (s1 & -> & D1). destruct (IHe2 _ H2) as (s2 & -> & D2). cbn [bind].
    eexists; split; [reflexivity|]. apply s_concat_den; assumption.
  - apply obind_some in H as (x & H1 & H). apply obind_some in H as (y & H2 & H). apply fits_some in H as [-> H].
    destruct (IHe1 _ H1) as (s1 & -> & D1). destruct (IHe2 _ H2) as (s2 & -> & D2). cbn [bind].
    eexists; split; [reflexivity|]. apply s_append_den; assumption.
  - apply obind_some in H as (x & H1 & H). apply obind_some in H as (y & H2 & H). apply fits_some in H as [-> H].
    destruct (IHe1 _ H1) as (s1 & -> & D1). destruct (IHe2 _ H2) as (s2 & -> & D2). cbn [bind].
    eexists; split; [reflexivity|]. apply s_prepend_den; assumption.
  - destruct (atexts_den _ _ H) as (xs & ts & -> & F & -> & Hm). cbn [bind].
    eexists; split; [reflexivity|]. apply s_join_den; assumption.
  - apply obind_some in H as (x & H1 & H2). injection H2 as <-.
    destruct (IHe _ H1) as (s1 & -> & D1). cbn [bind]. apply s_upper_den. exact D1.
Qed.

Lemma den_behaves s t : den s t -> behaves_as s t.
Proof.
  intros D. pose proof (den_wden _ _ D) as W. constructor.
  - apply den_len; exact D.
  - unfold s_isEmpty. rewrite (den_len _ _ D). destruct t; [reflexivity|].
    rewrite zlen_cons. pose proof (zlen_nonneg t). apply Z.eqb_neq. lia.
  - intros i Hi. destruct (znth_some t i Hi) as [c Hc]. exists c. split; [|eapply s_charAt_ok; eauto].
    unfold znth in Hc. destruct (i <? 0) eqn:E; [discriminate|exact Hc].
  - intros i Hi. eapply s_charAt_bad; eauto.
  - intros c. apply s_indexOf_wden; [exact W|]. eapply den_max; eauto.
  - intros c. apply s_startsWith_den. exact D.
  - apply s_toString_wden. exact W.
  - intros sb. apply s_toSB_wden. exact W.
  - intros sb. apply s_toApp_wden. exact W.
Qed.

Lemma seval_behaves e t : stext e = Some t -> exists s, seval e = Ok s /\ behaves_as s t.
Proof. intros H. destruct (seval_den _ _ H) as (s & E & D). exists s. split; [exact E|]. apply den_behaves. exact D. Qed.

(** ** element counts *)

Fixpoint cok (s : seq) : Prop :=
  match s with
  | Leaf _ => True
  | Cat l r _ k => cok l /\ cok r /\ k = wrap32 (zlen (leaves l ++ leaves r))
  | Arr _ _ => True
  end.

Lemma wrap32_add_l a b : wrap32 (wrap32 a + b) = wrap32 (a + b).
Proof.
  apply wrapN_eqm; [lia|]. rewrite <- Zplus_mod_idemp_l. unfold wrap32. rewrite wrapN_mod by lia.
  rewrite Zplus_mod_idemp_l. reflexivity.
Qed.
Lemma wrap32_add_r a b : wrap32 (a + wrap32 b) = wrap32 (a + b).
Proof. rewrite Z.add_comm, wrap32_add_l, Z.add_comm. reflexivity. Qed.

Lemma wrap32_idem a : wrap32 (wrap32 a) = wrap32 a.
Proof. pose proof (wrap32_add_l a 0) as H. rewrite !Z.add_0_r in H. exact H. Qed.

Lemma elementCount_cok s : cok s -> wrap32 (elementCount s) = wrap32 (zlen (leaves s)).
Proof.
  destruct s; cbn [cok elementCount leaves]; intros H.
  - reflexivity.
  - destruct H as (_ & _ & ->). apply wrap32_idem.
  - reflexivity.
Qed.

Lemma concat0_cok l r : cok l -> cok r -> cok (concat0 l r).
Proof.
  intros Hl Hr. unfold concat0. cbn [cok]. repeat split; auto.
  rewrite <- (wrap32_add_l (elementCount l)), (elementCount_cok l Hl), wrap32_add_l.
  rewrite <- (wrap32_add_r _ (elementCount r)), (elementCount_cok r Hr), wrap32_add_r.
  rewrite zlen_app. reflexivity.
Qed.

Lemma s_concat_cok l r : cok l -> cok r -> cok (s_concat l r).
Proof.
  intros Hl Hr. destruct l; cbn [s_concat]; try (apply concat0_cok; assumption).
  destruct Hl as (? & ? & _). repeat apply concat0_cok; assumption.
Qed.

Lemma s_append_cok s x : cok s -> cok x -> cok (s_append s x).
Proof.
  intros Hs Hx. unfold s_append.
  assert (cok (if s_isEmpty x then s else s_concat s x)) by (destruct (s_isEmpty x); [|apply s_concat_cok]; assumption).
  destruct s as [[]| |]; assumption.
Qed.

Lemma s_prepend_cok s x : cok s -> cok x -> cok (s_prepend s x).
Proof.
  intros Hs Hx. unfold s_prepend.
  assert (cok (if s_isEmpty x then s else s_concat x s)) by (destruct (s_isEmpty x); [|apply s_concat_cok]; assumption).
  destruct s as [[]| |]; assumption.
Qed.

Lemma seval_cok e : forall s, seval e = Ok s -> cok s.
Proof.
  induction e; intros s0 H; cbn [seval] in H.
  - destruct (aeval a); cbn in H; [|discriminate]. injection H as <-. exact I.
  - destruct (seval e1); cbn in H; [|discriminate]. destruct (seval e2); cbn in H; [|discriminate].
    injection H as <-. apply s_concat_cok; auto.
  - destruct (seval e1); cbn in H; [|discriminate]. destruct (seval e2); cbn in H; [|discriminate].
    injection H as <-. apply s_append_cok; auto.
  - destruct (seval e1); cbn in H; [|discriminate]. destruct (seval e2); cbn in H; [|discriminate].
    injection H as <-. apply s_prepend_cok; auto.
  - destruct (mapM aeval l) as [xs|]; cbn in H; [|discriminate]. injection H as <-.
    destruct xs as [|? [|? ?]]; exact I.
  - destruct (seval e) as [u|]; cbn in H; [|discriminate]. unfold s_upper in H. destruct u.
    + destruct (a_upper a); cbn in H; [|discriminate]. injection H as <-. exact I.
    + destruct (s_iter _); cbn in H; [|discriminate]. destruct (mapM _ _); cbn in H; [|discriminate].
      injection H as <-. exact I.
    + destruct (s_iter _); cbn in H; [|discriminate]. destruct (mapM _ _); cbn in H; [|discriminate].
      injection H as <-. exact I.
Qed.

(** iteration of an evaluated expression: the leaves in order, as many as announced *)
Lemma seval_iter e t : stext e = Some t ->
  exists s ps ts, seval e = Ok s /\ s_iter s = Ok ps /\ ps = leaves s /\
    Forall2 den_atom ps ts /\ concat ts = t /\ (zlen ps <= int_max -> elementCount s = zlen ps).
Proof.
  intros H. destruct (seval_den _ _ H) as (s & E & D). pose proof (den_wden _ _ D) as W.
  destruct (wden_leaves _ _ W) as (ts & F & Et).
  exists s, (leaves s), ts. split; [exact E|]. split; [apply s_iter_spec; eapply wden_ne; eauto|].
  split; [reflexivity|]. split; [exact F|]. split; [congruence|].
  intros Hm. pose proof (seval_cok _ _ E) as C. destruct s as [a|l r n k|ps n]; cbn [elementCount leaves] in *.
  - reflexivity.
  - destruct C as (_ & _ & ->). apply wrap32_id. pose proof (zlen_nonneg (leaves l ++ leaves r)).
    unfold is_int, int_min. lia.
  - reflexivity.
Qed.

(** ** subSequence of an evaluated expression *)

Lemma seval_sub e t i j : stext e = Some t -> 0 <= i -> i <= j -> j <= zlen t ->
  exists s u, seval e = Ok s /\ s_sub s i j = Ok u /\
    s_toString u = Ok (slice t i j) /\
    (forall sb, s_toSB u sb = Ok (sb ++ slice t i j)) /\
    (forall sb, s_toApp u sb = Ok (sb ++ slice t i j)) /\
    (forall c, s_indexOf u c = Ok (index_of c (slice t i j))) /\
    s_len u <= j - i.
Proof.
  intros H Hi Hij Hj. destruct (seval_den _ _ H) as (s & E & D).
  destruct (s_sub_spec _ _ i j D Hi Hij Hj) as (u & Eu & W & Hlen).
  exists s, u. split; [exact E|]. split; [exact Eu|].
  split; [apply s_toString_wden; exact W|]. split; [intros; apply s_toSB_wden; exact W|].
  split; [intros; apply s_toApp_wden; exact W|]. pose proof (den_max _ _ D). split.
  - intros c. apply s_indexOf_wden; [exact W|]. rewrite zlen_slice by lia. lia.
  - destruct Hlen as [D'|(ps & ini & last & -> & Es & _)].
    + rewrite (den_len _ _ D'), zlen_slice by lia. lia.
    + cbn [s_len]. assert (zlen (slice t i j) = zlen (ini ++ last)) by congruence.
      rewrite zlen_slice, zlen_app in H1 by lia. pose proof (zlen_nonneg ini). lia.
Qed.

Lemma seval_sub_bad e t i j : stext e = Some t -> t <> [] -> ~ (0 <= i /\ i <= j /\ j <= zlen t) ->
  exists s, seval e = Ok s /\ s_sub s i j = Err IndexOOB.
Proof.
  intros H Hne Hb. destruct (seval_den _ _ H) as (s & E & D). exists s. split; [exact E|].
  rewrite (s_sub_bad _ _ _ _ D Hb). destruct s as [[]| |]; try reflexivity.
  inversion D as [a t' [_ Ht]| |]; subst. contradiction.
Qed.

Lemma aeval_sub a t i j : atext a = Some t -> 0 <= i -> i <= j -> j <= zlen t ->
  exists s u, seval (Xatom a) = Ok s /\ s_sub s i j = Ok u /\ behaves_as u (slice t i j).
Proof.
  intros H Hi Hij Hj. destruct (aeval_den _ _ H) as (x & E & D).
  destruct (s_sub_leaf x t i j D Hi Hij Hj) as (b & Eb & Db).
  exists (Leaf x), (Leaf b). cbn [seval]. rewrite E. repeat split; try assumption; try reflexivity;
  apply (den_behaves _ _ Db).
Qed.

(** ** upper-casing *)
Lemma seval_upper e t : stext e = Some t -> exists s u, seval e = Ok s /\ s_upper s = Ok u /\
  behaves_as u (map (fun c => if (97 <=? c) && (c <=? 122) then c - 32 else c) t).
Proof.
  intros H. destruct (seval_den _ _ H) as (s & E & D). destruct (s_upper_den _ _ D) as (u & Eu & Du).
  exists s, u. split; [exact E|]. split; [exact Eu|]. apply den_behaves. exact Du.
Qed.

