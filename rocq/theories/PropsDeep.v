(** C116: arrays of arrays. *)
From Verif Require Import Base Digits UtilsM SeqM SeqSpec SeqP ContextM CompilerM CompilerP2 GrammarSpec IntFormM FormatterM BigDecM TraitsM ImplM
  FmtSpec DirSpec LoopSpec ExactSpec ValueSpec WholeSpec WholeP IntP PropsInt PropsValue PropsWhole ArrM ArrSpec PropsArr DeepM DeepSpec.

Scheme deep_ind := Induction for deep_text Sort Prop with elems_ind := Induction for elems_text Sort Prop.
Combined Scheme deep_both from deep_ind, elems_ind.

Definition elemText (J : jdk) (h : heap) f seen e :=
  match e with ENull => Some (txt "null") | EPlain v other => Some (lenientItem J (Some (v, other))) | ERef j => deepText J h f seen j end.
Fixpoint elemTexts (J : jdk) (h : heap) f seen l :=
  match l with
  | [] => Some []
  | e :: r => match elemText J h f seen e with Some t => match elemTexts J h f seen r with Some ts => Some (t :: ts) | None => None end | None => None end
  end.
Lemma deepText_S J h f seen i : deepText J h (S f) seen i =
  match nth_error h i with
  | None => None
  | Some (CPrim a) => Some (arrayToString J a)
  | Some (CObjects l) => if existsb (Nat.eqb i) seen then Some (txt "[...]") else match elemTexts J h f (i :: seen) l with Some ts => Some (listed ts) | None => None end
  end.
Proof.
  cbn [deepText]. destruct (nth_error h i) as [[a|l]|]; try reflexivity. destruct (existsb _ seen); [reflexivity|].
  match goal with |- match ?F l with _ => _ end = _ => assert (E : F l = elemTexts J h f (i :: seen) l) end.
  { induction l as [|e l IH]; [reflexivity|]. cbn [elemTexts]. rewrite <- IH. destruct e; reflexivity. }
  rewrite E. destruct (elemTexts J h f (i :: seen) l) as [[|t ts]|]; try reflexivity. rewrite join_listed by discriminate. reflexivity.
Qed.

Lemma seen_iff i seen : existsb (Nat.eqb i) seen = true <-> In i seen.
Proof.
  rewrite existsb_exists. split; [intros (x & Hx & E); apply Nat.eqb_eq in E; subst; exact Hx|]. intros H. exists i. split; [exact H|apply Nat.eqb_refl].
Qed.
Lemma array_string J a t : array_text J a t -> arrayToString J a = t.
Proof. intros H. apply array_text_object in H. rewrite <- objText_spec, array_object in H. injection H as H. exact H. Qed.

Lemma deep_sound J h :
  (forall seen i t, deep_text J h seen i t -> forall f u, deepText J h f seen i = Some u -> u = t) /\
  (forall seen l ts, elems_text J h seen l ts -> forall f us, elemTexts J h f seen l = Some us -> us = ts).
Proof.
  apply (deep_both J h (fun seen i t _ => forall f u, deepText J h f seen i = Some u -> u = t) (fun seen l ts _ => forall f us, elemTexts J h f seen l = Some us -> us = ts)).
  - intros seen i a t E H [|f] u; [discriminate|]. rewrite deepText_S, E. intros [= <-]. apply array_string. exact H.
  - intros seen i l E H [|f] u; [discriminate|]. rewrite deepText_S, E. apply seen_iff in H. rewrite H. intros [= <-]. reflexivity.
  - intros seen i l ts E H _ IH [|f] u; [discriminate|]. rewrite deepText_S, E. destruct (existsb _ seen) eqn:X; [apply seen_iff in X; tauto|].
    destruct (elemTexts J h f (i :: seen) l) as [us|] eqn:Y; [|discriminate]. intros [= <-]. rewrite (IH _ _ Y). reflexivity.
  - intros seen f us [= <-]. reflexivity.
  - intros seen l ts _ IH f us. cbn [elemTexts elemText]. destruct (elemTexts J h f seen l) eqn:Y; [|discriminate]. intros [= <-]. rewrite (IH _ _ Y). reflexivity.
  - intros seen v other l t ts H _ IH f us. cbn [elemTexts elemText]. destruct (elemTexts J h f seen l) eqn:Y; [|discriminate]. intros [= <-]. rewrite (IH _ _ Y). f_equal. exact (item_lenient _ _ _ H).
  - intros seen j l t ts _ IHt _ IH f us. cbn [elemTexts elemText]. destruct (deepText J h f seen j) eqn:X; [|discriminate]. destruct (elemTexts J h f seen l) eqn:Y; [|discriminate].
    intros [= <-]. rewrite (IHt _ _ X), (IH _ _ Y). reflexivity.
Qed.

Lemma plain_text J v other : java_value v -> exists t, item_text J (Some (v, other)) t.
Proof.
  intros Hv. destruct (C94_texts_exist J (AObjects [Some (v, other)])) as (t & H & _); [exact I|constructor; [exact Hv|constructor]|].
  inversion H as [| | | | | | | |l ts F]; subst. inversion F; subst. eexists. eassumption.
Qed.

Lemma deep_exists J h : Forall (cell_ok h) h -> forall f seen i, (i < length h)%nat -> NoDup seen -> (forall x, In x seen -> (x < length h)%nat) -> (length h < f + length seen)%nat ->
  exists t, deepText J h f seen i = Some t /\ deep_text J h seen i t.
Proof.
  intros Hh. assert (B : forall seen, NoDup seen -> (forall x, In x seen -> (x < length h)%nat) -> (length seen <= length h)%nat).
  { intros seen N L. rewrite <- (seq_length (length h) 0). apply NoDup_incl_length; [exact N|]. intros x Hx. apply in_seq. specialize (L x Hx). lia. }
  induction f as [|f IH]; intros seen i Hi N L F; [specialize (B seen N L); lia|]. rewrite deepText_S.
  destruct (nth_error h i) as [c|] eqn:E; [|apply nth_error_None in E; lia].
  pose proof (proj1 (Forall_forall _ _) Hh c (nth_error_In _ _ E)) as Hc. destruct c as [a|l].
  - destruct Hc as [Ha Hb]. destruct (C94_texts_exist J a Ha) as (t & H & _); [destruct a; tauto|]. exists t. rewrite (array_string J a t H). split; [reflexivity|]. exact (dt_prim J h seen i a t E H).
  - destruct (existsb (Nat.eqb i) seen) eqn:X.
    + exists (txt "[...]"). split; [reflexivity|]. apply seen_iff in X. exact (dt_again J h seen i l E X).
    + assert (X' : ~ In i seen) by (intros Y; apply seen_iff in Y; congruence).
      assert (G : exists ts, elemTexts J h f (i :: seen) l = Some ts /\ elems_text J h (i :: seen) l ts).
      { clear E. cbn [cell_ok] in Hc. induction Hc as [|e l He _ IHl]; [exists []; split; [reflexivity|constructor]|]. destruct IHl as (ts & E1 & E2). cbn [elemTexts]. rewrite E1.
        destruct e as [|v other|j]; cbn [elemText].
        - exists (txt "null" :: ts). split; [reflexivity|constructor; exact E2].
        - destruct (plain_text J v other He) as [t Ht]. exists (t :: ts). rewrite (item_lenient _ _ _ Ht). split; [reflexivity|constructor; assumption].
        - destruct (IH (i :: seen) j) as (t & T1 & T2); [exact He|constructor; assumption|intros x [<-|Hx]; [exact Hi|exact (L x Hx)]|cbn [length]; lia|].
          exists (t :: ts). rewrite T1. split; [reflexivity|constructor; assumption]. }
      destruct G as (ts & E1 & E2). exists (listed ts). rewrite E1. split; [reflexivity|]. exact (dt_objects J h seen i l ts E X' E2).
Qed.

(** every array has a text, exactly the specified one, also an array that contains itself *)
Theorem C116_text : forall J h i, Forall (cell_ok h) h -> (i < length h)%nat ->
  exists t, deepString J h i = Some t /\ forall u, deep_text J h [] i u <-> u = t.
Proof.
  intros J h i Hh Hi. destruct (deep_exists J h Hh (S (length h)) [] i Hi) as (t & E & H); [constructor|intros x []|cbn [length]; lia|].
  exists t. split; [exact E|]. intros u. split; [intros Hu; symmetry; exact (proj1 (deep_sound J h) _ _ _ Hu _ _ E)|intros ->; exact H].
Qed.
Print Assumptions C116_text.

(** %s of the array is %s of that text, in every field and with every precision *)
Theorem C116_directive : forall J h i t src q r, Forall (cell_ok h) h -> (i < length h)%nat -> deep_text J h [] i t -> zlen t <= int_max ->
  (directive src Ss q -> prints J src [deepArg J h i r] (c_s q t)) /\ (directive src SS q -> prints J src [deepArg J h i r] (upper (c_s q t))).
Proof.
  intros J h i t src q r Hh Hi H L. destruct (C116_text J h i Hh Hi) as (u & E & U). apply U in H. subst u. unfold deepArg. rewrite E.
  exact (C12_string_conversion_partial J (VObj (OOther (Ok t))) t r src q (it_obj J (OOther (Ok t)) t eq_refl) L).
Qed.
Print Assumptions C116_directive.

(** arrays without arrays among their elements print as before *)
Theorem C116_flat_arrays : forall J h i ident, (i < length h)%nat ->
  match nth_error h i with
  | Some (CPrim a) => deepString J h i = Some (arrayToString J a)
  | Some (CObjects l) => (forall j, ~ In (ERef j) l) -> deepString J h i = Some (arrayToString J (AObjects (map (shallow ident) l)))
  | None => False
  end.
Proof.
  intros J h i ident Hi. unfold deepString. rewrite deepText_S. destruct (nth_error h i) as [[a|l]|] eqn:E; [reflexivity| |apply nth_error_None in E; lia].
  intros N. cbn [existsb]. assert (G : elemTexts J h (length h) [i] l = Some (map (lenientItem J) (map (shallow ident) l))).
  { clear E. induction l as [|e l IH]; [reflexivity|]. cbn [elemTexts map]. rewrite IH by (intros j Hj; apply (N j); right; exact Hj).
    destruct e as [| |j]; try reflexivity. exfalso. apply (N j). left. reflexivity. }
  rewrite G. f_equal. destruct l as [|e l]; [reflexivity|]. cbn [map arrayToString]. rewrite join_listed by discriminate. reflexivity.
Qed.
Print Assumptions C116_flat_arrays.

Lemma seen_irrelevant J h rank : (forall i l j, nth_error h i = Some (CObjects l) -> In (ERef j) l -> (rank j < rank i)%nat) ->
  (forall seen i t, deep_text J h seen i t -> forall seen', (forall x, In x seen -> (rank i < rank x)%nat) -> (forall x, In x seen' -> (rank i < rank x)%nat) -> deep_text J h seen' i t) /\
  (forall seen l ts, elems_text J h seen l ts -> forall seen' b, (forall j, In (ERef j) l -> (rank j < b)%nat) -> (forall x, In x seen -> (b <= rank x)%nat) -> (forall x, In x seen' -> (b <= rank x)%nat) -> elems_text J h seen' l ts).
Proof.
  intros R.
  apply (deep_both J h (fun seen i t _ => forall seen', (forall x, In x seen -> (rank i < rank x)%nat) -> (forall x, In x seen' -> (rank i < rank x)%nat) -> deep_text J h seen' i t)
    (fun seen l ts _ => forall seen' b, (forall j, In (ERef j) l -> (rank j < b)%nat) -> (forall x, In x seen -> (b <= rank x)%nat) -> (forall x, In x seen' -> (b <= rank x)%nat) -> elems_text J h seen' l ts)).
  - intros seen i a t E H seen' _ _. exact (dt_prim J h seen' i a t E H).
  - intros seen i l E H seen' H1 _. specialize (H1 i H). lia.
  - intros seen i l ts E H _ IH seen' H1 H2. apply (dt_objects J h seen' i l ts E); [intros X; specialize (H2 i X); lia|].
    apply (IH (i :: seen') (rank i)); [intros j; exact (R i l j E)| |]; intros x [<-|Hx]; try lia; [specialize (H1 x Hx)|specialize (H2 x Hx)]; lia.
  - intros. constructor.
  - intros seen l ts _ IH seen' b H1 H2 H3. constructor. apply (IH seen' b); try assumption. intros j Hj. apply H1. right. exact Hj.
  - intros seen v other l t ts H _ IH seen' b H1 H2 H3. constructor; [exact H|]. apply (IH seen' b); try assumption. intros j Hj. apply H1. right. exact Hj.
  - intros seen j l t ts _ IHt _ IH seen' b H1 H2 H3. pose proof (H1 j (or_introl eq_refl)) as Hj. constructor.
    + apply IHt; intros x Hx; [specialize (H2 x Hx)|specialize (H3 x Hx)]; lia.
    + apply (IH seen' b); try assumption. intros k Hk. apply H1. right. exact Hk.
Qed.

(** an array of anything, arrays included, prints as the format "[%s, %s, ..., %s]" prints its elements, unless some array contains itself *)
Theorem C116_prints_like_its_elements : forall J h i l t r, jdk_ok J -> Forall (cell_ok h) h -> no_cycle h -> nth_error h i = Some (CObjects l) -> Forall plain_elem l ->
  deep_text J h [] i t -> zlen t <= int_max ->
  prints J (txt "%s") [deepArg J h i r] t /\ prints J (each (length l)) (map (elem_arg J h) l) t.
Proof.
  intros J h i l t r HJ Hh [rank R] E Hp H L. assert (Hi : (i < length h)%nat) by (apply nth_error_Some; congruence). split.
  - rewrite <- (c_s_q0 t). apply (C116_directive J h i t (txt "%s") q0 r Hh Hi H L).
    change (txt "%s") with (pct :: [] ++ [] ++ [] ++ [ch "s"]). is_dir (dir_text [] noFlags [] UNSET [] UNSET).
  - inversion H as [s0 i0 a t0 E' _|s0 i0 l0 E' X|s0 i0 l0 ts E' _ F]; subst; [congruence|destruct X|]. rewrite E in E'. injection E' as <-.
    assert (B : forall u, In u ts -> zlen u <= int_max).
    { intros u Hu. pose proof (commas_bound u ts Hu). unfold listed in L. rewrite !zlen_app in L. change (zlen (txt "[")) with 1 in L. change (zlen (txt "]")) with 1 in L. lia. }
    pose proof (proj1 (Forall_forall _ _) Hh _ (nth_error_In _ _ E)) as Hc. cbn [cell_ok] in Hc.
    assert (F' : elems_text J h [] l ts).
    { apply (proj2 (seen_irrelevant J h rank R) _ _ _ F [] (rank i)); [intros j; exact (R i l j E)|intros x [<-|[]]; lia|intros x []]. }
    assert (G : Forall2 (fun x t => shown J Ss None q0 x (Ok t)) (map (elem_arg J h) l) ts).
    { clear E F H L R. remember [] as seen eqn:Es in F'. induction F' as [s|s l ts F IH|s v other l u ts Hv F IH|s j l u ts Hd F IH]; [constructor| | |];
        inversion Hp; inversion Hc; subst; cbn [map]; (constructor; [|apply IH; auto; intros w Hw; apply B; right; exact Hw]).
      - apply (item_shown J None (txt "null")); [exact I|constructor|vm_compute; discriminate].
      - apply (item_shown J (Some (v, other)) u); [assumption|exact Hv|apply B; left; reflexivity].
      - cbn [elem_arg]. unfold deepArg. destruct (C116_text J h j Hh) as (w & W & U); [assumption|]. apply U in Hd. subst w. rewrite W.
        apply text_shown; [discriminate|constructor; reflexivity|apply B; left; reflexivity]. }
    pose proof (each_prints J _ _ [] HJ G) as P. rewrite app_nil_r, map_length in P. exact P.
Qed.
Print Assumptions C116_prints_like_its_elements.

(** int[][], an array that contains itself, and two that contain each other *)
Example C116_example : forall J,
  let h := [CObjects [ERef 1; ENull; ERef 2]; CPrim (AInts [1; 2]); CPrim (ABools []); CObjects [ERef 3; ERef 1]; CObjects [ERef 5]; CObjects [ERef 4; ERef 3]] in
  Forall (cell_ok h) h /\ deepString J h 0 = Some (txt "[[1, 2], null, []]") /\ deepString J h 3 = Some (txt "[[...], [1, 2]]") /\
  deepString J h 4 = Some (txt "[[[...], [[...], [1, 2]]]]") /\ no_cycle (firstn 3 h).
Proof.
  intros J h. split; [repeat constructor; vm_compute; intuition (discriminate || lia)|]. do 3 (split; [reflexivity|]).
  exists (fun i => match i with O => 1%nat | _ => O end). intros i l j E H. destruct i as [|[|[|i]]]; cbn in E; try discriminate; [|destruct i; discriminate].
  injection E as <-. destruct H as [[= <-]|[H|[[= <-]|[]]]]; try lia. discriminate H.
Qed.
