(** Proofs about composite sequences of classes outside the library. *)
From Verif Require Import Base Digits UtilsM SeqM SeqSpec SeqP ContextM CompilerM IntFormM FormatterM MathM DecimalM FPDecimalM DoubleM BigDecM RoundM
  TraitsM ImplM FmtSpec FmtP CompM CompSpec.

Section Class.
  Context {S : Type}.
  Variable K : comp S.
  Notation cseq := (cseq S).
  Notation opens := (opens K).
  Notation opens_all := (opens_all K).

  Scheme opens_mut := Induction for CompSpec.opens Sort Prop
    with opens_all_mut := Induction for CompSpec.opens_all Sort Prop.

  Lemma opens_all_app a ta : opens_all a ta -> forall b tb, opens_all b tb -> opens_all (a ++ b) (ta ++ tb).
  Proof.
    induction 1 as [|x xs ts tss Hx Hxs IH]; intros b tb Hb; [exact Hb|]. cbn [app]. rewrite <- app_assoc. constructor; [exact Hx|apply IH; exact Hb].
  Qed.

  Lemma opens_leaves ps : opens_all (map (fun a => CLib (Leaf a)) ps) ps.
  Proof. induction ps as [|p ps IH]; cbn [map]; [constructor|]. exact (oa_cons K _ _ _ _ (op_lib K (Leaf p) I) IH). Qed.

  (** the next leaf *)
  Definition reaches (x : cseq) (ts : list atom) : Prop :=
    exists n a rest xs, ts = a :: rest /\ opens_all xs rest /\ forall fuel st, (n <= fuel)%nat -> k_descend K fuel x st = Ok (a, xs ++ st).

  Lemma lib_reaches s : has_leaves s -> reaches (CLib s) (leaves s).
  Proof.
    induction s as [a|l IHl r IHr n k|ps n]; intros H; cbn [leaves].
    - exists 1%nat, a, [], []. split; [reflexivity|]. split; [constructor|]. intros [|f] st Hf; [lia|reflexivity].
    - destruct H as [Hl Hr]. destruct (IHl Hl) as (m & a & rest & xs & E & Ho & Hd).
      exists (Datatypes.S m), a, (rest ++ leaves r), (xs ++ [CLib r]). split; [rewrite E; reflexivity|]. split.
      + apply opens_all_app; [exact Ho|]. rewrite <- (app_nil_r (leaves r)). constructor; [constructor; exact Hr|constructor].
      + intros [|f] st Hf; [lia|]. cbn [k_descend]. rewrite Hd by lia. rewrite <- app_assoc. reflexivity.
    - cbn in H. destruct ps as [|p ps]; [congruence|]. exists 1%nat, p, ps, (map (fun a => CLib (Leaf a)) ps). split; [reflexivity|].
      split; [apply opens_leaves|]. intros [|f] st Hf; [lia|reflexivity].
  Qed.

  Lemma opens_reaches x ts : opens x ts -> reaches x ts.
  Proof.
    revert x ts. apply (opens_mut S K (fun x ts _ => reaches x ts) (fun _ _ _ => True)).
    - intros s H. apply lib_reaches. exact H.
    - intros u x xs ts tss Hu Hx (n & a & rest & ys & -> & Ho & Hd) Hxs _.
      exists (Datatypes.S n), a, (rest ++ tss), (ys ++ xs). split; [reflexivity|]. split; [apply opens_all_app; assumption|].
      intros [|f] st Hf; [lia|]. cbn [k_descend]. rewrite Hu. cbn [bind]. rewrite Hd by lia. rewrite <- app_assoc. reflexivity.
    - intros l r n k tl tr Hl (m & a & rest & ys & -> & Ho & Hd) Hr _.
      exists (Datatypes.S m), a, (rest ++ tr), (ys ++ [r]). split; [reflexivity|]. split.
      + apply opens_all_app; [exact Ho|]. rewrite <- (app_nil_r tr). constructor; [exact Hr|constructor].
      + intros [|f] st Hf; [lia|]. cbn [k_descend]. rewrite Hd by lia. rewrite <- app_assoc. reflexivity.
    - exact I.
    - auto.
  Qed.

  Lemma opens_nonempty x ts : opens x ts -> ts <> [].
  Proof. intros H. destruct (opens_reaches x ts H) as (n & a & rest & xs & -> & _). discriminate. Qed.

  Lemma each_opens f : forall k stack ts, List.length ts = k -> opens_all stack ts ->
    exists n, forall fuel sb, (n <= fuel)%nat -> k_each K fuel f stack sb = emitAtoms f ts sb.
  Proof.
    induction k as [k IH] using lt_wf_ind. intros stack ts Hk H. destruct H as [|x xs ts tss Hx Hxs].
    - exists 0%nat. intros [|fuel] sb _; reflexivity.
    - destruct (opens_reaches x ts Hx) as (n & a & rest & ys & -> & Ho & Hd).
      destruct (IH (List.length (rest ++ tss)) ltac:(cbn [app List.length] in Hk; lia) (ys ++ xs) (rest ++ tss) eq_refl) as (m & Hm); [apply opens_all_app; assumption|].
      exists (Datatypes.S (Nat.max n m)). intros fuel sb Hf. destruct fuel as [|g]; [lia|]. cbn [k_each]. rewrite Hd by lia. cbn [app emitAtoms].
      destruct (f a sb); [|reflexivity]. apply Hm. lia.
  Qed.

  Lemma ups_opens : forall k stack ts, List.length ts = k -> opens_all stack ts ->
    exists n, forall fuel, (n <= fuel)%nat -> k_ups K fuel stack = mapM a_upper ts.
  Proof.
    induction k as [k IH] using lt_wf_ind. intros stack ts Hk H. destruct H as [|x xs ts tss Hx Hxs].
    - exists 0%nat. intros [|fuel] _; reflexivity.
    - destruct (opens_reaches x ts Hx) as (n & a & rest & ys & -> & Ho & Hd).
      destruct (IH (List.length (rest ++ tss)) ltac:(cbn [app List.length] in Hk; lia) (ys ++ xs) (rest ++ tss) eq_refl) as (m & Hm); [apply opens_all_app; assumption|].
      exists (Datatypes.S (Nat.max n m)). intros fuel Hf. destruct fuel as [|g]; [lia|]. cbn [k_ups]. rewrite Hd by lia. cbn [bind app mapM].
      rewrite Hm by lia. reflexivity.
  Qed.

  (** *** the sequences the formatter makes of such an object, and of the array *)
  Inductive same : cseq -> seq -> Prop :=
  | sm_lib s : same (CLib s) s
  | sm_own u : consistent K u -> same (COwn u) (as_array K u)
  | sm_left u a n k m : consistent K u -> 0 <= k -> same (CCat (COwn u) (CLib (Leaf a)) n k) (Cat (as_array K u) (Leaf a) n m)
  | sm_right u a n k m : consistent K u -> 0 <= k -> same (CCat (CLib (Leaf a)) (COwn u) n k) (Cat (Leaf a) (as_array K u) n m).

  Lemma array_ne u : consistent K u -> ne (as_array K u).
  Proof. intros (H & _). exact (opens_nonempty _ _ H). Qed.

  Lemma opens_one x ts : opens x ts -> opens_all [x] ts.
  Proof. intros H. rewrite <- (app_nil_r ts). constructor; [exact H|constructor]. Qed.

  Lemma same_emit f g s : same g s -> exists n, forall fuel sb, (n <= fuel)%nat -> k_emit K fuel f g sb = emitWith f s sb.
  Proof.
    intros [s'|u Hu|u a n k q Hu Hk|u a n k q Hu Hk]; cbn [k_emit].
    - exists 0%nat. reflexivity.
    - exists 0%nat. intros fuel sb _. unfold as_array, emitWith. cbn [s_iter]. reflexivity.
    - destruct (each_opens f _ [CCat (COwn u) (CLib (Leaf a)) n k] (k_iter K u ++ [a]) eq_refl) as (m & Hm).
      { apply opens_one. constructor; [exact (proj1 Hu)|exact (op_lib K (Leaf a) I)]. }
      exists m. intros fuel sb Hf. rewrite Hm by exact Hf. unfold emitWith. rewrite s_iter_spec by (split; [apply array_ne; exact Hu|exact I]). reflexivity.
    - destruct (each_opens f _ [CCat (CLib (Leaf a)) (COwn u) n k] ([a] ++ k_iter K u) eq_refl) as (m & Hm).
      { apply opens_one. constructor; [exact (op_lib K (Leaf a) I)|exact (proj1 Hu)]. }
      exists m. intros fuel sb Hf. rewrite Hm by exact Hf. unfold emitWith. rewrite s_iter_spec by (split; [exact I|apply array_ne; exact Hu]). reflexivity.
  Qed.

  Lemma same_upper g s : same g s -> exists n, forall fuel, (n <= fuel)%nat ->
    k_upper K fuel g = (let* s := s_upper s in Ok (CLib s)).
  Proof.
    intros [s'|u Hu|u a n k q Hu Hk|u a n k q Hu Hk]; cbn [k_upper].
    - exists 0%nat. reflexivity.
    - exists 0%nat. intros fuel _. destruct Hu as (_ & _ & Hc). replace (0 <=? k_count K u) with true by (symmetry; apply Z.leb_le; lia).
      cbn [checkArgument bind as_array s_upper s_iter s_len]. destruct (mapM a_upper (k_iter K u)); reflexivity.
    - destruct (ups_opens _ [CCat (COwn u) (CLib (Leaf a)) n k] (k_iter K u ++ [a]) eq_refl) as (m & Hm).
      { apply opens_one. constructor; [exact (proj1 Hu)|exact (op_lib K (Leaf a) I)]. }
      exists m. intros fuel Hf. rewrite Hm by exact Hf. replace (0 <=? k) with true by (symmetry; apply Z.leb_le; lia).
      cbn [checkArgument bind]. unfold s_upper. rewrite s_iter_spec by (split; [apply array_ne; exact Hu|exact I]). cbn [leaves as_array bind s_len].
      destruct (mapM a_upper (k_iter K u ++ [a])); reflexivity.
    - destruct (ups_opens _ [CCat (CLib (Leaf a)) (COwn u) n k] ([a] ++ k_iter K u) eq_refl) as (m & Hm).
      { apply opens_one. constructor; [exact (op_lib K (Leaf a) I)|exact (proj1 Hu)]. }
      exists m. intros fuel Hf. rewrite Hm by exact Hf. replace (0 <=? k) with true by (symmetry; apply Z.leb_le; lia).
      cbn [checkArgument bind]. unfold s_upper. rewrite s_iter_spec by (split; [exact I|apply array_ne; exact Hu]). cbn [leaves as_array bind s_len].
      destruct (mapM a_upper ([a] ++ k_iter K u)); reflexivity.
  Qed.

  Lemma same_justify c g s : same g s -> (forall l r n k, g <> CCat l r n k) ->
    match spaceJustify c s with
    | Ok t => exists h, k_spaceJustify K c g = Ok h /\ same h t
    | Err e => k_spaceJustify K c g = Err e
    end.
  Proof.
    intros [s'|u Hu|u a n k q Hu Hk|u a n k q Hu Hk] Hg; try (exfalso; eapply Hg; reflexivity).
    - cbn [k_spaceJustify]. destruct (spaceJustify c s') as [t|e]; [|reflexivity]. exists (CLib t). split; [reflexivity|constructor].
    - cbn [k_spaceJustify]. unfold spaceJustify. cbn [s_len as_array k_len]. destruct (k_length K u <? width c).
      + unfold repeated, s_repeated. set (w := wrap32 (width c - k_length K u)). destruct (1 <=? w) eqn:E; cbn [checkArgument bind]; [|reflexivity].
        apply Z.leb_le in E. destruct Hu as (Ho & Hs & Hc).
        assert (P : exists a, (let* x := (if w =? 1 then Ok (s_ch (ch " ")) else Ok (ARep (ch " ") w)) in Ok (Leaf x)) = Ok (Leaf a) /\ a_len a <> 0).
        { destruct (w =? 1); eexists; (split; [reflexivity|]); cbn; lia. }
        destruct P as (a & Ea & La). rewrite Ea. cbn [bind]. eexists. split; [reflexivity|].
        unfold s_append, s_prepend, s_isEmpty, k_append, k_prepend. cbn [s_len k_len]. rewrite (proj2 (Z.eqb_neq _ _) La).
        assert (W : 0 <= wrap32 (k_count K u + 1) /\ 0 <= wrap32 (1 + k_count K u)).
        { rewrite (Z.add_comm 1). rewrite FmtP.wrap32_small; unfold int_max in *; lia. }
        destruct (hasFlag c LEFT_JUSTIFY).
        * apply sm_left; [exact (conj Ho (conj Hs Hc))|apply W].
        * apply sm_right; [exact (conj Ho (conj Hs Hc))|apply W].
      + eexists. split; [reflexivity|constructor; exact Hu].
  Qed.
  Lemma same_sub u i j : consistent K u ->
    match s_sub (as_array K u) i j with
    | Ok t => exists h, k_sub K u i j = Ok h /\ same h t /\ forall l r n k, h <> CCat l r n k
    | Err e => k_sub K u i j = Err e
    end.
  Proof.
    intros Hu. unfold k_sub, as_array. cbn [s_sub s_len s_iter]. destruct (checkPositionIndexes i j (k_length K u)) as [[]|e]; cbn [bind]; [|reflexivity].
    destruct (i =? j); [eexists; split; [reflexivity|]; split; [constructor|discriminate]|].
    destruct ((i =? 0) && (j =? k_length K u)); [eexists; split; [reflexivity|]; split; [constructor; exact Hu|discriminate]|].
    destruct (sub_loop (k_iter K u) i j []) as [[[buf i'] j']|e]; cbn [bind]; [|reflexivity].
    destruct buf as [|x [|y buf]]; (eexists; split; [reflexivity|]; split; [constructor|discriminate]).
  Qed.

  Lemma same_fmt_s c u : consistent K u ->
    match fmt_s c (as_array K u) with
    | Ok t => exists h, k_fmt_s K c u = Ok h /\ same h t
    | Err e => k_fmt_s K c u = Err e
    end.
  Proof.
    intros Hu. unfold fmt_s, k_fmt_s. change (s_len (as_array K u)) with (k_length K u).
    destruct (isPrecisionSet c && (c_prec c <? k_length K u)); cbn [bind].
    - pose proof (same_sub u 0 (c_prec c) Hu) as Q. destruct (s_sub (as_array K u) 0 (c_prec c)) as [t|e]; cbn [bind]; [|rewrite Q; reflexivity].
      destruct Q as (h & -> & Hs & Hn). cbn [bind]. apply same_justify; assumption.
    - apply same_justify; [constructor; exact Hu|discriminate].
  Qed.

  (** *** the format loop *)
  Variable J : jdk.
  Notation like := (with_array K J).

  Lemma same_plain u r : consistent K u ->
    t_asChar (k_traits K J u r) = t_asChar (traitsOf J (VSeq (as_array K u)) r) /\
    t_asIntForm (k_traits K J u r) = t_asIntForm (traitsOf J (VSeq (as_array K u)) r) /\
    t_asFloatForm (k_traits K J u r) = t_asFloatForm (traitsOf J (VSeq (as_array K u)) r) /\
    t_asInt (k_traits K J u r) = t_asInt (traitsOf J (VSeq (as_array K u)) r) /\
    t_asTemporal (k_traits K J u r) = t_asTemporal (traitsOf J (VSeq (as_array K u)) r).
  Proof.
    intros (Ho & Hs & Hc). unfold k_traits. rewrite Hs. cbn [traitsOf charSeqTraits t_asChar t_asIntForm t_asFloatForm t_asInt t_asTemporal].
    repeat split; reflexivity.
  Qed.

  Lemma like_asInt a x : like a x -> t_asInt (k_plain K J a) = t_asInt x.
  Proof. intros [y|u r H]; [reflexivity|]. apply (same_plain u r H). Qed.

  Lemma like_formatter sp c a x : like a x -> exists n,
    match formatterFor J sp c x with
    | Ok s => exists h, same h s /\ forall fuel, (n <= fuel)%nat -> k_formatterFor K J fuel sp c a = Ok h
    | Err e => forall fuel, (n <= fuel)%nat -> k_formatterFor K J fuel sp c a = Err e
    end.
  Proof.
    intros [y|u r H].
    - exists 0%nat. cbn [k_formatterFor k_plain]. destruct (formatterFor J sp c y) as [s|e]; cbn [bind]; [|reflexivity]. exists (CLib s). split; [constructor|reflexivity].
    - destruct (same_plain u r H) as (E1 & E2 & E3 & E4 & E5).
      assert (D : sp = Ss \/ sp = SS \/ (forall fuel, k_formatterFor K J fuel sp c (KOwn u r) =
                 (let* s := formatterFor J sp c (traitsOf J (VSeq (as_array K u)) r) in Ok (CLib s)))).
      { destruct sp; auto; right; right; intros fuel; cbn [k_formatterFor k_plain formatterFor]; unfold withInt, withFloat, upperOf, fmt_t;
          rewrite ?E1, ?E2, ?E3, ?E4, ?E5; reflexivity. }
      pose proof (same_fmt_s c u H) as Q. destruct D as [-> |[-> |D]].
      + exists 0%nat. cbn [formatterFor traitsOf charSeqTraits t_asSeq bind k_formatterFor]. destruct (fmt_s c (as_array K u)) as [t|e]; [|intros; exact Q].
        destruct Q as (h & Eh & Sh). exists h. split; [exact Sh|intros; exact Eh].
      + cbn [formatterFor traitsOf charSeqTraits t_asSeq bind k_formatterFor]. unfold upperOf. cbn [bind]. destruct (fmt_s c (as_array K u)) as [t|e]; cbn [bind].
        * destruct Q as (h & Eh & Sh). destruct (same_upper h t Sh) as (n & Hn). exists n. destruct (s_upper t) as [t'|e].
          -- exists (CLib t'). split; [constructor|]. intros fuel Hf. rewrite Eh. cbn [bind]. rewrite Hn by exact Hf. reflexivity.
          -- intros fuel Hf. rewrite Eh. cbn [bind]. rewrite Hn by exact Hf. reflexivity.
        * exists 0%nat. intros fuel _. rewrite Q. reflexivity.
      + exists 0%nat. destruct (formatterFor J sp c (traitsOf J (VSeq (as_array K u)) r)) as [s|e]; cbn [bind] in D; [|intros; apply D].
        exists (CLib s). split; [constructor|intros; apply D].
  Qed.

  Lemma like_resolve c it xs : Forall2 like it xs ->
    match resolveCtx c xs with
    | Ok (c', xs') => exists it', k_resolveCtx K J c it = Ok (c', it') /\ Forall2 like it' xs'
    | Err e => k_resolveCtx K J c it = Err e
    end.
  Proof.
    intros F.
    assert (N : forall it xs, Forall2 like it xs -> match nextInt xs with
      | Ok (w, xs') => exists it', k_nextInt K J it = Ok (w, it') /\ Forall2 like it' xs'
      | Err e => k_nextInt K J it = Err e end).
    { intros i l [|a x i' l' Hx Hr]; cbn [nextInt k_nextInt]; [reflexivity|]. rewrite (like_asInt _ _ Hx).
      destruct (t_asInt x) as [w|e]; cbn [bind]; [|reflexivity]. exists i'. split; [reflexivity|exact Hr]. }
    unfold resolveCtx, k_resolveCtx.
    assert (P : forall c1 it xs, Forall2 like it xs ->
      match (if isPrecedingPrecision c1 then let* (p, it) := nextInt xs in let* c := setPrecision c1 (if 0 <=? p then p else UNSET) in Ok (c, it) else Ok (c1, xs)) with
      | Ok (c', xs') => exists it', (if isPrecedingPrecision c1 then let* (p, it) := k_nextInt K J it in let* c := setPrecision c1 (if 0 <=? p then p else UNSET) in Ok (c, it) else Ok (c1, it)) = Ok (c', it') /\ Forall2 like it' xs'
      | Err e => (if isPrecedingPrecision c1 then let* (p, it) := k_nextInt K J it in let* c := setPrecision c1 (if 0 <=? p then p else UNSET) in Ok (c, it) else Ok (c1, it)) = Err e end).
    { intros c1 i l Fl. destruct (isPrecedingPrecision c1); [|exists i; auto]. specialize (N i l Fl). destruct (nextInt l) as [[p l']|e]; cbn [bind].
      - destruct N as (i' & Ei & Fi). rewrite Ei. cbn [bind]. destruct (setPrecision c1 (if 0 <=? p then p else UNSET)); cbn [bind]; [exists i'; auto|reflexivity].
      - rewrite N. reflexivity. }
    destruct (isPrecedingWidth c); cbn [bind]; [|apply P; exact F].
    pose proof (N it xs F) as N1. destruct (nextInt xs) as [[w xs']|e]; cbn [bind]; [|rewrite N1; reflexivity].
    destruct N1 as (i' & Ei & Fi). rewrite Ei. cbn [bind].
    destruct (if 0 <=? w then setWidth c w else setWidth (addFlag c LEFT_JUSTIFY) (wrap32 (- w))) as [c1|e]; cbn [bind]; [|reflexivity]. apply P. exact Fi.
  Qed.

  Lemma like_run b ds : forall it xs sb, Forall2 like it xs ->
    exists n, forall fuel, (n <= fuel)%nat -> k_run K J fuel b ds it sb = run J (if b then emitSB else emitApp) ds xs sb.
  Proof.
    assert (Em : forall s sb, emitWith (if b then a_toSB else a_toApp) s sb = (if b then emitSB else emitApp) s sb) by (destruct b; reflexivity).
    induction ds as [|d ds IH]; intros it xs sb F; cbn [k_run run]; [exists 0%nat; reflexivity|].
    destruct d as [t|sp c]; cbn [k_appendOne appendOne].
    - cbn [k_emit]. rewrite Em. destruct ((if b then emitSB else emitApp) (wrapS t) sb) as [sb' [e|]]; [exists 0%nat; reflexivity|]. apply IH. exact F.
    - pose proof (like_resolve c it xs F) as Q. destruct (resolveCtx c xs) as [[c' xs']|e]; cbn [bind]; [|exists 0%nat; intros; rewrite Q; reflexivity].
      destruct Q as (it' & Ei & Fi). rewrite Ei. cbn [bind].
      destruct Fi as [|a x l l' Hx Hr]; [exists 0%nat; reflexivity|]. destruct (like_formatter sp c' a x Hx) as (n & Q).
      destruct (formatterFor J sp c' x) as [s|e]; cbn [bind]; [|exists n; intros fuel Hf; rewrite Q by exact Hf; reflexivity].
      destruct Q as (h & Sh & Eh). destruct (same_emit (if b then a_toSB else a_toApp) h s Sh) as (m & Hm).
      destruct ((if b then emitSB else emitApp) s sb) as [sb' [e|]] eqn:Es.
      + exists (Nat.max n m). intros fuel Hf. rewrite Eh by lia. cbn [bind]. rewrite Hm by lia. rewrite Em, Es. reflexivity.
      + destruct (IH l l' sb' Hr) as (k & Hk). exists (Nat.max n (Nat.max m k)). intros fuel Hf. rewrite Eh by lia. cbn [bind]. rewrite Hm by lia. rewrite Em, Es. apply Hk. lia.
  Qed.
End Class.
