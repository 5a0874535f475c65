(** Proofs about EffM.v. *)
From Verif Require Import Base Digits UtilsM SeqM ContextM CompilerM IntFormM FormatterM MathM DecimalM FPDecimalM DoubleM
  BigDecM RoundM TraitsM ImplM ImplP LoopSpec LoopP EffM EffSpec.

Section Eff.
  Variable J : jdk.
  Variable U : Type.
  Variable object : Z -> etraits U.
  Hypothesis Hcount : forall id, counted (object id).
  Variable A0 : list Z.
  Variable exp : Z.
  Notation state := (state U).
  Notation cur s := (s_cursor U s).
  Notation modc s := (w_mod U (s_world U s)).
  Notation argsof s := (w_args U (s_world U s)).

  Definition inv (s : state) : Prop := 0 <= cur s <= zlen A0 /\ exp <= modc s /\ (modc s = exp -> argsof s = A0).
  Definition after (s s' : state) : Prop :=
    inv s' /\ cur s <= cur s' /\ modc s <= modc s' /\ (modc s <> exp -> cur s' = cur s).

  Lemma after_refl s : inv s -> after s s.
  Proof. intros H. split; [exact H|]. repeat split; lia. Qed.
  Lemma after_trans a b c : inv a -> after a b -> after b c -> after a c.
  Proof.
    intros (_ & Ha & _) (_ & H1 & H2 & H3) (I2 & H4 & H5 & H6). split; [exact I2|]. repeat split; try lia.
  Qed.

  (** *** The calls made *)
  Definition traces {X} (m : action U X) (dem : list method) : Prop :=
    forall s r s', inv s -> m s = (r, s') -> after s s' /\
      (exists n, s_calls U s' = s_calls U s ++ combine (slice A0 (cur s) (cur s')) (firstn n dem) /\
                 (n <= length dem)%nat /\ Z.of_nat n = cur s' - cur s) /\
      match r with Ok _ => cur s' - cur s = zlen dem | Err _ => True end.

  Lemma combine_app' {X Y} (a c : list X) (b d : list Y) : length a = length b -> combine (a ++ c) (b ++ d) = combine a b ++ combine c d.
  Proof. revert b. induction a as [|x a IH]; intros [|y b] E; cbn in *; try discriminate; [reflexivity|]. rewrite IH by lia. reflexivity. Qed.

  Lemma traces_done {X} (r : res X) : traces (done U r) [].
  Proof.
    intros s r' s' H E. inversion E; subst. split; [apply after_refl; exact H|]. split.
    - exists 0%nat. cbn. rewrite combine_nil, app_nil_r. split; [reflexivity|]. split; lia.
    - destruct r'; [cbn; lia|exact I].
  Qed.

  Lemma slice_join (a b c : Z) : 0 <= a -> a <= b -> b <= c -> c <= zlen A0 -> slice A0 a c = slice A0 a b ++ slice A0 b c.
  Proof.
    intros H1 H2 H3 H4. unfold slice. rewrite <- (firstn_skipn (Z.to_nat (b - a)) (firstn (Z.to_nat (c - a)) (skipn (Z.to_nat a) A0))).
    rewrite firstn_firstn. rewrite Nat.min_l by lia. f_equal. rewrite skipn_firstn_comm, skipn_skipn'.
    f_equal; [lia|]. f_equal. lia.
  Qed.

  Lemma traces_then {X Y} (m : action U X) (k : X -> action U Y) d1 d2 :
    traces m d1 -> (forall s x s', m s = (Ok x, s') -> traces (k x) d2) -> traces (andThen U m k) (d1 ++ d2).
  Proof.
    intros Hm Hk s r s' Hs E. unfold andThen in E. destruct (m s) as [[x|e] s1] eqn:E1.
    - destruct (Hm _ _ _ Hs E1) as (A1 & (n1 & C1 & L1 & N1) & D1). pose proof A1 as A1'. destruct A1 as (I1 & G1 & M1 & F1).
      destruct (Hk _ x _ E1 _ _ _ I1 E) as (A2 & (n2 & C2 & L2 & N2) & D2). pose proof A2 as A2'. destruct A2 as (I2 & G2 & M2 & F2).
      split; [eapply after_trans; eassumption|]. destruct Hs as (B1 & _), I2 as (B2 & _). split.
      + exists (n1 + n2)%nat. rewrite C2, C1, <- app_assoc.
        assert (N : n1 = length d1) by (unfold zlen in D1; lia). subst n1. rewrite firstn_app_2, firstn_all.
        rewrite (slice_join (cur s) (cur s1) (cur s')) by lia. rewrite combine_app'.
        * split; [reflexivity|]. rewrite app_length. split; lia.
        * pose proof (zlen_slice A0 (cur s) (cur s1)) as Z1. unfold zlen in Z1, D1, B1, B2. lia.
      + destruct r; [|exact I]. rewrite zlen_app. lia.
    - inversion E; subst. destruct (Hm _ _ _ Hs E1) as (A1 & (n1 & C1 & L1 & N1) & D1). split; [exact A1|]. split; [|exact I].
      exists n1. rewrite C1, app_length. split; [|split; lia]. f_equal. f_equal. rewrite firstn_app.
      replace (n1 - length d1)%nat with 0%nat by lia. rewrite firstn_O, app_nil_r. reflexivity.
  Qed.

  Definition logs {X} (k : Z -> action U X) (m : method) : Prop :=
    forall id s r s', inv s -> k id s = (r, s') -> after s s' /\ cur s' = cur s /\ s_calls U s' = s_calls U s ++ [(id, m)].

  Lemma logs_call {X} m (f : etraits U -> effect U X) : (forall id, steady (f (object id))) -> logs (call U object m f) m.
  Proof.
    intros Hf id s r s' (I1 & I2 & I3) E. unfold call in E. specialize (Hf id (s_world U s)) as [H1 H2].
    destruct (f (object id) (s_world U s)) as [r0 w]. inversion E; subst. cbn in *. split; [|split; reflexivity].
    split; [|cbn; repeat split; lia]. split; [exact I1|]. cbn. split; [lia|]. intros Q. rewrite H2 by lia. apply I3. lia.
  Qed.

  Lemma logs_then {X Y} (k : Z -> action U X) m (f : X -> res Y) : logs k m -> logs (fun id => andThen U (k id) (fun v => done U (f v))) m.
  Proof.
    intros H id s r s' Hs E. unfold andThen, done in E. destruct (k id s) as [[x|e] s1] eqn:E1; inversion E; subst; eapply H; eassumption.
  Qed.

  Lemma traces_take {X} (k : Z -> action U X) m : logs k m -> traces (andThen U (takeArg U exp) k) [m].
  Proof.
    intros Hk s r s' Hs E. unfold andThen, takeArg in E. pose proof Hs as (I1 & I2 & I3).
    assert (F : forall e, (Err e, s) = (r, s') -> after s s' /\
      (exists n, s_calls U s' = s_calls U s ++ combine (slice A0 (cur s) (cur s')) (firstn n [m]) /\ (n <= length [m])%nat /\ Z.of_nat n = cur s' - cur s) /\
      match r with Ok _ => cur s' - cur s = zlen [m] | Err _ => True end).
    { intros e Q. inversion Q; subst. split; [apply after_refl; exact Hs|]. split; [|exact I]. exists 0%nat. cbn [firstn]. rewrite combine_nil, app_nil_r.
      split; [reflexivity|]. split; [cbn|]; lia. }
    destruct (cur s =? zlen (argsof s)); [eapply F; exact E|].
    destruct (Z.eqb_spec (modc s) exp) as [Em|Em]; cbn [negb] in E; [|eapply F; exact E].
    destruct (znth (argsof s) (cur s)) as [id|] eqn:En; [|eapply F; exact E].
    rewrite I3 in En by exact Em. pose proof (znth_range _ _ _ En) as R.
    apply Hk in E; [|split; [cbn; lia|]; split; [exact I2|exact I3]]. destruct E as (A1 & C1 & L1). cbn in A1, C1, L1.
    assert (AF : after s s').
    { destruct A1 as (J1 & J2 & J3 & J4). cbn in *. split; [exact J1|]. repeat split; try lia. }
    split; [exact AF|]. rewrite C1, L1. split.
    - exists 1%nat. unfold slice. rewrite (skipn_znth _ _ _ En). replace (Z.to_nat (cur s + 1 - cur s)) with 1%nat by lia. cbn. split; [reflexivity|]. split; lia.
    - destruct r; [cbn; lia|exact I].
  Qed.

  Lemma logs_format sp c : logs (formatE J U object sp c) (asks sp).
  Proof.
    assert (H : forall id, counted (object id)) by exact Hcount. unfold counted in H.
    destruct sp; cbn [asks]; try (apply logs_then, logs_call; intros i; specialize (H i); tauto);
      intros id s r s' Hs E; inversion E; subst; (split; [|split; reflexivity]); destruct Hs as (I1 & I2 & I3); repeat split; cbn; try lia; exact I3.
  Qed.

  Lemma traces_nextInt : traces (nextIntE U object exp) [AsInt].
  Proof. apply traces_take, logs_call. intros id. pose proof (Hcount id) as H. unfold counted in H. tauto. Qed.

  Lemma traces_append d : traces (appendE J U object exp d) (demand d).
  Proof.
    destruct d as [t|sp c]; [apply traces_done|]. cbn [appendE demand].
    rewrite app_assoc. apply traces_then; [|intros ? c1 ? _; apply traces_take, logs_format].
    unfold resolveE. apply traces_then.
    - unfold isPrecedingWidth. destruct (c_width c =? PRECEDING); [|apply traces_done].
      change [AsInt] with ([AsInt] ++ []). apply traces_then; [apply traces_nextInt|]. intros ? x ? _. apply traces_done.
    - intros s c1 s' E.
      assert (X : c_prec c1 = c_prec c).
      { unfold isPrecedingWidth, andThen in E. destruct (c_width c =? PRECEDING); [|unfold done in E; congruence].
        destruct (nextIntE U object exp s) as [[w|e] s2]; [|discriminate]. unfold done in E. inversion E as [[Q1 Q2]].
        destruct (0 <=? w); unfold setWidth in Q1; destruct (checkValue _ _); cbn [bind] in Q1; try discriminate; inversion Q1; reflexivity. }
      unfold isPrecedingPrecision. rewrite X. destruct (c_prec c =? PRECEDING); [|apply traces_done].
      change [AsInt] with ([AsInt] ++ []). apply traces_then; [apply traces_nextInt|]. intros ? x ? _. apply traces_done.
  Qed.

  Lemma run_trace emit ds : forall s sb o s', inv s -> runE J U object emit exp ds s sb = (o, s') -> after s s' /\
    (exists n, s_calls U s' = s_calls U s ++ combine (slice A0 (cur s) (cur s')) (firstn n (demands ds)) /\
               (n <= length (demands ds))%nat /\ Z.of_nat n = cur s' - cur s) /\
    match snd o with None => cur s' - cur s = zlen (demands ds) | Some _ => True end.
  Proof.
    induction ds as [|d ds IH]; intros s sb o s' Hs E; cbn [runE demands] in *.
    - inversion E; subst. split; [apply after_refl; exact Hs|]. split; [|cbn; lia]. exists 0%nat. cbn. rewrite combine_nil, app_nil_r. split; [reflexivity|]. split; lia.
    - destruct (appendE J U object exp d s) as [r s1] eqn:E1.
      destruct (traces_append d _ _ _ Hs E1) as (A1 & (n1 & C1 & L1 & N1) & D1).
      assert (Stop : s' = s1 -> snd o <> None -> after s s' /\
        (exists n, s_calls U s' = s_calls U s ++ combine (slice A0 (cur s) (cur s')) (firstn n (demand d ++ demands ds)) /\
               (n <= length (demand d ++ demands ds))%nat /\ Z.of_nat n = cur s' - cur s) /\
        match snd o with None => cur s' - cur s = zlen (demand d ++ demands ds) | Some _ => True end).
      { intros -> No. split; [exact A1|]. split; [|destruct (snd o); [exact I|congruence]].
        exists n1. rewrite C1, app_length. split; [|split; lia]. f_equal. f_equal. rewrite firstn_app.
        replace (n1 - length (demand d))%nat with 0%nat by lia. rewrite firstn_O, app_nil_r. reflexivity. }
      destruct r as [q|e]; [|inversion E; subst; apply Stop; [reflexivity|discriminate]].
      destruct (emit q sb) as [sb' [e|]]; [inversion E; subst; apply Stop; [reflexivity|discriminate]|]. clear Stop.
      pose proof A1 as A1'. destruct A1 as (I1 & G1 & M1 & F1).
      destruct (IH _ _ _ _ I1 E) as (A2 & (n2 & C2 & L2 & N2) & D2). pose proof A2 as A2'. destruct A2 as (I2 & G2 & M2 & F2).
      split; [eapply after_trans; eassumption|]. destruct Hs as (B1 & _), I2 as (B2 & _). split.
      + exists (n1 + n2)%nat. rewrite C2, C1, <- app_assoc.
        assert (N : n1 = length (demand d)) by (unfold zlen in D1; lia). subst n1. rewrite firstn_app_2, firstn_all.
        rewrite (slice_join (cur s) (cur s1) (cur s')) by lia. rewrite combine_app'.
        * split; [reflexivity|]. rewrite app_length. split; lia.
        * pose proof (zlen_slice A0 (cur s) (cur s1)) as Z1. unfold zlen in Z1, D1, B1, B2. lia.
      + destruct (snd o); [exact I|]. rewrite zlen_app. lia.
  Qed.

  (** *** The results, for objects that answer like given ones *)
  Variable tr : Z -> traits.
  Hypothesis Hans : forall id, answers (object id) (tr id).

  (** the arguments a run that ends in [f] gets to see from position [k] on *)
  Definition seen (f : state) (k : Z) : list traits := map tr (slice A0 k (if modc f =? exp then zlen A0 else cur f)).

  (** the objects answered like behave *)
  Definition calm : Prop := forall id, honest J (tr id) /\ quiet_arg J (tr id).
  Lemma calm_int : calm -> forall f k, Forall (fun x => forall w, t_asInt x = Ok w -> is_int w) (seen f k).
  Proof. intros Q f k. unfold seen. apply Forall_forall. intros x Hx. apply in_map_iff in Hx as (id & <- & _). apply Q. Qed.

  Lemma calm_honest : calm -> forall f k, Forall (honest J) (seen f k).
  Proof. intros Q f k. unfold seen. apply Forall_forall. intros x Hx. apply in_map_iff in Hx as (id & <- & _). apply Q. Qed.

  Definition explains (e e0 : exn) (f : state) : Prop :=
    (e = e0 \/ e0 = missing /\ e = CoModification /\ modc f <> exp) /\
    (calm -> e0 = missing -> e = if zlen (argsof f) =? cur f then missing else CoModification).

  Definition like {X} (m : action U X) (p : list traits -> res (X * list traits)) : Prop :=
    forall s r s', inv s -> m s = (r, s') -> after s s' /\
      match r with
      | Ok x => forall f, after s' f -> p (seen f (cur s)) = Ok (x, seen f (cur s'))
      | Err e => exists e0, p (seen s' (cur s)) = Err e0 /\ explains e e0 s'
      end.

  Lemma like_done {X} (r : res X) : r <> Err missing -> like (done U r) (fun it => let* x := r in Ok (x, it)).
  Proof.
    intros N s r' s' Hs E. inversion E; subst. split; [apply after_refl; exact Hs|]. destruct r' as [x|e]; cbn [bind].
    - intros f _. reflexivity.
    - exists e. split; [reflexivity|]. split; [auto|]. intros _ ->. congruence.
  Qed.

  Lemma like_then {X Y} (m : action U X) (k : X -> action U Y) p q :
    like m p -> (forall x, (exists f n it, p (seen f n) = Ok (x, it)) -> like (k x) (q x)) -> like (andThen U m k) (fun it => let* (x, it) := p it in q x it).
  Proof.
    intros Hm Hk s r s' Hs E. unfold andThen in E. destruct (m s) as [[x|e] s1] eqn:E1.
    - destruct (Hm _ _ _ Hs E1) as (A1 & P1). pose proof A1 as (I1 & _).
      destruct (Hk x (ex_intro _ s1 (ex_intro _ _ (ex_intro _ _ (P1 s1 (after_refl _ I1))))) _ _ _ I1 E) as (A2 & P2). split; [eapply after_trans; eassumption|]. pose proof A2 as (I2 & _).
      destruct r as [y|e].
      + intros f Hf. rewrite P1 by (eapply after_trans; eassumption). cbn [bind]. apply P2. exact Hf.
      + rewrite P1 by exact A2. cbn [bind]. exact P2.
    - inversion E; subst. destruct (Hm _ _ _ Hs E1) as (A1 & e0 & P1 & X1). split; [exact A1|]. exists e0. rewrite P1. split; [reflexivity|exact X1].
  Qed.

  Lemma like_ext {X} (m : action U X) p q : like m p -> (forall it, p it = q it) -> like m q.
  Proof.
    intros H E s r s' Hs Em. destruct (H _ _ _ Hs Em) as (A1 & P). split; [exact A1|]. destruct r.
    - intros f Hf. rewrite <- E. apply P. exact Hf.
    - rewrite <- E. exact P.
  Qed.

  (** asking an argument *)
  Definition gives {X} (k : Z -> action U X) (v : Z -> res X) : Prop :=
    forall id s, inv s -> exists s', k id s = (v id, s') /\ after s s' /\ cur s' = cur s.

  Lemma gives_call {X} m (f : etraits U -> effect U X) v : (forall id, steady (f (object id))) -> (forall id w, fst (f (object id) w) = v id) ->
    gives (call U object m f) v.
  Proof.
    intros Hf Hv id s Hs. unfold call. specialize (Hv id (s_world U s)). destruct (f (object id) (s_world U s)) as [r w] eqn:E. cbn in Hv. subst r.
    eexists. split; [reflexivity|].
    destruct (logs_call m f Hf id s (v id) (mkState U (cur s) w (s_calls U s ++ [(id, m)])) Hs) as (H1 & H2 & _); [unfold call; rewrite E; reflexivity|]. auto.
  Qed.

  Lemma gives_then {X Y} (k : Z -> action U X) v (f : X -> res Y) g : gives k v -> (forall id, (let* x := v id in f x) = g id) ->
    gives (fun id => andThen U (k id) (fun x => done U (f x))) g.
  Proof.
    intros H Eg id s Hs. destruct (H id s Hs) as (s' & E & A1 & C1). exists s'. split; [|auto]. unfold andThen, done. rewrite E, <- Eg.
    destruct (v id); reflexivity.
  Qed.

  Lemma like_take {X} (k : Z -> action U X) v : gives k (fun id => v (tr id)) ->
    (calm -> forall id, v (tr id) <> Err missing) ->
    like (andThen U (takeArg U exp) k) (fun it => match it with [] => Err missing | x :: rest => let* a := v x in Ok (a, rest) end).
  Proof.
    intros Hk Hq s r s' Hs E. unfold andThen, takeArg in E. pose proof Hs as (I1 & I2 & I3).
    destruct (Z.eqb_spec (modc s) exp) as [Em|Em].
    - rewrite (I3 Em) in E. cbn [negb] in E. destruct (Z.eqb_spec (cur s) (zlen A0)) as [Ec|Ec].
      + inversion E; subst. split; [apply after_refl; exact Hs|]. exists missing. unfold seen.
        rewrite (proj2 (Z.eqb_eq _ _) Em), Ec. rewrite slice_empty by lia. cbn [map]. split; [reflexivity|]. split; [auto|]. intros _ _.
        rewrite (I3 Em), Ec, Z.eqb_refl. reflexivity.
      + destruct (znth_some A0 (cur s)) as (id & En); [lia|]. rewrite En in E.
        destruct (Hk id (mkState U (cur s + 1) (s_world U s) (s_calls U s))) as (s1 & E1 & A1 & C1).
        { split; [cbn; lia|]. split; [exact I2|exact I3]. }
        rewrite E1 in E. inversion E; subst s1 r. clear E. cbn in C1.
        assert (AF : after s s').
        { destruct A1 as (J1 & J2 & J3 & J4). cbn in *. split; [exact J1|]. repeat split; try lia. }
        assert (Hd : forall f, after s' f -> seen f (cur s) = tr id :: seen f (cur s')).
        { intros f ((If & _) & Gf & _). unfold seen. rewrite C1. set (e := if _ =? _ then _ else _).
          assert (L : cur s + 1 <= e) by (unfold e; destruct (modc f =? exp); lia). clearbody e.
          unfold slice. rewrite (skipn_znth _ _ _ En). replace (Z.to_nat (e - cur s)) with (S (Z.to_nat (e - (cur s + 1)))) by lia. reflexivity. }
        split; [exact AF|]. destruct (v (tr id)) as [x|e] eqn:Ev.
        * intros f Hf. rewrite (Hd f Hf). rewrite Ev. reflexivity.
        * exists e. rewrite Hd by (apply after_refl; apply AF). rewrite Ev. split; [reflexivity|]. split; [auto|]. intros Q ->. apply Hq with (id := id) in Q. congruence.
    - cbn [negb] in E. split; [destruct (cur s =? zlen (argsof s)); inversion E; subst; apply after_refl; exact Hs|].
      assert (S : s' = s) by (destruct (cur s =? zlen (argsof s)); inversion E; reflexivity). subst s'.
      assert (N : seen s (cur s) = []).
      { unfold seen. rewrite (proj2 (Z.eqb_neq _ _) Em). rewrite slice_empty by lia. reflexivity. }
      destruct (Z.eqb_spec (cur s) (zlen (argsof s))) as [Ec|Ec]; inversion E; subst r; exists missing; rewrite N; (split; [reflexivity|]); split; auto; intros _ _.
      + rewrite <- Ec, Z.eqb_refl. reflexivity.
      + destruct (Z.eqb_spec (zlen (argsof s)) (cur s)); [congruence|reflexivity].
  Qed.

  Lemma gives_format sp c : gives (formatE J U object sp c) (fun id => formatterFor J sp c (tr id)).
  Proof.
    assert (H : forall id, counted (object id)) by exact Hcount. unfold counted in H.
    assert (W : forall id, answers (object id) (tr id)) by exact Hans. unfold answers in W.
    assert (CI : gives (call U object AsIntForm (e_asIntForm U)) (fun id => t_asIntForm (tr id))) by (apply gives_call; intros i; [specialize (H i); tauto|apply W]).
    assert (CF : gives (call U object AsFloatForm (e_asFloatForm U)) (fun id => t_asFloatForm (tr id))) by (apply gives_call; intros i; [specialize (H i); tauto|apply W]).
    assert (CS : gives (call U object AsSeq (e_asSeq U)) (fun id => t_asSeq (tr id))) by (apply gives_call; intros i; [specialize (H i); tauto|apply W]).
    assert (CT : gives (call U object AsTemporal (e_asTemporal U)) (fun id => t_asTemporal (tr id))) by (apply gives_call; intros i; [specialize (H i); tauto|apply W]).
    assert (CC : gives (call U object AsChar (e_asChar U)) (fun id => t_asChar (tr id))) by (apply gives_call; intros i; [specialize (H i); tauto|apply W]).
    assert (CP : gives (call U object GetRef (e_ref U)) (fun id => Ok (t_ref (tr id)))) by (apply gives_call; intros i; [specialize (H i); tauto|apply W]).
    assert (UN : forall q, gives (fun id => unasked U id q) (fun _ => Ok q)).
    { intros q id s Hs. eexists. split; [reflexivity|]. split; [|reflexivity]. destruct Hs as (I1 & I2 & I3). repeat split; cbn; try lia; exact I3. }
    destruct sp; unfold formatE, formatterFor; cbv iota beta; try apply UN;
      match goal with
      | |- context [withIntE] => refine (gives_then _ _ _ _ CI _)
      | |- context [withFloatE] => refine (gives_then _ _ _ _ CF _)
      | |- context [withSeqE] => refine (gives_then _ _ _ _ CS _)
      | |- context [withTimeE] => refine (gives_then _ _ _ _ CT _)
      | |- context [AsChar] => refine (gives_then _ _ _ _ CC _)
      | |- context [GetRef] => refine (gives_then _ _ _ _ CP _)
      end; intros id; unfold withInt, withFloat, upperOf, fmt_t, ofTemporal; cbn [t_asTemporal]; try reflexivity;
      match goal with |- (let* x := ?a in _) = _ => destruct a; reflexivity end.
  Qed.

  Lemma like_nextInt : like (nextIntE U object exp) nextInt.
  Proof.
    refine (like_ext _ _ _ (like_take (call U object AsInt (e_asInt U)) t_asInt _ _) _).
    - apply gives_call; intros i; [pose proof (Hcount i) as H; unfold counted in H; tauto|apply Hans].
    - intros Q id. apply Q.
    - intros [|x it]; reflexivity.
  Qed.

  Lemma like_append d : (calm -> sane d) -> like (appendE J U object exp d) (appendOne J d).
  Proof.
    intros Hd. destruct d as [t|sp c].
    - refine (like_ext _ _ _ (like_done (Ok (wrapS t)) _) _); [discriminate|reflexivity].
    - cbn [appendE].
      assert (P : forall c, like (if isPrecedingPrecision c then andThen U (nextIntE U object exp) (fun p => done U (setPrecision c (if 0 <=? p then p else UNSET))) else done U (Ok c))
        (fun it => if isPrecedingPrecision c then let* (p, it) := nextInt it in let* c := setPrecision c (if 0 <=? p then p else UNSET) in Ok (c, it) else Ok (c, it))).
      { intros c0. destruct (isPrecedingPrecision c0).
        - apply (like_then _ _ nextInt (fun p it => let* c := setPrecision c0 (if 0 <=? p then p else UNSET) in Ok (c, it)) like_nextInt). intros p _. apply like_done. apply setPrecision_quiet.
        - apply (like_done (Ok c0)). discriminate. }
      refine (like_ext _ _ _ (like_then (resolveE U object exp c) _ (resolveCtx c) _ _ (fun c1 Hc1 => like_take (formatE J U object sp c1) (formatterFor J sp c1) _ _)) _).
      + unfold resolveE, resolveCtx. refine (like_then _ _ _ _ _ (fun c _ => P c)). destruct (isPrecedingWidth c).
        * apply (like_then _ _ nextInt (fun w it => let* c := (if 0 <=? w then setWidth c w else setWidth (addFlag c LEFT_JUSTIFY) (wrap32 (- w))) in Ok (c, it)) like_nextInt).
          intros w _. apply like_done. destruct (0 <=? w); apply setWidth_quiet.
        * apply (like_done (Ok c)). discriminate.
      + apply gives_format.
      + intros Q id. apply Q. destruct Hc1 as (f & n & it & Hc1). apply (resolved_ok _ _ _ _ (Hd Q) Hc1). apply calm_int. exact Q.
      + intros it. reflexivity.
  Qed.

  Lemma run_like emit ds : (calm -> Forall sane ds) -> forall s sb o s', inv s -> runE J U object emit exp ds s sb = (o, s') ->
    exists e0, run J emit ds (seen s' (cur s)) sb = (fst o, e0) /\
      (snd o = e0 \/ e0 = Some missing /\ snd o = Some CoModification /\ modc s' <> exp) /\
      (calm -> emits emit -> e0 = Some missing ->
       snd o = Some (if zlen (argsof s') =? cur s' then missing else CoModification)).
  Proof.
    induction ds as [|d ds IH]; intros Hds s sb o s' Hs E; cbn [runE run] in *.
    - inversion E; subst. exists None. split; [reflexivity|]. split; [auto|discriminate].
    - destruct (appendE J U object exp d s) as [r s1] eqn:E1.
      destruct (like_append d (fun Q => Forall_inv (Hds Q)) _ _ _ Hs E1) as (A1 & P1).
      destruct r as [q|e].
      + destruct (emit q sb) as [sb' [e|]] eqn:Ee.
        * inversion E; subst. specialize (P1 s' (after_refl _ (proj1 A1))). rewrite P1. rewrite Ee. exists (Some e). split; [reflexivity|]. split; [auto|].
          intros Q He _. exfalso. destruct (appendOne_honest _ _ _ _ _ (Forall_inv (Hds Q)) (calm_honest Q _ _) P1) as ((t & Ht) & _).
          rewrite (Ht emit He) in Ee. discriminate.
        * pose proof A1 as (I1 & _). destruct (run_trace emit ds _ _ _ _ I1 E) as (A2 & _). rewrite P1 by exact A2. rewrite Ee.
          apply (IH (fun Q => Forall_inv_tail (Hds Q)) _ _ _ _ I1 E).
      + inversion E; subst. destruct P1 as (e0 & P1 & [X1 X2]). rewrite P1. exists (Some e0). split; [reflexivity|]. cbn. split.
        * destruct X1 as [->|(-> & -> & X1)]; auto.
        * intros Q _ [= ->]. rewrite X2; auto.
  Qed.
End Eff.

Lemma start_inv U (w : world U) : inv U (w_args U w) (w_mod U w) (mkState U 0 w []).
Proof. unfold inv. cbn. pose proof (zlen_nonneg (w_args U w)). repeat split; lia. Qed.
