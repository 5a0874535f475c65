(** Proofs about the format loop: output targets, argument consumption, literal text. *)
From Verif Require Import Base Digits UtilsM SeqM SeqSpec SeqP ContextM CompilerM GrammarSpec CompilerP CompilerP2 IntFormM
  FormatterM MathM DecimalM FPDecimalM DoubleM BigDecM RoundM TraitsM ImplM.

(** ** Emission *)

Lemma emitAtoms_spec f : (forall a t sb, den_atom a t -> f a sb = Ok (sb ++ t)) ->
  forall atoms ts sb, Forall2 den_atom atoms ts -> emitAtoms f atoms sb = (sb ++ concat ts, None).
Proof.
  intros Hf. induction atoms as [|a r IH]; intros ts sb H; inversion H; subst; cbn [emitAtoms concat].
  - rewrite app_nil_r. reflexivity.
  - rewrite (Hf _ y) by assumption. rewrite (IH l') by assumption. rewrite app_assoc. reflexivity.
Qed.

Lemma emitWith_wden f s t sb : (forall a t sb, den_atom a t -> f a sb = Ok (sb ++ t)) ->
  wden s t -> emitWith f s sb = (sb ++ t, None).
Proof.
  intros Hf H. pose proof (wden_ne _ _ H) as Hne. destruct (wden_leaves _ _ H) as (ts & F & ->).
  destruct s; cbn [emitWith].
  - apply emitAtoms_spec; assumption.
  - rewrite s_iter_spec by assumption. apply emitAtoms_spec; assumption.
  - rewrite s_iter_spec by assumption. apply emitAtoms_spec; assumption.
Qed.

Lemma emitSB_wden s t sb : wden s t -> emitSB s sb = (sb ++ t, None).
Proof. apply emitWith_wden. intros. apply a_toSB_den. assumption. Qed.
Lemma emitApp_wden s t sb : wden s t -> emitApp s sb = (sb ++ t, None).
Proof. apply emitWith_wden. intros. apply a_toApp_den. assumption. Qed.

(** emitting agrees with appendTo *)
Lemma emitAtoms_each f atoms : forall sb, 
  match each f atoms sb with Ok o => emitAtoms f atoms sb = (o, None) | Err e => exists o, emitAtoms f atoms sb = (o, Some e) end.
Proof.
  induction atoms as [|a r IH]; intros sb; cbn [each emitAtoms]; [reflexivity|].
  destruct (f a sb) as [o|e]; cbn [bind]; [apply IH|eauto].
Qed.

Lemma emitSB_toSB s sb :
  match s_toSB s sb with Ok o => emitSB s sb = (o, None) | Err e => exists o, emitSB s sb = (o, Some e) end.
Proof.
  unfold emitSB, emitWith, s_toSB. destruct s.
  - pose proof (emitAtoms_each a_toSB [a] sb) as H. cbn [each] in H.
    destruct (a_toSB a sb); cbn [bind] in H; exact H.
  - destruct (s_iter (Cat s1 s2 len cnt)); cbn [bind]; [apply emitAtoms_each|eauto].
  - destruct (s_iter (Arr parts len)); cbn [bind]; [apply emitAtoms_each|eauto].
Qed.

(** ** Literal pieces, without any bound on their length *)

Lemma wrapS_emitSB t sb : emitSB (wrapS t) sb = (sb ++ t, None).
Proof.
  unfold emitSB, wrapS, emitWith. cbn [emitAtoms]. unfold s_wrap.
  destruct (0 <? zlen t) eqn:E.
  - destruct t as [|c [|d r]]; [discriminate| |].
    + unfold s_ch. cbn. reflexivity.
    + cbn [a_toSB]. rewrite !Z.eqb_refl. reflexivity.
  - apply Z.ltb_ge in E. pose proof (zlen_nonneg t). assert (t = []) as -> by (apply zlen_0_nil; lia).
    cbn. rewrite app_nil_r. reflexivity.
Qed.

Lemma wrapS_emitApp t sb : emitApp (wrapS t) sb = (sb ++ t, None).
Proof.
  unfold emitApp, wrapS, emitWith. cbn [emitAtoms]. unfold s_wrap.
  destruct (0 <? zlen t) eqn:E.
  - destruct t as [|c [|d r]]; [discriminate| |].
    + unfold s_ch. cbn. reflexivity.
    + cbn [a_toApp]. rewrite Z.add_0_l, slice_full. reflexivity.
  - apply Z.ltb_ge in E. pose proof (zlen_nonneg t). assert (t = []) as -> by (apply zlen_0_nil; lia).
    cbn. rewrite app_nil_r. reflexivity.
Qed.

Definition emits (emit : seq -> list Z -> outcome) : Prop := emit = emitSB \/ emit = emitApp.

Lemma wrapS_emits emit t sb : emits emit -> emit (wrapS t) sb = (sb ++ t, None).
Proof. intros [->| ->]; [apply wrapS_emitSB|apply wrapS_emitApp]. Qed.
Lemma wden_emits emit s t sb : emits emit -> wden s t -> emit s sb = (sb ++ t, None).
Proof. intros [->| ->]; [apply emitSB_wden|apply emitApp_wden]. Qed.

Section Run.
  Variable J : jdk.

  Lemma run_app emit a1 a2 : forall it sb,
    run J emit (a1 ++ a2) it sb =
    match run J emit a1 it sb with
    | (sb', None) => run J emit a2 (snd (fold_left (fun acc a => match appendOne J a (snd acc) with Ok (_, r) => (tt, r) | Err _ => acc end) a1 (tt, it))) sb'
    | o => o
    end.
  Proof.
    induction a1 as [|a r IH]; intros it sb; cbn [app run fold_left snd]; [reflexivity|].
    destruct (appendOne J a it) as [[s it']|e] eqn:E; [|reflexivity].
    destruct (emit s sb) as [sb' [e|]]; [reflexivity|]. rewrite IH. reflexivity.
  Qed.

  (** arguments a piece consumes *)
  Definition needs1 (a : appender) : Z :=
    match a with
    | Fixed _ => 0
    | Default _ c => 1 + (if isPrecedingWidth c then 1 else 0) + (if isPrecedingPrecision c then 1 else 0)
    end.
  Definition needs (apps : list appender) : Z := fold_right (fun a n => needs1 a + n) 0 apps.

  Lemma needs1_nonneg a : 0 <= needs1 a.
  Proof. destruct a; cbn; [lia|]. destruct (isPrecedingWidth c), (isPrecedingPrecision c); lia. Qed.
  Lemma needs_nonneg l : 0 <= needs l.
  Proof. induction l; cbn [needs fold_right]; [lia|]. pose proof (needs1_nonneg a). unfold needs in IHl. lia. Qed.

  Lemma setWidth_star c w c' : setWidth c w = Ok c' -> isPrecedingPrecision c' = isPrecedingPrecision c.
  Proof. unfold setWidth. destruct (checkValue WidthRange w); cbn [bind]; [|discriminate]. intros [= <-]. reflexivity. Qed.

  (** *** consumption: what is left of the arguments, exactly *)
  Lemma resolve_ok c it c' it' : resolveCtx c it = Ok (c', it') ->
    exists used, it = used ++ it' /\
      zlen used = (if isPrecedingWidth c then 1 else 0) + (if isPrecedingPrecision c then 1 else 0) /\
      forall extra, resolveCtx c (it ++ extra) = Ok (c', it' ++ extra).
  Proof.
    unfold resolveCtx. destruct (isPrecedingWidth c) eqn:Ew.
    - destruct it as [|x r]; cbn [nextInt bind]; [discriminate|].
      destruct (t_asInt x) as [w|e] eqn:Ex; cbn [bind]; [|discriminate].
      set (sw := if 0 <=? w then setWidth c w else setWidth (addFlag c LEFT_JUSTIFY) (wrap32 (- w))).
      destruct sw as [c1|e] eqn:Esw; cbn [bind]; [|discriminate].
      assert (isPrecedingPrecision c1 = isPrecedingPrecision c) as Hp.
      { unfold sw in Esw. destruct (0 <=? w); [exact (setWidth_star _ _ _ Esw)|].
        rewrite (setWidth_star _ _ _ Esw). reflexivity. }
      rewrite Hp. destruct (isPrecedingPrecision c) eqn:Epp.
      + destruct r as [|y r]; cbn [nextInt bind]; [discriminate|].
        destruct (t_asInt y) as [p|e] eqn:Ey; cbn [bind]; [|discriminate].
        destruct (setPrecision c1 (if 0 <=? p then p else UNSET)) as [c2|e] eqn:E2; cbn [bind]; [|discriminate].
        intros [= <- <-]. exists [x; y]. split; [reflexivity|]. split; [reflexivity|].
        intros extra. cbn [app nextInt bind]. rewrite ?Ex, ?Ey. cbn [bind]. unfold sw in Esw. rewrite Esw. cbn [bind]. rewrite Hp. cbn [bind nextInt]. rewrite Ey. cbn [bind]. rewrite E2. reflexivity.
      + intros [= <- <-]. exists [x]. split; [reflexivity|]. split; [reflexivity|].
        intros extra. cbn [app nextInt bind]. rewrite ?Ex, ?Ey. cbn [bind]. unfold sw in Esw. rewrite Esw. cbn [bind]. rewrite Hp. reflexivity.
    - cbn [bind]. destruct (isPrecedingPrecision c).
      + destruct it as [|y r]; cbn [nextInt bind]; [discriminate|].
        destruct (t_asInt y) as [p|e] eqn:Ey; cbn [bind]; [|discriminate].
        destruct (setPrecision c (if 0 <=? p then p else UNSET)) as [c2|e] eqn:E2; cbn [bind]; [|discriminate].
        intros [= <- <-]. exists [y]. split; [reflexivity|]. split; [reflexivity|].
        intros extra. cbn [app nextInt bind]. rewrite ?Ex, ?Ey. cbn [bind]. rewrite E2. reflexivity.
      + intros [= <- <-]. exists []. split; [reflexivity|]. split; [reflexivity|]. reflexivity.
  Qed.

  Lemma appendOne_ok a it s it' : appendOne J a it = Ok (s, it') ->
    exists used, it = used ++ it' /\ zlen used = needs1 a /\
      forall extra, appendOne J a (it ++ extra) = Ok (s, it' ++ extra).
  Proof.
    destruct a as [t|sp c]; cbn [appendOne needs1].
    - intros [= <- <-]. exists []. split; [reflexivity|]. split; reflexivity.
    - destruct (resolveCtx c it) as [[c1 it1]|e] eqn:E; cbn [bind]; [|discriminate].
      destruct (resolve_ok _ _ _ _ E) as (used & -> & Hu & Hx).
      destruct it1 as [|x r]; [discriminate|].
      destruct (formatterFor J sp c1 x) as [u|e] eqn:Ef; cbn [bind]; [|discriminate].
      intros [= <- <-]. exists (used ++ [x]). split; [rewrite <- app_assoc; reflexivity|].
      split; [rewrite zlen_app, Hu, zlen_one; lia|].
      intros extra. rewrite Hx. cbn [bind app]. rewrite Ef. reflexivity.
  Qed.

  (** arguments left after a list of pieces *)
  Fixpoint rest_after (apps : list appender) (it : list traits) : list traits :=
    match apps with
    | [] => it
    | a :: r => match appendOne J a it with Ok (_, it') => rest_after r it' | Err _ => it end
    end.

  Lemma run_app' emit a1 a2 : forall it sb,
    run J emit (a1 ++ a2) it sb =
    match run J emit a1 it sb with
    | (sb', None) => run J emit a2 (rest_after a1 it) sb'
    | o => o
    end.
  Proof.
    induction a1 as [|a r IH]; intros it sb; cbn [app run rest_after]; [reflexivity|].
    destruct (appendOne J a it) as [[s it']|e] eqn:E; [|reflexivity].
    destruct (emit s sb) as [sb' [e|]]; [reflexivity|]. apply IH.
  Qed.

  Lemma run_consumes emit apps : forall it sb sb', run J emit apps it sb = (sb', None) ->
    exists used, it = used ++ rest_after apps it /\ zlen used = needs apps.
  Proof.
    induction apps as [|a r IH]; intros it sb sb'; cbn [run rest_after needs fold_right].
    - intros _. exists []. split; reflexivity.
    - destruct (appendOne J a it) as [[s it']|e] eqn:E; [|discriminate].
      destruct (emit s sb) as [sb1 [e|]]; [discriminate|]. intros H.
      destruct (appendOne_ok _ _ _ _ E) as (u1 & E1 & Z1 & _).
      destruct (IH _ _ _ H) as (u2 & E2 & Z2). exists (u1 ++ u2). fold (needs r). split.
      + rewrite <- app_assoc, <- E2. exact E1.
      + rewrite zlen_app. lia.
  Qed.

  (** surplus arguments change nothing *)
  Lemma run_extra emit apps : forall it sb extra sb', run J emit apps it sb = (sb', None) ->
    run J emit apps (it ++ extra) sb = (sb', None) /\ rest_after apps (it ++ extra) = rest_after apps it ++ extra.
  Proof.
    induction apps as [|a r IH]; intros it sb extra sb'; cbn [run rest_after]; [auto|].
    destruct (appendOne J a it) as [[s it']|e] eqn:E; [|discriminate].
    destruct (appendOne_ok _ _ _ _ E) as (u1 & E1 & Z1 & X). rewrite X.
    destruct (emit s sb) as [sb1 [e|]]; [discriminate|]. intros H. apply (IH _ _ extra _ H).
  Qed.

  Lemma run_concat emit a1 a2 it1 it2 sb o1 o2 :
    run J emit a1 it1 sb = (o1, None) -> zlen it1 = needs a1 -> run J emit a2 it2 o1 = (o2, None) ->
    run J emit (a1 ++ a2) (it1 ++ it2) sb = (o2, None).
  Proof.
    intros H1 Hn H2. destruct (run_extra _ _ _ _ it2 _ H1) as [R1 R2].
    rewrite run_app', R1, R2. destruct (run_consumes _ _ _ _ _ H1) as (used & Eu & Zu).
    assert (rest_after a1 it1 = []) as ->.
    { rewrite Eu in Hn. rewrite zlen_app in Hn. pose proof (zlen_nonneg (rest_after a1 it1)). apply zlen_0_nil. lia. }
    exact H2.
  Qed.

  (** output only depends on what the target already holds by being appended to it *)
  Definition appends (emit : seq -> list Z -> outcome) : Prop :=
    forall s sb, exists t, fst (emit s sb) = sb ++ t.

  (** *** too few arguments *)
  Lemma run_short emit apps it sb : zlen it < needs apps -> exists o e, run J emit apps it sb = (o, Some e).
  Proof.
    intros H. destruct (run J emit apps it sb) as [o [e|]] eqn:R; [eauto|].
    destruct (run_consumes _ _ _ _ _ R) as (used & Eu & Zu). rewrite Eu, zlen_app in H.
    pose proof (zlen_nonneg (rest_after apps it)). lia.
  Qed.

  Lemma resolve_missing c it extra : 
    (exists r, resolveCtx c (it ++ extra) = Ok r) ->
    (exists r, resolveCtx c it = Ok r) \/
    (resolveCtx c it = Err (Printf MissingArg) /\
     zlen it < (if isPrecedingWidth c then 1 else 0) + (if isPrecedingPrecision c then 1 else 0)).
  Proof.
    intros [r H]. unfold resolveCtx in *. destruct (isPrecedingWidth c) eqn:Ew.
    - destruct it as [|x l]; cbn [nextInt bind app].
      { right. split; [reflexivity|]. change (zlen (@nil traits)) with 0. destruct (isPrecedingPrecision c); lia. }
      cbn [app nextInt] in H. destruct (t_asInt x) as [w|e]; cbn [bind] in *; [|discriminate].
      set (sw := if 0 <=? w then setWidth c w else setWidth (addFlag c LEFT_JUSTIFY) (wrap32 (- w))) in *.
      destruct sw as [c1|e] eqn:Esw; cbn [bind] in *; [|discriminate].
      assert (isPrecedingPrecision c1 = isPrecedingPrecision c) as Hp.
      { unfold sw in Esw. destruct (0 <=? w); [exact (setWidth_star _ _ _ Esw)|].
        rewrite (setWidth_star _ _ _ Esw). reflexivity. }
      rewrite Hp in *. destruct (isPrecedingPrecision c); [|eauto].
      destruct l as [|y l]; cbn [nextInt bind app] in *.
      { right. split; [reflexivity|]. rewrite zlen_one. lia. }
      destruct (t_asInt y) as [z|?]; cbn [bind] in *; [|discriminate].
      destruct (setPrecision c1 (if 0 <=? z then z else UNSET)); cbn [bind] in *; [eauto|discriminate].
    - cbn [bind] in *. destruct (isPrecedingPrecision c); [|eauto].
      destruct it as [|y l]; cbn [nextInt bind app] in *.
      { right. split; [reflexivity|]. change (zlen (@nil traits)) with 0. lia. }
      destruct (t_asInt y) as [z|?]; cbn [bind] in *; [|discriminate].
      destruct (setPrecision c (if 0 <=? z then z else UNSET)); cbn [bind] in *; [eauto|discriminate].
  Qed.

  Lemma run_short_missing emit apps : forall it extra sb o,
    run J emit apps (it ++ extra) sb = (o, None) -> zlen it < needs apps ->
    exists o', run J emit apps it sb = (o', Some (Printf MissingArg)).
  Proof.
    induction apps as [|a r IH]; intros it extra sb o; cbn [run needs fold_right].
    - intros _ H. pose proof (zlen_nonneg it). lia.
    - fold (needs r). intros H Hn.
      destruct (appendOne J a (it ++ extra)) as [[s itx]|e] eqn:E; [|discriminate].
      destruct (appendOne J a it) as [[s2 it2]|e2] eqn:E2.
      + destruct (appendOne_ok _ _ _ _ E2) as (u & Eu & Zu & X).
        rewrite X in E. injection E as <- <-.
        destruct (emit s2 sb) as [sb1 [e|]]; [discriminate|].
        apply (IH _ extra _ o); [exact H|]. rewrite Eu, zlen_app in Hn. lia.
      + assert (e2 = Printf MissingArg) as ->; [|eauto].
        destruct a as [t|sp c]; cbn [appendOne] in *; [discriminate|].
        destruct (resolveCtx c (it ++ extra)) as [[c1 l]|e] eqn:Er; cbn [bind] in *; [|discriminate].
        destruct (resolve_missing c it extra) as [[[c2 l2] Hr]|[Hr _]]; [eauto| |].
        * rewrite Hr in E2. cbn [bind] in E2. destruct (resolve_ok _ _ _ _ Hr) as (u & -> & _ & X).
          rewrite X in Er. injection Er as <- <-. destruct l2 as [|x l2]; [congruence|].
          cbn [app] in E. destruct (formatterFor J sp c2 x); cbn [bind] in *; discriminate.
        * rewrite Hr in E2. cbn [bind] in E2. congruence.
  Qed.

  Lemma checkValue_not_missing k v : k <> MissingArg -> checkValue k v <> Err (Printf MissingArg).
  Proof.
    intros Hk. unfold checkValue. destruct ((v <? 0) && negb (v =? UNSET) && negb (v =? PRECEDING)); [congruence|].
    destruct (MAX_WP <? v); congruence.
  Qed.

  Lemma setWidth_quiet c w : setWidth c w <> Err (Printf MissingArg).
  Proof.
    unfold setWidth. pose proof (checkValue_not_missing WidthRange w). destruct (checkValue WidthRange w); cbn [bind]; [discriminate|].
    intros [= ->]. apply H; congruence.
  Qed.
  Lemma setPrecision_quiet c w : setPrecision c w <> Err (Printf MissingArg).
  Proof.
    unfold setPrecision. pose proof (checkValue_not_missing PrecisionRange w). destruct (checkValue PrecisionRange w); cbn [bind]; [discriminate|].
    intros [= ->]. apply H; congruence.
  Qed.

  Definition stars (c : ctx) : Z := (if isPrecedingWidth c then 1 else 0) + (if isPrecedingPrecision c then 1 else 0).

  Lemma resolve_enough c it : Forall (fun x => t_asInt x <> Err (Printf MissingArg)) it -> stars c <= zlen it ->
    resolveCtx c it <> Err (Printf MissingArg).
  Proof.
    intros Hq Hn. unfold resolveCtx, stars in *. destruct (isPrecedingWidth c) eqn:Ew.
    - destruct it as [|x r].
      { change (zlen (@nil traits)) with 0 in Hn. destruct (isPrecedingPrecision c); lia. }
      inversion Hq as [|? ? Q1 Q3]; subst. cbn [nextInt bind]. destruct (t_asInt x) as [w|e]; cbn [bind]; [|congruence].
      set (sw := if 0 <=? w then setWidth c w else setWidth (addFlag c LEFT_JUSTIFY) (wrap32 (- w))).
      assert (sw <> Err (Printf MissingArg)) as Hsw by (unfold sw; destruct (0 <=? w); apply setWidth_quiet).
      destruct sw as [c1|e] eqn:Esw; cbn [bind]; [|congruence].
      assert (isPrecedingPrecision c1 = isPrecedingPrecision c) as Hp.
      { unfold sw in Esw. destruct (0 <=? w); [exact (setWidth_star _ _ _ Esw)|].
        rewrite (setWidth_star _ _ _ Esw). reflexivity. }
      rewrite Hp. destruct (isPrecedingPrecision c); [|discriminate].
      destruct r as [|y r]; [rewrite zlen_one in Hn; lia|]. inversion Q3 as [|? ? Q4 Q6]; subst.
      cbn [nextInt bind]. destruct (t_asInt y) as [p|e]; cbn [bind]; [|congruence].
      pose proof (setPrecision_quiet c1 (if 0 <=? p then p else UNSET)) as Hsp.
      destruct (setPrecision c1 (if 0 <=? p then p else UNSET)) as [c2|e]; cbn [bind]; congruence.
    - cbn [bind]. destruct (isPrecedingPrecision c); [|discriminate].
      destruct it as [|y r]; [change (zlen (@nil traits)) with 0 in Hn; lia|]. inversion Hq as [|? ? Q4 Q6]; subst.
      cbn [nextInt bind]. destruct (t_asInt y) as [p|e]; cbn [bind]; [|congruence].
      pose proof (setPrecision_quiet c (if 0 <=? p then p else UNSET)) as Hsp.
      destruct (setPrecision c (if 0 <=? p then p else UNSET)) as [c2|e]; cbn [bind]; congruence.
  Qed.
End Run.
