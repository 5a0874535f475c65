(** Single directives and whole calls, for every Java argument. *)
From Coq Require Import QArith.
From Verif Require Import Base Digits UtilsM SeqM SeqSpec SeqP SeqSubP ContextM CompilerM GrammarSpec CompilerP CompilerP2 PatternP
  IntFormM FormatterM FmtSpec FmtP FmtP2 MathM DecimalM FPDecimalM DoubleM BigDecM RoundM TraitsM ImplM ImplP DecSpec
  FloatSpec DirSpec CastP IntP LoopSpec LoopP NearP FloatArgP PropsFloat BigSpec ValueSpec ValueP.
Open Scope Z_scope.

(** ** The views are functions *)

Lemma sgn_abs_inj z z' : Z.sgn z = Z.sgn z' -> Z.abs z = Z.abs z' -> z = z'.
Proof. lia. Qed.

Lemma is_integer_unique J v z z' : is_integer J v z -> is_integer J v z' -> z = z'.
Proof.
  intros A B. destruct (int_view_of J v z RNull A) as (f & E & [S D] & _). destruct (int_view_of J v z' RNull B) as (f' & E' & [S' D'] & _).
  rewrite E in E'. injection E' as <-. apply sgn_abs_inj; [congruence|]. rewrite D in D'. injection D' as D'.
  rewrite <- (of_numeral_numeral 10 (Z.abs z)), <- (of_numeral_numeral 10 (Z.abs z')) by lia. rewrite D'. reflexivity.
Qed.

Lemma is_integer_exclusive J v z e : is_integer J v z -> not_integer J v e -> False.
Proof.
  intros A B. destruct (int_view_of J v z RNull A) as (f & E & _). rewrite (not_integer_form J v e RNull B) in E. discriminate.
Qed.

Lemma int_value_unique J v w w' : int_value J v w -> int_value J v w' -> w = w'.
Proof. intros A B. destruct (int_of J v w RNull A) as [E _]. destruct (int_of J v w' RNull B) as [E' _]. congruence. Qed.

Lemma int_value_exclusive J v w : int_value J v w -> not_int J v -> False.
Proof. intros A B. destruct (int_of J v w RNull A) as [E _]. rewrite (not_int_fails J v RNull B) in E. discriminate. Qed.

Lemma is_char_unique J v c c' : is_char J v c -> is_char J v c' -> c = c'.
Proof. intros A B. pose proof (char_of J v c RNull A). pose proof (char_of J v c' RNull B). congruence. Qed.

Lemma is_char_exclusive J v c : java_value v -> is_char J v c -> not_char J v -> False.
Proof. intros H A B. pose proof (char_of J v c RNull A) as E. rewrite (not_char_fails J v RNull H B) in E. discriminate. Qed.

Lemma is_temporal_exclusive J v t e : is_temporal v t -> not_temporal J v e -> False.
Proof. intros A B. pose proof (temporal_is J v t RNull A) as E. rewrite (not_temporal_fails J v e RNull B) in E. discriminate. Qed.

(** ** Rejections *)

Definition is_int_spec (s : spec) : Prop := s = Sd \/ s = Su \/ s = Sx \/ s = SX \/ s = So.

Lemma not_integer_rejected J v e r src s q : is_int_spec s -> not_integer J v e -> directive src s q -> rejects J src [traitsOf J v r] e.
Proof.
  intros Hs H D. apply (rejects_one _ _ _ _ _ _ D). intros c _ _. pose proof (not_integer_form J v e r H) as E.
  destruct Hs as [->|[->|[->|[->| ->]]]]; cbn [formatterFor]; unfold upperOf, withInt; rewrite E; reflexivity.
Qed.

Lemma not_float_rejected J v r src s q : is_float_spec s -> not_float J v -> directive src s q -> rejects J src [traitsOf J v r] (Printf BadConversion).
Proof.
  intros Hs H D. apply (rejects_one _ _ _ _ _ _ D). intros c _ _. pose proof (not_float_fails J v r H) as E.
  destruct Hs as [->|[->|[->|[->|[->|[->|[->| ->]]]]]]]; cbn [formatterFor]; unfold upperOf, withFloat; rewrite E; reflexivity.
Qed.

Lemma not_char_rejected J v r src q : java_value v -> not_char J v -> directive src Sc q -> rejects J src [traitsOf J v r] (Printf BadConversion).
Proof.
  intros Hv H D. apply (rejects_one _ _ _ _ _ _ D). intros c _ _. cbn [formatterFor]. rewrite (not_char_fails J v r Hv H). reflexivity.
Qed.

Lemma null_rejected J src s q : is_int_spec s \/ is_float_spec s \/ s = Sc \/ s = St \/ s = ST -> directive src s q ->
  rejects J src [nullTraits] (Printf BadConversion).
Proof.
  intros Hs D. apply (rejects_one _ _ _ _ _ _ D). intros c _ _.
  destruct Hs as [[->|[->|[->|[->| ->]]]]|[[->|[->|[->|[->|[->|[->|[->| ->]]]]]]]|[->|[->| ->]]]]; reflexivity.
Qed.

(** ** '*' *)

Lemma star_int_of J v w r x' args sb ds target : int_value J v w -> t_asInt x' = Ok w ->
  (forall s c, In (Default s c) ds -> isPrecedingWidth c = true \/ isPrecedingPrecision c = true) -> List.length ds = 1%nat ->
  formatInto J sb ds (traitsOf J v r :: args) target = formatInto J sb ds (x' :: args) target.
Proof.
  intros H E' Hs Hl. destruct (int_of J v w r H) as [E _]. destruct ds as [|d [|]]; try discriminate Hl. unfold formatInto. cbn [run].
  assert (A : appendOne J d (traitsOf J v r :: args) = appendOne J d (x' :: args) \/
    exists s it it', appendOne J d (traitsOf J v r :: args) = Ok (s, it) /\ appendOne J d (x' :: args) = Ok (s, it')).
  { destruct d as [t|s c]; cbn [appendOne]; [right; eauto|]. left. unfold resolveCtx.
    destruct (isPrecedingWidth c) eqn:A; cbn [nextInt bind]; [rewrite E, E'; reflexivity|].
    destruct (isPrecedingPrecision c) eqn:B; cbn [nextInt bind]; [rewrite E, E'; reflexivity|].
    destruct (Hs s c (or_introl eq_refl)) as [X|X]; congruence. }
  apply (run_one J (if sb then emitSB else emitApp) d _ _ d target A).
Qed.

Lemma star_not_int J F fl P p c s x rest : flags_text F fl -> prec_text P p -> conv_char c s -> s <> Spct ->
  t_asInt x = Err (Printf BadConversion) -> rejects J (pct :: F ++ txt "*" ++ P ++ [c]) (x :: rest) (Printf BadConversion).
Proof.
  intros HF HP Hc Hs Hx dtf. eapply rejects_resolve; [apply one_directive; eauto; constructor|].
  unfold resolveCtx, isPrecedingWidth. cbn [c_width]. rewrite Z.eqb_refl. cbn [nextInt]. rewrite Hx. reflexivity.
Qed.

Lemma star_prec_not_int J F fl W w c s x rest : flags_text F fl -> width_text W w -> w <> PRECEDING -> conv_char c s -> s <> Spct ->
  t_asInt x = Err (Printf BadConversion) -> rejects J (pct :: F ++ W ++ txt ".*" ++ [c]) (x :: rest) (Printf BadConversion).
Proof.
  intros HF HW Hw Hc Hs Hx dtf. eapply rejects_resolve; [apply one_directive; eauto; constructor|].
  unfold resolveCtx, isPrecedingWidth, isPrecedingPrecision. cbn [c_width c_prec].
  replace (w =? PRECEDING) with false by (symmetry; apply Z.eqb_neq; exact Hw). cbn [bind c_prec]. rewrite Z.eqb_refl. cbn [nextInt]. rewrite Hx. reflexivity.
Qed.

(** ** Dates *)

Lemma date_compile dtf src s p q : date_directive src s p q -> accepts dtf p ->
  exists c, compile dtf src = Ok [Default s c] /\ rt_ok c /\ q_of c = q /\
    isPrecedingWidth c = false /\ isPrecedingPrecision c = false /\ c_dtf c = p.
Proof.
  intros H A. destruct H as [src s q Hs D|src s q p Hs D Hn Hp]; [apply directive_compile, D|].
  destruct (directive_compile dtf src s q D) as (c0 & E & R & Q & PW & PP & _).
  destruct D as [F fl W w P p' c s HF HW Hw HP Hp' Hc Hpct].
  assert (G : GrammarSpec.format dtf (pct :: F ++ W ++ P ++ c :: ([123] ++ p ++ [125]) ++ []) (Default s (mkCtx fl w p' (Some p)) :: [])).
  { apply fmt_dir; try assumption; [|constructor]. apply D_pat; assumption. }
  assert (G0 : c0 = mkCtx fl w p' None).
  { assert (X : compile dtf (pct :: F ++ W ++ P ++ [c]) = Ok [Default s (mkCtx fl w p' None)]).
    { apply one_directive; try assumption. intros ->. destruct Hs; discriminate. }
    rewrite X in E. injection E as <-. reflexivity. }
  subst c0. exists (mkCtx fl w p' (Some p)). split.
  - rewrite <- (proj2 (compile_iff dtf _ _) G). f_equal. cbn [app]. rewrite app_nil_r. rewrite <- !app_assoc. reflexivity.
  - split; [exact R|]. split; [exact Q|]. split; [exact PW|]. split; [exact PP|reflexivity].
Qed.

Lemma date_prints J p src s q v t d r : jdk_ok J -> date_directive src s p q -> is_temporal v t -> dated J p t (Ok d) ->
  prints_date J p src [traitsOf J v r] (date_case s (justify q d)).
Proof.
  intros HJ D Ht Hd dtf A. destruct (date_compile dtf _ _ _ _ D A) as (c & Ec & Hr & Hq & PW & PP & Ep).
  pose proof (dated_text J p t d HJ Hd) as L. subst q.
  destruct (spaceJustify_den c (wrapS d) d Hr (wrapS_den d L)) as (u & Eu & Du).
  assert (Et : fmt_t J c (traitsOf J v r) = Ok u).
  { rewrite (dated_is J c _ t (Ok d)); [cbn [bind]; exact Eu|apply temporal_is, Ht|rewrite Ep; exact Hd]. }
  assert (Hs : s = St \/ s = ST) by (destruct D; assumption).
  assert (X : exists u', formatterFor J s c (traitsOf J v r) = Ok u' /\ wden u' (date_case s (justify (q_of c) d))).
  { destruct Hs as [-> | ->]; cbn [formatterFor date_case].
    - exists u. split; [exact Et|apply den_wden, Du].
    - unfold upperOf. rewrite Et. cbn [bind]. destruct (s_upper_den _ _ Du) as (u' & E' & D'). exists u'. split; [exact E'|apply den_wden, D']. }
  destruct X as (u' & Ef & Dw). exists [Default s c]. split; [exact Ec|].
  unfold ImplM.format, formatInto. cbn [run appendOne]. rewrite (resolve_plain _ _ PW PP). cbn [bind]. rewrite Ef. cbn [bind].
  rewrite (emitSB_wden _ _ _ Dw). split; [reflexivity|].
  intros sb target. assert (emits (if sb then emitSB else emitApp)) as He by (destruct sb; [left|right]; reflexivity).
  rewrite (wden_emits _ _ _ _ He Dw). reflexivity.
Qed.

Lemma date_rejects_one J p src s q x e : date_directive src s p q -> (forall c, c_dtf c = p -> fmt_t J c x = Err e) ->
  rejects_date J p src [x] e.
Proof.
  intros D H dtf A. destruct (date_compile dtf _ _ _ _ D A) as (c & Ec & Hr & Hq & PW & PP & Ep).
  exists [Default s c]. split; [exact Ec|].
  assert (Hs : s = St \/ s = ST) by (destruct D; assumption).
  assert (Ef : formatterFor J s c x = Err e) by (destruct Hs as [-> | ->]; cbn [formatterFor]; unfold upperOf; rewrite (H c Ep); reflexivity).
  unfold ImplM.format, formatInto. cbn [run appendOne]. rewrite (resolve_plain _ _ PW PP). cbn [bind]. rewrite Ef. cbn [bind]. auto.
Qed.

Lemma date_fails J p src s q v t e r : date_directive src s p q -> is_temporal v t -> dated J p t (Err e) ->
  rejects_date J p src [traitsOf J v r] e.
Proof.
  intros D Ht Hd. apply (date_rejects_one _ _ _ _ _ _ _ D). intros c Ep.
  rewrite (dated_is J c _ t (Err e)); [reflexivity|apply temporal_is, Ht|rewrite Ep; exact Hd].
Qed.

Lemma not_date_rejected J p src s q v e r : date_directive src s p q -> not_temporal J v e -> rejects_date J p src [traitsOf J v r] e.
Proof.
  intros D H. apply (date_rejects_one _ _ _ _ _ _ _ D). intros c _. unfold fmt_t. rewrite (not_temporal_fails J v e r H). reflexivity.
Qed.

Lemma null_date_rejected J p src s q : date_directive src s p q -> rejects_date J p src [nullTraits] (Printf BadConversion).
Proof. intros D. apply (date_rejects_one _ _ _ _ _ _ _ D). intros c _. reflexivity. Qed.

(** ** %p *)

Lemma pointer_prints J src q v name h : directive src Sp q -> zlen name <= 65535 ->
  prints J src [traitsOf J v (RObj name h)] (justify q (pointer_text name h)).
Proof.
  intros D Hn. apply (prints_one _ _ _ _ _ _ D). intros c Hr <-. cbn [formatterFor]. rewrite traits_ref. apply fmt_p_den; assumption.
Qed.

Lemma null_ref_prints J src q x : directive src Sp q -> t_ref x = RNull -> prints J src [x] (justify q (txt "null")).
Proof.
  intros D E. apply (prints_one _ _ _ _ _ _ D). intros c Hr <-. cbn [formatterFor]. rewrite E. cbn [fmt_p].
  apply spaceJustify_den; [exact Hr|apply wrapS_den; vm_compute; discriminate].
Qed.

Lemma primitive_rejected J src q v : directive src Sp q -> rejects J src [traitsOf J v RPrimitive] (Printf PrimitivePointer).
Proof. intros D. apply (rejects_one _ _ _ _ _ _ D). intros c _ _. cbn [formatterFor]. rewrite traits_ref. reflexivity. Qed.

Lemma object_exceptions J o e r :
  (fails_long o e -> forall src s q, is_int_spec s -> directive src s q -> rejects J src [traitsOf J (VObj o) r] e) /\
  (fails_int o e -> forall src q, directive src Sc q -> rejects J src [traitsOf J (VObj o) r] e) /\
  (fails_double o e -> forall src s q, is_float_spec s -> directive src s q -> rejects J src [traitsOf J (VObj o) r] e) /\
  (fails_instant o e -> forall src s q, s = St \/ s = ST -> directive src s q -> rejects J src [traitsOf J (VObj o) r] e) /\
  (object_text o = Err e -> forall src s q, s = Ss \/ s = SS -> directive src s q -> rejects J src [traitsOf J (VObj o) r] e).
Proof.
  split; [|split; [|split; [|split]]].
  - intros H src s q Hs D. apply (not_integer_rejected J _ e r src s q Hs); [apply ni_fails, H|exact D].
  - intros H src q D. apply (rejects_one _ _ _ _ _ _ D). intros c _ _. cbn [formatterFor]. rewrite (proj2 (fails_int_is J o e r H)). reflexivity.
  - intros H src s q Hs D. apply (rejects_one _ _ _ _ _ _ D). intros c _ _. pose proof (fails_double_is J o e r H) as E.
    destruct Hs as [->|[->|[->|[->|[->|[->|[->| ->]]]]]]]; cbn [formatterFor]; unfold upperOf, withFloat; rewrite E; reflexivity.
  - intros H src s q Hs D. apply (rejects_one _ _ _ _ _ _ D). intros c _ _. pose proof (not_temporal_fails J _ e r (nm_fails J o e H)) as E.
    destruct Hs as [-> | ->]; cbn [formatterFor]; unfold upperOf, fmt_t; rewrite E; reflexivity.
  - intros H src s q Hs D. apply (rejects_one _ _ _ _ _ _ D). intros c _ _.
    assert (E : t_asSeq (traitsOf J (VObj o) r) = Err e).
    { cbn [traitsOf]. assert (t_asSeq (objTraits o r) = seqOfString (objText o)) as -> by (destruct o; reflexivity). rewrite <- object_text_is, H. reflexivity. }
    destruct Hs as [-> | ->]; cbn [formatterFor]; unfold upperOf; rewrite E; reflexivity.
Qed.

(** ** Whole calls *)

Lemma setWidth_cases c w : (exists c1, setWidth c w = Ok c1 /\ c_prec c1 = c_prec c) \/ setWidth c w = Err (Printf WidthRange).
Proof.
  unfold setWidth, checkValue. repeat (match goal with |- context [if ?b then _ else _] => destruct b end; cbn [bind]); auto; left; eexists; (split; [reflexivity|reflexivity]).
Qed.

Lemma resolve_errors J c args e : jdk_ok J -> Forall (argument J) args -> resolveCtx c args = Err e ->
  e = Printf MissingArg \/ (c_width c = PRECEDING /\ e = Printf WidthRange) \/ (c_prec c = PRECEDING /\ e = Printf PrecisionRange) \/
  ((c_width c = PRECEDING \/ c_prec c = PRECEDING) /\ (e = Printf BadConversion \/ exists n, e = OtherExn n)).
Proof.
  intros HJ Ha H. unfold resolveCtx in H.
  assert (N : forall l e, Forall (argument J) l -> nextInt l = Err e -> e = Printf MissingArg \/ (e = Printf BadConversion \/ exists n, e = OtherExn n)).
  { intros l e' Hl El. destruct l as [|x l]; cbn [nextInt] in El; [injection El as <-; auto|]. inversion Hl as [|? ? Hx]; subst.
    destruct (argument_int J x HJ Hx) as [(w & E & _)|(e1 & E & Ee)]; rewrite E in El; cbn [bind] in El; [discriminate|]. injection El as <-. auto. }
  assert (T : forall l w l', Forall (argument J) l -> nextInt l = Ok (w, l') -> Forall (argument J) l').
  { intros l w l' Hl El. destruct l as [|x l]; cbn [nextInt] in El; [discriminate|]. destruct (t_asInt x); cbn [bind] in El; [|discriminate].
    injection El as _ <-. inversion Hl; assumption. }
  assert (S2 : forall c1 l, c_prec c1 = c_prec c -> Forall (argument J) l ->
    (if isPrecedingPrecision c1 then let* (p, it) := nextInt l in let* c := setPrecision c1 (if 0 <=? p then p else UNSET) in Ok (c, it) else Ok (c1, l)) = Err e ->
    e = Printf MissingArg \/ (c_prec c = PRECEDING /\ e = Printf PrecisionRange) \/ (c_prec c = PRECEDING /\ (e = Printf BadConversion \/ exists n, e = OtherExn n))).
  { intros c1 l Ep Hl E. unfold isPrecedingPrecision in E. rewrite Ep in E. destruct (c_prec c =? PRECEDING) eqn:P; [|discriminate]. bools.
    destruct (nextInt l) as [[p l']|e'] eqn:En; cbn [bind] in E; [|injection E as <-; destruct (N _ _ Hl En); auto].
    unfold setPrecision, checkValue in E. repeat (match type of E with context [if ?b then _ else _] => destruct b end; cbn [bind] in E); try discriminate; injection E as <-; auto. }
  destruct (isPrecedingWidth c) eqn:W.
  - unfold isPrecedingWidth in W. bools. destruct (nextInt args) as [[w l]|e'] eqn:En; cbn [bind] in H; [|injection H as <-; destruct (N _ _ Ha En); auto 6].
    pose proof (T _ _ _ Ha En) as Hl.
    assert (X : (exists c1, (if 0 <=? w then setWidth c w else setWidth (addFlag c LEFT_JUSTIFY) (wrap32 (- w))) = Ok c1 /\ c_prec c1 = c_prec c) \/
      (if 0 <=? w then setWidth c w else setWidth (addFlag c LEFT_JUSTIFY) (wrap32 (- w))) = Err (Printf WidthRange)).
    { destruct (0 <=? w); [apply setWidth_cases|]. destruct (setWidth_cases (addFlag c LEFT_JUSTIFY) (wrap32 (- w))) as [(c1 & A & B)|A]; [left; exists c1; auto|auto]. }
    destruct X as [(c1 & E1 & Ep)|E1]; rewrite E1 in H; cbn [bind] in H; [|injection H as <-; auto].
    destruct (S2 c1 l Ep Hl H) as [R|[R|[R1 R2]]]; auto 8.
  - cbn [bind] in H. destruct (S2 c args eq_refl Ha H) as [R|[R|[R1 R2]]]; auto 8.
Qed.

Lemma appendOne_errors J d args e : jdk_ok J -> sane d -> Forall (argument J) args -> appendOne J d args = Err e ->
  e = Printf MissingArg \/ forall all, call_error [d] all e.
Proof.
  intros HJ Hd Ha E. destruct d as [t|s c]; cbn [appendOne] in E; [discriminate|].
  destruct (resolveCtx c args) as [[c1 l]|e'] eqn:Er; cbn [bind] in E.
  - destruct l as [|x l]; [injection E as <-; auto|]. destruct (formatterFor J s c1 x) as [u|e'] eqn:Ef; cbn [bind] in E; [discriminate|].
    injection E as <-. right. intros all.
    assert (Hx : argument J x /\ context_ok c1).
    { split.
      - destruct (resolve_suffix _ _ _ _ Er) as [u ->]. apply Forall_app in Ha as [_ Ha]. inversion Ha; assumption.
      - apply (resolved_ok _ _ _ _ Hd Er). eapply Forall_impl; [|exact Ha]. intros y Hy. destruct (argument_honest J y HJ Hy) as [A _]. exact A. }
    destruct (argument_ends J x s c1 HJ (proj1 Hx) (proj2 Hx)) as [(u & t & E' & _)|(e & E' & Ce)]; rewrite Ef in E'; [discriminate|].
    injection E' as <-. eapply ke_conv; [left; reflexivity|exact Ce].
  - injection E as <-. destruct (resolve_errors J c args e' HJ Ha Er) as [R|[[R ->]|[[R ->]|[R [->|[n ->]]]]]]; [auto| | | |]; right; intros all.
    + eapply ke_width; [left; reflexivity|exact R].
    + eapply ke_prec; [left; reflexivity|exact R].
    + eapply ke_star; [left; reflexivity|exact R].
    + eapply ke_foreign; [left; reflexivity|exact R].
Qed.

Lemma call_error_more ds ds' args e : (forall d, In d ds -> In d ds') -> e <> Printf MissingArg -> call_error ds args e -> call_error ds' args e.
Proof.
  intros H N C. destruct C as [L|s c I R|s c I R|s c I R|s c n I R|s c e I R]; [congruence| | | | |].
  - apply (ke_width _ _ s c); auto.
  - apply (ke_prec _ _ s c); auto.
  - apply (ke_star _ _ s c); auto.
  - apply (ke_foreign _ _ s c); auto.
  - apply (ke_conv _ _ s c); auto.
Qed.

Lemma run_errors J ds : jdk_ok J -> Forall sane ds -> forall args sb o e, Forall (argument J) args -> run J emitSB ds args sb = (o, Some e) ->
  e = Printf MissingArg \/ forall all, call_error ds all e.
Proof.
  intros HJ Hd. induction Hd as [|d r Hd Hr IH]; intros args sb o e Ha E; cbn [run] in E; [discriminate|].
  assert (M : e = Printf MissingArg \/ e <> Printf MissingArg) by (destruct e as [| [] | | | | | | |]; auto; right; discriminate).
  destruct M as [M|M]; [auto|]. right. intros all.
  destruct (appendOne J d args) as [[s it]|e'] eqn:Ea.
  - assert (Hh : Forall (honest J) args) by (eapply Forall_impl; [|exact Ha]; intros y Hy; apply argument_honest; assumption).
    destruct (appendOne_honest _ _ _ _ _ Hd Hh Ea) as [[t Ht] _]. rewrite (Ht emitSB emits_sb) in E.
    destruct (appendOne_ok _ _ _ _ _ Ea) as (u & -> & _). apply Forall_app in Ha as [_ Ha].
    destruct (IH _ _ _ _ Ha E) as [C|C]; [congruence|]. apply (call_error_more r); auto. intros x Hx; right; exact Hx.
  - injection E as _ ->. destruct (appendOne_errors J d args e HJ Hd Ha Ea) as [C|C]; [congruence|].
    apply (call_error_more [d]); auto. intros x [->|[]]; left; reflexivity.
Qed.

Lemma call_ends dtf src J ds args : jdk_ok J -> compile dtf src = Ok ds -> Forall (argument J) args ->
  (exists t, ImplM.format J ds args = Ok t) \/ (exists e, ImplM.format J ds args = Err e /\ call_error ds args e).
Proof.
  intros HJ Hc Ha.
  assert (Hh : Forall (honest J) args) by (eapply Forall_impl; [|exact Ha]; intros y Hy; apply argument_honest; assumption).
  assert (Hq : Forall (quiet_arg J) args) by (eapply Forall_impl; [|exact Ha]; intros y Hy; apply argument_quiet; assumption).
  destruct (ImplM.format J ds args) as [t|e] eqn:E; [eauto|]. right. exists e. split; [reflexivity|].
  unfold ImplM.format in E. destruct (run J emitSB ds args []) as [o [e'|]] eqn:R; [|discriminate]. injection E as <-.
  destruct (run_errors J ds HJ (compiled_sane _ _ _ Hc) args [] o e' Ha R) as [->|C]; [|apply C].
  apply ke_missing. destruct (Z_lt_le_dec (zlen args) (arities ds)) as [L|L]; [exact L|]. exfalso.
  apply (enough_arguments dtf src J ds args Hc Hh Hq L). unfold ImplM.format. rewrite R. reflexivity.
Qed.

(** a NullPointerException is due to a toString that returned null *)
Lemma text_source J v r c : jdk_ok J -> java_value v -> rt_ok c ->
  (exists u t, (let* s := t_asSeq (traitsOf J v r) in fmt_s c s) = Ok u /\ wden u t) \/
  (exists o e, v = VObj o /\ object_text o = Err e /\ (let* s := t_asSeq (traitsOf J v r) in fmt_s c s) = Err e).
Proof.
  intros HJ Hv Hc. destruct (string_ends J v r c HJ Hv Hc) as [(u & t & E & W)|(e & E & _)]; [left; eauto|right].
  assert (D : (exists q, v = VSeq q) \/ forall q, v <> VSeq q) by (destruct v; try (right; discriminate); left; eauto).
  destruct D as [[q ->]|D].
  - destruct Hv as [t Hv]. cbn [traitsOf charSeqTraits t_asSeq bind] in E. exfalso. destruct (fmt_s_ok c q t Hc Hv) as (u & t' & E' & _). congruence.
  - destruct (text_of J v HJ Hv D) as [(t & T & M)|(o & e1 & -> & E1 & He)].
    + destruct (renders_den J Ss (traitsOf J v r) (fun q => c_s q t) c ltac:(constructor; assumption) Hc) as (u & E' & _).
      cbn [formatterFor] in E'. congruence.
    + exists o, e1. split; [reflexivity|]. split; [exact E1|].
      assert (t_asSeq (traitsOf J (VObj o) r) = Err e1) as -> by (cbn [traitsOf]; assert (t_asSeq (objTraits o r) = seqOfString (objText o)) as -> by (destruct o; reflexivity); rewrite <- object_text_is, E1; reflexivity).
      reflexivity.
Qed.

Lemma argument_null J x sp c : jdk_ok J -> argument J x -> context_ok c -> formatterFor J sp c x = Err NullPtr ->
  exists o r, x = traitsOf J (VObj o) r /\ object_text o = Err NullPtr.
Proof.
  intros HJ Hx Hc E. destruct (argument_ends J x sp c HJ Hx Hc) as [(u & t & E' & _)|(e & E' & Ce)]; rewrite E in E'; [discriminate|].
  injection E' as <-. inversion Ce as [| | | | | |s Hs]; subst s. change (rt_ok c) in Hc. destruct Hx as [|v r Hv Hp Hr].
  - exfalso. destruct (fmt_s_ok c (wrapS (txt "null")) (txt "null") Hc ltac:(apply wrapS_den; vm_compute; discriminate)) as (u & t & E' & W).
    destruct Hs as [-> | ->]; cbn [formatterFor nullTraits t_asSeq bind] in E; unfold upperOf in E; rewrite E' in E; [discriminate|].
    cbn [bind] in E. destruct (s_upper_wden _ _ W) as (w & Ew & _). congruence.
  - destruct (text_source J v r c HJ Hv Hc) as [(u & t & E' & W)|(o & e & -> & E1 & E')]; destruct Hs as [-> | ->]; cbn [formatterFor] in E; unfold upperOf in E; rewrite E' in E.
    + discriminate.
    + cbn [bind] in E. destruct (s_upper_wden _ _ W) as (w & Ew & _). congruence.
    + exists o, r. split; [reflexivity|congruence].
    + cbn [bind] in E. exists o, r. split; [reflexivity|congruence].
Qed.

Lemma resolve_not_null J c args e : jdk_ok J -> Forall (argument J) args -> resolveCtx c args = Err e -> e <> NullPtr.
Proof. intros HJ Ha E. destruct (resolve_errors J c args e HJ Ha E) as [-> |[[_ ->]|[[_ ->]|[_ [-> |[n ->]]]]]]; discriminate. Qed.

Lemma run_null J ds : jdk_ok J -> Forall sane ds -> forall emit args sb o, emits emit -> Forall (argument J) args -> run J emit ds args sb = (o, Some NullPtr) ->
  exists b r, In (traitsOf J (VObj b) r) args /\ object_text b = Err NullPtr.
Proof.
  intros HJ Hd. induction Hd as [|d rs Hd Hr IH]; intros emit args sb o He Ha E; cbn [run] in E; [discriminate|].
  assert (Hh : Forall (honest J) args) by (eapply Forall_impl; [|exact Ha]; intros y Hy; apply argument_honest; assumption).
  destruct (appendOne J d args) as [[s it]|e'] eqn:Ea.
  - destruct (appendOne_honest _ _ _ _ _ Hd Hh Ea) as [[t Ht] _]. rewrite (Ht emit He) in E.
    destruct (appendOne_ok _ _ _ _ _ Ea) as (u & -> & _). apply Forall_app in Ha as [_ Ha].
    destruct (IH _ _ _ _ He Ha E) as (b & r & I1 & I2). exists b, r. split; [apply in_or_app; auto|exact I2].
  - injection E as _ ->. destruct d as [t|s c]; cbn [appendOne] in Ea; [discriminate|].
    destruct (resolveCtx c args) as [[c1 l]|e'] eqn:Er; cbn [bind] in Ea; [|exfalso; apply (resolve_not_null J c args e' HJ Ha Er); congruence].
    destruct l as [|x l]; [discriminate|]. destruct (formatterFor J s c1 x) as [u|e'] eqn:Ef; cbn [bind] in Ea; [discriminate|]. injection Ea as ->.
    assert (C1 : context_ok c1) by (apply (resolved_ok _ _ _ _ Hd Er); eapply Forall_impl; [|exact Ha]; intros y Hy; destruct (argument_honest J y HJ Hy) as [A _]; exact A).
    destruct (resolve_suffix _ _ _ _ Er) as [u ->]. apply Forall_app in Ha as [_ Ha]. inversion Ha as [|? ? Hx]; subst.
    destruct (argument_null J x s c1 HJ Hx C1 Ef) as (b & r & -> & Eb). exists b, r. split; [apply in_or_app; right; left; reflexivity|exact Eb].
Qed.

(** every error of a call is one of ten *)
Lemma call_error_kinds ds args e : call_error ds args e ->
  match e with
  | Printf DupFlagArg => False
  | Printf _ | IllegalArg | NullPtr | OtherExn _ => True
  | _ => False
  end.
Proof. intros H. destruct H as [L|s c Hi R|s c Hi R|s c Hi R|s c n Hi R|s c e Hi R]; try exact I; destruct R; exact I. Qed.
