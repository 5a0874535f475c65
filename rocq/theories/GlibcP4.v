(** Whole calls of the library of GlibcM.v. *)
From Coq Require Import QArith.
From Verif Require Import Base Digits UtilsM SeqM SeqSpec SeqP SeqSubP ContextM CompilerM GrammarSpec CompilerP CompilerP2 PatternP
  IntFormM FormatterM FmtSpec FmtP FmtP2 MathM DecimalM FPDecimalM DoubleM BigDecM RoundM TraitsM ImplM ImplP DecSpec
  FloatSpec DirSpec CastP IntP LoopSpec LoopP NearP FloatP DoubleP HexP FloatArgP PropsFloat BigSpec BigDecP BigGenP PropsBig WidthP BigFixP BigReadP ExactSpec ExactP
  ScaleSpec ScaleP ValueSpec ValueP ValueP2 WholeSpec WholeP PortSpec RepairM RepairSpec RepairP RepairP2 RepairP3 RepairP4 GlibcM GlibcSpec GlibcP GlibcP2 GlibcP3.
Open Scope Z_scope.

(** ** '*' *)

Lemma takes_nextC J args o : takes J args o ->
  match o with
  | Err e => nextInt (map (traitsGivenC J) args) = Err e
  | Ok (w, rest) => nextInt (map (traitsGivenC J) args) = Ok (w, map (traitsGivenC J) rest) /\ is_int w
  end.
Proof.
  intros H. destruct H as [|v w r rest H|v r rest H|o e r rest H|rest]; cbn [map nextInt traitsGivenC].
  - reflexivity.
  - rewrite starC. destruct (int_of J v w r H) as [E R]. rewrite E. cbn [bind]. split; [reflexivity|apply in_range_32, R].
  - rewrite starC, (not_int_fails J v r H). reflexivity.
  - rewrite starC, (proj1 (fails_int_is J o e r H)). reflexivity.
  - reflexivity.
Qed.

Lemma width_resolvesC J fl w p d args o : star_ok w -> width_meant J (f_left fl) w args o ->
  match o with
  | Err e => widthOf' (mkCtx fl w p d) (map (traitsGivenC J) args) = Err e
  | Ok (l, w', rest) => exists fl' w2, widthOf' (mkCtx fl w p d) (map (traitsGivenC J) args) = Ok (mkCtx fl' w2 p d, map (traitsGivenC J) rest) /\
      f_left fl' = l /\ f_alt fl' = f_alt fl /\ f_plus fl' = f_plus fl /\ f_space fl' = f_space fl /\ f_zero fl' = f_zero fl /\
      Z.max 0 w2 = w' /\ (w2 = UNSET \/ 0 <= w2 <= 65536)
  end.
Proof.
  intros Hs H. unfold widthOf', isPrecedingWidth. cbn [c_width].
  destruct H as [args|n args Hn|n args rest H Hn|n args rest H Hn|n args rest H Hn|args e H].
  - exists fl, UNSET. replace (UNSET =? PRECEDING) with false by reflexivity. repeat split. left. reflexivity.
  - assert (n =? PRECEDING = false) as -> by (apply Z.eqb_neq; unfold PRECEDING, int_min; lia).
    exists fl, n. repeat split; [lia|]. right. unfold star_ok, UNSET, PRECEDING, int_min in Hs. lia.
  - rewrite Z.eqb_refl. destruct (takes_nextC _ _ _ H) as [-> _]. cbn [bind]. replace (0 <=? n) with true by (symmetry; apply Z.leb_le; lia).
    unfold setWidth. rewrite checkValue_in by lia. cbn [bind c_flags c_prec c_dtf]. exists fl, n. repeat split; lia.
  - rewrite Z.eqb_refl. destruct (takes_nextC _ _ _ H) as [-> _]. cbn [bind]. replace (0 <=? - n) with false by (symmetry; apply Z.leb_gt; lia).
    replace (- n =? int_min) with false by (symmetry; apply Z.eqb_neq; unfold int_min; lia). rewrite Z.opp_involutive.
    unfold setWidth. rewrite checkValue_in by lia. cbn [bind addFlag c_flags c_prec c_dtf]. exists (addF LEFT_JUSTIFY fl), n. repeat split; cbn; lia.
  - rewrite Z.eqb_refl. destruct (takes_nextC _ _ _ H) as [-> Hi]. cbn [bind]. unfold is_int, int_min, int_max in Hi.
    destruct (0 <=? n) eqn:E0; bools.
    + unfold setWidth. rewrite checkValue_out by lia. reflexivity.
    + unfold setWidth. rewrite checkValue_out by (destruct (n =? int_min); unfold int_max; lia). reflexivity.
  - rewrite Z.eqb_refl, (takes_nextC _ _ _ H). reflexivity.
Qed.

Lemma prec_resolvesC J fl w p d args o : star_ok p -> prec_meant J p args o ->
  match o with
  | Err e => precOf (mkCtx fl w p d) (map (traitsGivenC J) args) = Err e
  | Ok (p', rest) => exists p2, precOf (mkCtx fl w p d) (map (traitsGivenC J) args) = Ok (mkCtx fl w p2 d, map (traitsGivenC J) rest) /\
      (if p2 <? 0 then None else Some p2) = p' /\ (p2 = UNSET \/ 0 <= p2 <= 65536)
  end.
Proof.
  intros Hs H. unfold precOf, isPrecedingPrecision. cbn [c_prec].
  destruct H as [args|n args Hn|n args rest H Hn|n args rest H Hn|n args rest H Hn|args e H].
  - exists UNSET. repeat split. left. reflexivity.
  - assert (n =? PRECEDING = false) as -> by (apply Z.eqb_neq; unfold PRECEDING, int_min; lia).
    exists n. replace (n <? 0) with false by (symmetry; apply Z.ltb_ge; lia). repeat split. right. unfold star_ok, UNSET, PRECEDING, int_min in Hs. lia.
  - rewrite Z.eqb_refl. destruct (takes_nextC _ _ _ H) as [-> _]. cbn [bind]. replace (0 <=? n) with true by (symmetry; apply Z.leb_le; lia).
    unfold setPrecision. rewrite checkValue_in by lia. cbn [bind c_flags c_width c_dtf]. exists n. replace (n <? 0) with false by (symmetry; apply Z.ltb_ge; lia).
    repeat split; lia.
  - rewrite Z.eqb_refl. destruct (takes_nextC _ _ _ H) as [-> _]. cbn [bind]. replace (0 <=? n) with false by (symmetry; apply Z.leb_gt; lia).
    exists UNSET. repeat split. left. reflexivity.
  - rewrite Z.eqb_refl. destruct (takes_nextC _ _ _ H) as [-> _]. cbn [bind]. replace (0 <=? n) with true by (symmetry; apply Z.leb_le; lia).
    unfold setPrecision. rewrite checkValue_out by lia. reflexivity.
  - rewrite Z.eqb_refl, (takes_nextC _ _ _ H). reflexivity.
Qed.

Lemma resolvesC J fl w p d args l w' a1 o : bounded_or_star (mkCtx fl w p d) ->
  width_meant J (f_left fl) w args (Ok (l, w', a1)) -> prec_meant J p a1 o ->
  match o with
  | Err e => resolveCtx' (mkCtx fl w p d) (map (traitsGivenC J) args) = Err e
  | Ok (p', rest) => exists c, resolveCtx' (mkCtx fl w p d) (map (traitsGivenC J) args) = Ok (c, map (traitsGivenC J) rest) /\ rt_ok c /\ q_of c = asked fl l w' p' /\ c_dtf c = d
  end.
Proof.
  intros [Bw Bp] W P. cbn [c_width c_prec] in Bw, Bp. rewrite resolve_halves'.
  destruct (width_resolvesC J fl w p d args _ Bw W) as (fl' & w2 & -> & E1 & E2 & E3 & E4 & E5 & E6 & R). cbn [bind].
  pose proof (prec_resolvesC J fl' w2 p d a1 o Bp P) as X. destruct o as [[p' rest]|e]; [|exact X].
  destruct X as (p2 & -> & Ep & Rp). eexists. split; [reflexivity|]. split; [split; cbn; [destruct R; auto|assumption]|]. split; [|reflexivity].
  unfold q_of, asked. cbn. rewrite E1, E2, E3, E4, E5, E6, Ep. reflexivity.
Qed.

(** ** Pieces *)

Lemma pieceC_appends J a args o : jdk_ok J -> sane a -> pieceC J a args o ->
  match o with
  | Err e => appendOneC J a (map (traitsGivenC J) args) = Err e
  | Ok (t, rest) => exists u, appendOneC J a (map (traitsGivenC J) args) = Ok (u, map (traitsGivenC J) rest) /\ forall emit, emits emit -> forall sb, emit u sb = (sb ++ t, None)
  end.
Proof.
  intros HJ Hs H. destruct H as [t args|s fl w p d args e W|s fl w p d args l w' a1 e W P|s fl w p d args l w' a1 p' W P|s fl w p d args l w' a1 p' x rest e W P S|s fl w p d args l w' a1 p' x rest t W P S];
    cbn [appendOneC sane] in *.
  - exists (wrapS t). split; [reflexivity|]. intros emit He sb. apply wrapS_emits, He.
  - rewrite resolve_halves', (width_resolvesC J fl w p d args _ (proj1 Hs) W). reflexivity.
  - rewrite (resolvesC J fl w p d args l w' a1 _ Hs W P). reflexivity.
  - destruct (resolvesC J fl w p d args l w' a1 _ Hs W P) as (c & -> & _). reflexivity.
  - destruct (resolvesC J fl w p d args l w' a1 _ Hs W P) as (c & -> & Hc & Q & D). cbn [bind map].
    pose proof (meantC_gives J s d _ x _ c HJ S Hc Q D) as G. cbn [givesC] in G. rewrite G. reflexivity.
  - destruct (resolvesC J fl w p d args l w' a1 _ Hs W P) as (c & -> & Hc & Q & D). cbn [bind map].
    destruct (meantC_gives J s d _ x _ c HJ S Hc Q D) as (u & -> & Wu). cbn [bind]. exists u. split; [reflexivity|].
    intros emit He sb. apply wden_emits; [assumption|apply den_wden; assumption].
Qed.

Lemma meansC_runs J ds args t o : jdk_ok J -> Forall sane ds -> meansC J ds args t o ->
  forall emit, emits emit -> forall sb, runC J emit ds (map (traitsGivenC J) args) sb = (sb ++ t, o).
Proof.
  intros HJ Hs H emit He. induction H as [args|d ds args t rest u o P S IH|d ds args e P]; intros sb; cbn [runC].
  - rewrite app_nil_r. reflexivity.
  - inversion Hs as [|? ? Hd Hr]; subst. destruct (pieceC_appends J d args _ HJ Hd P) as (s & -> & E). rewrite (E emit He), (IH Hr), app_assoc. reflexivity.
  - inversion Hs as [|? ? Hd Hr]; subst. rewrite (pieceC_appends J d args _ HJ Hd P), app_nil_r. reflexivity.
Qed.

Lemma asked_prec J fl l w' p a1 p' rest : prec_meant J p a1 (Ok (p', rest)) -> 0 <= prec_or 6 (asked fl l w' p').
Proof. intros H. unfold prec_or, asked. cbn [q_prec]. inversion H; subst; lia. Qed.

Lemma pieceC_total J a args : jdk_ok J -> sane a -> Forall allowed args ->
  exists o, pieceC J a args o /\ match o with Ok (_, rest) => Forall allowed rest | Err _ => True end.
Proof.
  intros HJ Hs Ha. destruct a as [t|s [fl w p d]]; [eexists; split; [apply pc_literal|exact Ha]|].
  destruct Hs as [Bw Bp]. cbn [c_width c_prec] in Bw, Bp.
  destruct (width_total' J (f_left fl) w args HJ Bw Ha) as ([[[l w'] a1]|e] & W & Ha1); [|eexists; split; [apply pc_width_fails, W|exact I]].
  destruct (prec_total' J p a1 HJ Bp Ha1) as ([[p' a2]|e] & P & Ha2); [|eexists; split; [eapply pc_prec_fails; eassumption|exact I]].
  destruct Ha2 as [|x rest Hx Hr]; [eexists; split; [eapply pc_missing; eassumption|exact I]|].
  destruct (meantC_total J x s d (asked fl l w' p') HJ Hx (asked_prec J fl l w' p a1 p' _ P)) as [[t|e] S]; eexists; (split; [first [eapply pc_shown; eassumption|eapply pc_refused; eassumption]|]); [exact Hr|exact I].
Qed.

Lemma meansC_total J ds : jdk_ok J -> Forall sane ds -> forall args, Forall allowed args -> exists t o, meansC J ds args t o.
Proof.
  intros HJ Hs. induction Hs as [|d r Hd Hr IH]; intros args Ha; [exists [], None; apply mk_end|].
  destruct (pieceC_total J d args HJ Hd Ha) as ([[t rest]|e] & P & Hrest).
  - destruct (IH rest Hrest) as (u & o & S). exists (t ++ u), o. eapply mk_piece; eassumption.
  - exists [], (Some e). apply mk_stop, P.
Qed.

Lemma meansC_unique J ds args t o t' o' : jdk_ok J -> Forall sane ds -> meansC J ds args t o -> meansC J ds args t' o' -> t = t' /\ o = o'.
Proof.
  intros HJ Hs S S'. pose proof (meansC_runs J ds args t o HJ Hs S _ emits_sb []) as E.
  rewrite (meansC_runs J ds args t' o' HJ Hs S' _ emits_sb []) in E. cbn [app] in E. injection E as -> ->. auto.
Qed.
