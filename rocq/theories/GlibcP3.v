(** Calls of the library of GlibcM.v follow GlibcSpec.v. *)
From Coq Require Import QArith.
From Verif Require Import Base Digits UtilsM SeqM SeqSpec SeqP SeqSubP ContextM CompilerM GrammarSpec CompilerP CompilerP2 PatternP
  IntFormM FormatterM FmtSpec FmtP FmtP2 MathM DecimalM FPDecimalM DoubleM BigDecM RoundM TraitsM ImplM ImplP DecSpec
  FloatSpec DirSpec CastP IntP LoopSpec LoopP NearP FloatP DoubleP HexP FloatArgP PropsFloat BigSpec BigDecP BigGenP PropsBig WidthP BigFixP BigReadP ExactSpec ExactP
  ScaleSpec ScaleP ValueSpec ValueP ValueP2 WholeSpec WholeP PortSpec RepairM RepairSpec RepairP RepairP2 RepairP3 RepairP4 GlibcM GlibcSpec GlibcP GlibcP2.
From Verif Require PortP PortP3.
Open Scope Z_scope.

(** ** The arguments *)

Lemma starC J v r : t_asInt (traitsOfC J v r) = t_asInt (traitsOf J v r).
Proof. destruct v; reflexivity. Qed.
Lemma smallC J v r : small_value v -> traitsOfC J v r = withFloatResult (traitsOf J v r) (let* b := doubleOf J v in Ok (exactForm b)).
Proof. destruct v; try contradiction; reflexivity. Qed.
Lemma small_wraps J v r : small_value v -> t_asFloatForm (traitsOf J v r) = (let* b := doubleOf J v in Ok (doubleForm b)).
Proof. intros H. apply doubleOf_wraps. destruct v; try contradiction; exact I. Qed.

Lemma chars_double J v s b : DirSpec.chars J v s -> j_parseDouble J s = Some b -> doubleOf J v = Ok b.
Proof.
  intros D E. destruct D; cbn [doubleOf]; try (rewrite E; reflexivity). erewrite s_toString_wden by eassumption. cbn [bind]. rewrite E. reflexivity.
Qed.
Lemma double_of J v b : is_double J v b -> doubleOf J v = Ok b /\ in_range 64 b.
Proof.
  intros H. split; [|apply (double_view J v b RNull H)].
  destruct H as [b H|f b H|f H|z b H N|z b H N|z b H N|z b H N|c b H N|v b N|v s b D E H|l d i t H|m i t a b H N1 N2|m t a b H N1 N2|t s n a c d b E H1 H2 N1 N2 N3 N4]; cbn [doubleOf].
  - reflexivity.
  - rewrite (widened_unique f b (f2d f) H (f2d_widens f (proj1 H))). reflexivity.
  - rewrite (float_inf f H). reflexivity.
  - rewrite (ofLong_is z b); [reflexivity| |exact N]. unfold in_range in H. change (2 ^ (8 - 1)) with 128 in H. lia.
  - rewrite (ofLong_is z b); [reflexivity| |exact N]. unfold in_range in H. change (2 ^ (16 - 1)) with 32768 in H. lia.
  - rewrite (ofLong_is z b); [reflexivity| |exact N]. unfold in_range in H. change (2 ^ (32 - 1)) with (2 ^ 31) in H. lia.
  - rewrite (ofLong_is z b); [reflexivity| |exact N]. unfold in_range in H. change (2 ^ (64 - 1)) with (2 ^ 63) in H. lia.
  - rewrite (ofLong_is c b); [reflexivity|lia|exact N].
  - rewrite (ofLong_is _ b); [reflexivity|destruct v; lia|exact N].
  - apply (chars_double J v s b D E).
  - reflexivity.
  - cbn [bind]. rewrite (millis_double m a b H N1 N2). reflexivity.
  - cbn [bind]. rewrite (millis_double m a b H N1 N2). reflexivity.
  - rewrite <- point_is, E. cbn [bind fst snd]. rewrite (instant_double s n a c d b H1 H2 N1 N2 N3 N4). reflexivity.
Qed.
Lemma nan_of J v : is_nan J v -> exists b, doubleOf J v = Ok b /\ inf_bits < magnitude b.
Proof.
  intros H. destruct H as [b _ H|f _ H|v s b D E _ H|l d i t _ H].
  - exists b. split; [reflexivity|exact H].
  - exists (f2d f). split; [reflexivity|apply float_nan; exact H].
  - exists b. split; [|exact H]. apply (chars_double J v s b D E).
  - exists d. split; [reflexivity|exact H].
Qed.

(** ** One conversion *)

Definition givesC (J : jdk) (s : spec) (c : ctx) (x : traits) (o : res (list Z)) : Prop :=
  match o with Ok t => exists u, formatterForC J s c x = Ok u /\ den u t | Err e => formatterForC J s c x = Err e end.
Lemma givesC_same J s c x x' o : formatterForC J s c x' = formatterFor' J s c x -> gives' J s c x o -> givesC J s c x' o.
Proof. unfold givesC, gives'. intros ->. auto. Qed.

Lemma formC_gives J s c x F t : float_spec s = true -> t_asFloatForm x = Ok F ->
  (forall G, float_convC c s = Some G -> exists u, G F = Ok u /\ den u t) -> givesC J s c x (Ok (in_case s t)).
Proof.
  intros Hs E H. unfold givesC. destruct s; try discriminate Hs; cbn [formatterForC in_case is_upper]; unfold in_case; cbn [is_upper];
    try apply upper_den; unfold withFloat; rewrite E; cbn [bind]; apply H; reflexivity.
Qed.
Lemma formC_fails J s c x e : float_spec s = true -> t_asFloatForm x = Err e -> givesC J s c x (Err e).
Proof. intros Hs E. unfold givesC. destruct s; try discriminate Hs; cbn [formatterForC]; unfold upperOf, withFloat; rewrite E; reflexivity. Qed.
Lemma exact_gives J s c v b r t : float_spec s = true -> is_double J v b ->
  (forall G, in_range 64 b -> float_convC c s = Some G -> exists u, G (exactForm b) = Ok u /\ den u t) -> givesC J s c (traitsOfC J v r) (Ok (in_case s t)).
Proof.
  intros Hs Hv H. rewrite (smallC J v r (double_small J v b Hv)). destruct (double_of J v b Hv) as [Ev Hb]. apply (formC_gives J s c _ (exactForm b) t Hs).
  - rewrite Ev. reflexivity.
  - intros G EG. apply (H G Hb EG).
Qed.

(** the conversions of a BigDecimal are the repaired ones *)
Lemma big_same J s c v u sc r : is_decimal v u sc -> formatterForC J s c (traitsOfC J v r) = formatterFor' J s c (traitsOf' J v r).
Proof. intros H. destruct H; destruct s; try reflexivity. Qed.
(** only %f, %e, %g and %a look at the double *)
Lemma other_same J s c v r : float_spec s = false -> formatterForC J s c (traitsOfC J v r) = formatterFor' J s c (traitsOf' J v r).
Proof. intros H. destruct v; try (destruct s; try discriminate H; reflexivity). Qed.
Lemma null_same J s c : formatterForC J s c nullTraits = formatterFor' J s c nullTraits.
Proof. destruct s; reflexivity. Qed.
Lemma refused_same J s c v r e : float_spec s = true -> small_value v -> t_asFloatForm (traitsOf J v r) = Err e -> givesC J s c (traitsOfC J v r) (Err e).
Proof.
  intros Hs Hv E. rewrite (small_wraps J v r Hv) in E. rewrite (smallC J v r Hv). apply formC_fails; [exact Hs|]. cbn [withFloatResult t_asFloatForm].
  destruct (doubleOf J v); [discriminate E|exact E].
Qed.

Lemma meantC_gives J s d q g o c : jdk_ok J -> meantC J s d q g o -> rt_ok c -> q_of c = q -> c_dtf c = d -> givesC J s c (traitsGivenC J g) o.
Proof.
  intros HJ H Hc Eq Ed. destruct H as [v b N r Hs Hv Hf HN|v b S X r Hs Hv Hf HN|v b S X r Hs Hv Hf HN HX|v b S X r Hs Hv Hf HN HX|v b r Hs Hv Hf Hq|v b M r Hs Hv Hf Hq HM|v b r Hs Hv Hi|v r Hs Hv|g o Hn H];
    cbn [traitsGivenC]; subst q.
  - apply (exact_gives J s c v b); [unfold float_spec; rewrite Hs; reflexivity|exact Hv|]. intros G _ EG. assert (G = fmt_fC c) as -> by (destruct s; try discriminate Hs; cbn in EG; congruence).
    apply exact_f; assumption.
  - apply (exact_gives J s c v b); [unfold float_spec; rewrite Hs, ?orb_true_r; reflexivity|exact Hv|]. intros G _ EG. assert (G = fmt_eC c) as -> by (destruct s; try discriminate Hs; cbn in EG; congruence).
    apply exact_e; assumption.
  - apply (exact_gives J s c v b); [unfold float_spec; rewrite Hs, ?orb_true_r; reflexivity|exact Hv|]. intros G _ EG. assert (G = fmt_gC c) as -> by (destruct s; try discriminate Hs; cbn in EG; congruence).
    pose proof (exact_g c b S X Hc Hf HN) as E. replace ((-4 <=? X) && (X <? g_prec (q_of c))) with true in E; [exact E|]. symmetry. apply andb_true_intro. split; [apply Z.leb_le|apply Z.ltb_lt]; lia.
  - apply (exact_gives J s c v b); [unfold float_spec; rewrite Hs, ?orb_true_r; reflexivity|exact Hv|]. intros G _ EG. assert (G = fmt_gC c) as -> by (destruct s; try discriminate Hs; cbn in EG; congruence).
    pose proof (exact_g c b S X Hc Hf HN) as E. replace ((-4 <=? X) && (X <? g_prec (q_of c))) with false in E; [exact E|]. symmetry.
    destruct (Z.leb_spec (-4) X); [|reflexivity]. cbn [andb]. apply Z.ltb_ge. lia.
  - apply (exact_gives J s c v b); [unfold float_spec; rewrite Hs, ?orb_true_r; reflexivity|exact Hv|]. intros G B EG. assert (G = fmt_aC c) as -> by (destruct s; try discriminate Hs; cbn in EG; congruence).
    apply exact_a; assumption.
  - apply (exact_gives J s c v b); [unfold float_spec; rewrite Hs, ?orb_true_r; reflexivity|exact Hv|]. intros G B EG. assert (G = fmt_aC c) as -> by (destruct s; try discriminate Hs; cbn in EG; congruence).
    apply exact_a0; assumption.
  - apply (exact_gives J s c v b); [exact Hs|exact Hv|]. intros G B EG. pose proof (exact_special c s G b EG Hc ltac:(lia)) as E. rewrite Hi, Z.eqb_refl in E. exact E.
  - rewrite (smallC J v r (nan_small J v Hv)). destruct (nan_of J v Hv) as (b & Ev & Hb). apply (formC_gives J s c _ (exactForm b)); [exact Hs|rewrite Ev; reflexivity|]. intros G EG.
    pose proof (exact_special c s G b EG Hc ltac:(lia)) as E. replace (magnitude b =? inf_bits) with false in E by (symmetry; apply Z.eqb_neq; lia). exact E.
  - pose proof (meant_gives J s d _ g o c HJ H Hc eq_refl Ed) as G. destruct (float_spec s) eqn:Fs.
    2:{ destruct g as [|v r]; cbn [traitsGiven' traitsGivenC] in *; [apply (givesC_same J s c _ _ o (null_same J s c) G)|apply (givesC_same J s c _ _ o (other_same J s c v r Fs) G)]. }
    destruct g as [|v r]; cbn [traitsGiven' traitsGivenC] in *; [apply (givesC_same J s c _ _ o (null_same J s c) G)|]. destruct (Hn Fs v r eq_refl) as [Nd Nn].
    inversion H; subst; try solve [exfalso; match goal with h : is_double _ _ ?b |- _ => exact (Nd b h) end | exfalso; eauto 3 | discriminate Fs | exfalso; destruct s; discriminate | exfalso; match goal with h : _ = Sx \/ _ |- _ => destruct h; subst s; discriminate end | apply (givesC_same J s c _ _ _ (big_same J s c v _ _ r ltac:(eassumption)) G)].
    + apply refused_same; [assumption|eapply not_float_small; eassumption|apply not_float_fails; assumption].
    + apply refused_same; [assumption|exact I|]. apply (fails_double_is J o0 e r). assumption.
Qed.

(** ** Every argument *)

Lemma hex_even_exists v x : exists M, hex_even v 0 M x.
Proof.
  destruct (PortP.even_exists (v * 16 ^ 0 * 2 ^ (- x))%Q 0) as [M [[A B] C]]. exists M. change (10 ^ 0)%Q with 1%Q in *.
  assert (E : (v * 16 ^ 0 * 2 ^ (- x) * 1 == v * 16 ^ 0 * 2 ^ (- x))%Q) by apply Qmult_1_r. rewrite E in A, B, C. split; [split; assumption|exact C].
Qed.
Lemma c_digits_exist b P : finite b -> 1 <= P -> exists S X, c_digits (dval (magnitude b)) P S X.
Proof.
  intros Hf HP. destruct (PortP3.mag_cases b Hf) as [E|E].
  - exists 0, 0. left. rewrite E. split; [reflexivity|auto].
  - destruct (PortP.sig_even_exists (dval (magnitude b)) P HP (PortP3.dval_positive _ E)) as (S & X & H). exists S, X. right. exact H.
Qed.
Lemma no_double_of J s v r : (t_asFloatForm (traitsOf J v r) = Err (Printf BadConversion) \/ exists e, t_asFloatForm (traitsOf J v r) = Err e) ->
  no_double J s (Given v r).
Proof.
  intros H _ v' r' E. injection E as <- <-. assert (N : forall F, t_asFloatForm (traitsOf J v r) <> Ok F) by (intros F E; destruct H as [H|[e H]]; rewrite H in E; discriminate).
  split; [intros b B; destruct (double_view J v b r B) as [V _]|intros B; destruct (nan_view J v r B) as (b & V & _)]; exact (N _ V).
Qed.
Lemma no_double_big J s v u sc r : is_decimal v u sc -> no_double J s (Given v r).
Proof.
  intros H _ v' r' E. injection E as <- <-. split; [intros b B; apply double_small in B|intros B; apply nan_small in B]; destruct H; contradiction.
Qed.

Lemma meantC_total J g s d q : jdk_ok J -> allowed g -> 0 <= prec_or 6 q -> exists o, meantC J s d q g o.
Proof.
  intros HJ Hx Hp. destruct (float_spec s) eqn:D.
  2:{ destruct (meant_total J g s d q HJ Hx) as [o M]. exists o. apply mc_other; [|exact M]. intros E. congruence. }
  destruct g as [|v r].
  { destruct (meant_total J Null s d q HJ Hx) as [o M]. exists o. apply mc_other; [|exact M]. intros _ v r E. discriminate. }
  pose proof Hx as (Hv & Hpr & Hr). destruct (meant_total J (Given v r) s d q HJ Hx) as [o M].
  assert (G : fixed_conv s = true \/ exp_conv s = true \/ general_conv s = true \/ hex_conv s = true) by (destruct s; try discriminate D; auto).
  destruct (float_or_not J v HJ Hv) as [(b & B)|[N|[(u & sc & I)|[N|(ob & e & -> & N)]]]].
  - destruct (double_view J v b r B) as [_ Rb]. destruct (digits_or_special b Rb) as [[_ F]|[F|F]].
    + destruct G as [G|[G|[G|G]]].
      * destruct (PortP.even_exists (dval (magnitude b)) (prec_or 6 q)) as [N HN]. eexists. eapply mc_fixed; eassumption.
      * destruct (c_digits_exist b (prec_or 6 q + 1) F ltac:(lia)) as (S & X & HN). eexists. eapply mc_exp; eassumption.
      * assert (1 <= g_prec q) by (unfold g_prec; cbv zeta; destruct (Z.eqb_spec (prec_or 6 q) 0); lia).
        destruct (c_digits_exist b (g_prec q) F ltac:(lia)) as (S & X & HN). assert (A : -4 <= X < g_prec q \/ ~ -4 <= X < g_prec q) by lia.
        destruct A as [A|A]; eexists; [eapply mc_general_fixed|eapply mc_general_exp]; eassumption.
      * assert (A : q_prec q = Some 0 \/ q_prec q <> Some 0) by (destruct (q_prec q) as [[| |]|]; [left; reflexivity|right; discriminate|right; discriminate|right; discriminate]).
        destruct A as [A|A]; [|eexists; eapply mc_hex; eassumption].
        destruct (hex_even_exists (dval (magnitude b)) (snd (bin_parts (magnitude b)))) as [M' HM]. eexists. eapply mc_hex_digit; eassumption.
    + eexists. eapply mc_infinite; eassumption.
    + eexists. apply mc_nan; [assumption|]. exact (double_nan J v b B F).
  - eexists. apply mc_nan; assumption.
  - exists o. apply mc_other; [eapply no_double_big; eassumption|exact M].
  - exists o. apply mc_other; [|exact M]. apply no_double_of. left. apply not_float_fails. exact N.
  - exists o. apply mc_other; [|exact M]. apply no_double_of. right. exists e. apply (fails_double_is J ob e r N).
Qed.
