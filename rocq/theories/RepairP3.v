(** Calls of the repaired library follow RepairSpec.v. *)
From Coq Require Import QArith.
From Verif Require Import Base Digits UtilsM SeqM SeqSpec SeqP SeqSubP ContextM CompilerM GrammarSpec CompilerP CompilerP2 PatternP
  IntFormM FormatterM FmtSpec FmtP FmtP2 MathM DecimalM FPDecimalM DoubleM BigDecM RoundM TraitsM ImplM ImplP DecSpec
  FloatSpec DirSpec CastP IntP LoopSpec LoopP NearP FloatP DoubleP HexP FloatArgP PropsFloat BigSpec BigDecP BigGenP PropsBig WidthP BigFixP BigReadP ExactSpec ExactP
  ScaleSpec ScaleP ValueSpec ValueP ValueP2 WholeSpec WholeP RepairM RepairSpec RepairP RepairP2.
Open Scope Z_scope.

(** ** The arguments *)

Lemma int' J v r : t_asIntForm (traitsOf' J v r) = t_asIntForm (traitsOf J v r).
Proof. destruct v; reflexivity. Qed.
Lemma star' J v r : t_asInt (traitsOf' J v r) = t_asInt (traitsOf J v r).
Proof. destruct v; reflexivity. Qed.
Lemma char' J v r : t_asChar (traitsOf' J v r) = t_asChar (traitsOf J v r).
Proof. destruct v; reflexivity. Qed.
Lemma seq' J v r : t_asSeq (traitsOf' J v r) = t_asSeq (traitsOf J v r).
Proof. destruct v; reflexivity. Qed.
Lemma temporal' J v r : t_asTemporal (traitsOf' J v r) = t_asTemporal (traitsOf J v r).
Proof. destruct v; reflexivity. Qed.
Lemma ref' J v r : t_ref (traitsOf' J v r) = r.
Proof. rewrite <- (traits_ref J v r) at 2. destruct v; reflexivity. Qed.

Definition small_value (v : value) : Prop := match v with VBig _ | VDec _ => False | _ => True end.
Lemma small' J v r : small_value v -> traitsOf' J v r = traitsOf J v r.
Proof. destruct v; try contradiction; reflexivity. Qed.
Lemma big' J v u sc r : is_decimal v u sc -> java_decimal u sc /\ t_asFloatForm (traitsOf' J v r) = Ok (bigDecForm' (mkBD u sc)).
Proof. intros H. destruct H; split; try assumption; reflexivity. Qed.
Lemma chars_small J v s : DirSpec.chars J v s -> small_value v.
Proof. intros H. destruct H; exact I. Qed.
Lemma double_small J v b : is_double J v b -> small_value v.
Proof. intros H. destruct H; try exact I. eapply chars_small; eassumption. Qed.
Lemma nan_small J v : is_nan J v -> small_value v.
Proof. intros H. destruct H; try exact I. eapply chars_small; eassumption. Qed.
Lemma not_float_small J v : not_float J v -> small_value v.
Proof. intros H. destruct H; try exact I. eapply chars_small; eassumption. Qed.

(** ** One conversion *)

Definition gives' (J : jdk) (s : spec) (c : ctx) (x : traits) (o : res (list Z)) : Prop :=
  match o with Ok t => exists u, formatterFor' J s c x = Ok u /\ den u t | Err e => formatterFor' J s c x = Err e end.

Lemma upper_den r t : (exists u, r = Ok u /\ den u t) -> exists u, upperOf r = Ok u /\ den u (map ascii_upper t).
Proof. intros (u & -> & W). unfold upperOf. cbn [bind]. exact (s_upper_den u t W). Qed.

Definition float_conv' (c : ctx) (s : spec) : option (floatform -> res seq) :=
  match s with
  | Sf | SF => Some (fmt_f' c)
  | Se | SE => Some (fmt_e' c)
  | Sg | SG => Some (fmt_g' c)
  | Sa | SA => Some (fmt_a' c)
  | _ => None
  end.

Lemma form_gives' J s c x F t : float_spec s = true -> t_asFloatForm x = Ok F ->
  (forall G, float_conv' c s = Some G -> exists u, G F = Ok u /\ den u t) -> gives' J s c x (Ok (in_case s t)).
Proof.
  intros Hs E H. unfold gives'. destruct s; try discriminate Hs; cbn [formatterFor' in_case is_upper]; unfold in_case; cbn [is_upper];
    try apply upper_den; unfold withFloat; rewrite E; cbn [bind]; apply H; reflexivity.
Qed.
Lemma form_fails' J s c x e : float_spec s = true -> t_asFloatForm x = Err e -> gives' J s c x (Err e).
Proof. intros Hs E. unfold gives'. destruct s; try discriminate Hs; cbn [formatterFor']; unfold upperOf, withFloat; rewrite E; reflexivity. Qed.
Lemma form_refuses' J s c x F e : float_spec s = true -> t_asFloatForm x = Ok F ->
  (forall G, float_conv' c s = Some G -> G F = Err e) -> gives' J s c x (Err e).
Proof.
  intros Hs E H. unfold gives'. destruct s; try discriminate Hs; cbn [formatterFor']; unfold upperOf, withFloat; rewrite E; cbn [bind]; rewrite (H _ eq_refl); reflexivity.
Qed.
Lemma double_gives' J s c v b r t : float_spec s = true -> is_double J v b ->
  (forall G, in_range 64 b -> float_conv' c s = Some G -> exists u, G (doubleForm b) = Ok u /\ den u t) -> gives' J s c (traitsOf' J v r) (Ok (in_case s t)).
Proof.
  intros Hs Hv H. rewrite (small' J v r (double_small J v b Hv)). destruct (double_view J v b r Hv) as [Ev Hb]. apply (form_gives' J s c _ _ t Hs Ev).
  intros G EG. apply (H G Hb EG).
Qed.
Lemma special_conv' c s F b : float_conv' c s = Some F -> inf_bits <= magnitude b -> F (doubleForm b) = nanOrInfinity' c (doubleForm b).
Proof.
  intros H Hb. destruct (double_class b) as [E1 E2].
  assert (E : f_isNaN (doubleForm b) || f_isInf (doubleForm b) = true).
  { cbn [doubleForm f_isNaN f_isInf]. rewrite E1, E2. destruct (Z.ltb_spec inf_bits (magnitude b)); [reflexivity|]. apply Z.eqb_eq. lia. }
  destruct s; try discriminate; injection H as <-; unfold fmt_f', fmt_e', fmt_g', fmt_a'; rewrite E; reflexivity.
Qed.
Lemma fmt_a'_double c b : rt_ok c -> in_range 64 b -> finite b -> exists u, fmt_a' c (doubleForm b) = Ok u /\ den u (j_a (q_of c) (b <? 0) (magnitude b)).
Proof.
  intros Hc Hb Hf. destruct (double_class b) as [T1 T2]. unfold finite in Hf.
  replace (inf_bits <? magnitude b) with false in T1 by (symmetry; apply Z.ltb_ge; lia). replace (magnitude b =? inf_bits) with false in T2 by (symmetry; apply Z.eqb_neq; lia).
  unfold fmt_a'. cbn [doubleForm f_isNaN f_isInf]. rewrite T1, T2. cbn [orb]. apply fmt_a_double; assumption.
Qed.
Lemma negative_form' c z g p : z < 0 -> g = i_udec \/ g = i_hex \/ g = i_oct -> formatUnsignedInteger' c (bigForm z) g p = Err (Printf NegativeUnsigned).
Proof.
  intros Hz Hg. rewrite unsigned'_same; [apply negative_form; assumption|]. cbn [bigForm i_signum]. rewrite sgn_zero. apply Z.eqb_neq. lia.
Qed.

Lemma text_gives' J s c x o t : text_conv s = true -> t_asSeq x = Ok o -> rt_ok c -> den o t -> gives' J s c x (Ok (in_case s (c_s (q_of c) t))).
Proof.
  intros Hs E Hc D. unfold gives'. destruct s; try discriminate Hs; cbn [formatterFor']; unfold in_case; cbn [is_upper]; try apply upper_den; rewrite E; apply fmt_s'_den; assumption.
Qed.

Lemma big_fixed_len c v u sc : rt_ok c -> printable v -> is_decimal v u sc -> zlen (c_f (q_of c) (u <? 0) (Z.abs u) (- sc)) < int_max.
Proof.
  intros Hr Hp Hd. pose proof (decimal_bounds v u sc Hp Hd) as B. assert (Hj : java_decimal u sc) by (destruct Hd; assumption).
  pose proof (ndigits_fits u (proj1 Hj)) as N9. destruct (rt_bounds c Hr) as [W P]. unfold c_f. rewrite zlen_finite_text. pose proof (zlen_sign_text (q_of c) (u <? 0)).
  pose proof (with_alt_short (q_alt (q_of c)) (Z.abs u) (- (- sc + prec_or 6 (q_of c))) (prec_or 6 (q_of c)) ltac:(lia) ltac:(lia)) as L.
  change (zlen (f_body (q_of c) (Z.abs u) (- sc))) with (zlen (with_alt (q_alt (q_of c)) (hup (Z.abs u) (- (- sc + prec_or 6 (q_of c)))) (prec_or 6 (q_of c)))). rewrite int_max_val. lia.
Qed.

Lemma meant_gives J s d q g o c : jdk_ok J -> meant J s d q g o -> rt_ok c -> q_of c = q -> c_dtf c = d -> gives' J s c (traitsGiven' J g) o.
Proof.
  intros HJ H Hc <- <-. destruct H; cbn [traitsGiven'].
  - subst s. unfold gives'. cbn [formatterFor']. unfold withInt. rewrite int'. destruct (int_view_of J v z r H0) as (f & Ef & Hf & Hj). rewrite Ef. cbn [bind]. apply fmt_d'_den; assumption.
  - subst s. unfold gives'. cbn [formatterFor']. unfold withInt. rewrite int'. destruct (uint_view_of J v n r Su i_udec 10 H0 eq_refl) as (f & Ef & Hf & Hj). rewrite Ef. cbn [bind]. apply fmt_u_den; assumption.
  - destruct (uint_view_of J v n r Sx i_hex 16 H0 eq_refl) as (f & Ef & Hf & Hj).
    destruct H as [-> | ->]; unfold gives', in_case; cbn [formatterFor' is_upper]; try apply upper_den; unfold withInt; rewrite int', Ef; cbn [bind]; apply fmt_x'_den; assumption.
  - subst s. unfold gives'. cbn [formatterFor']. unfold withInt. rewrite int'. destruct (uint_view_of J v n r So i_oct 8 H0 eq_refl) as (f & Ef & Hf & Hj). rewrite Ef. cbn [bind]. apply fmt_o'_den; assumption.
  - destruct (integral_form J v None z r H0) as [T _]. cbn [form_of] in T.
    unfold gives'. destruct s; try discriminate H; cbn [formatterFor']; unfold upperOf, withInt; rewrite int', T; cbn [bind];
      unfold fmt_u, fmt_x', fmt_o'; rewrite ?negative_form, ?negative_form' by auto; reflexivity.
  - unfold gives'. assert (E : t_asIntForm (traitsOf' J v r) = Err e) by (rewrite int'; apply not_integer_form; assumption).
    destruct s; try discriminate H; cbn [formatterFor']; unfold upperOf, withInt; rewrite E; reflexivity.
  - subst s. unfold gives'. cbn [formatterFor']. rewrite char', (char_of J v c0 r) by assumption. cbn [bind]. apply fmt_c_den. assumption.
  - subst s. unfold gives'. cbn [formatterFor']. rewrite char', (not_char_fails J v r) by assumption. reflexivity.
  - subst s. unfold gives'. cbn [formatterFor']. rewrite char', (proj2 (fails_int_is J o e r H0)). reflexivity.
  - destruct (text_seq J v t r H1 H2) as (a & E & D). apply (text_gives' J s c _ (Leaf a) t); try assumption; [rewrite seq'; exact E|constructor; exact D].
  - apply (text_gives' J s c _ u t); try assumption. reflexivity.
  - assert (E : t_asSeq (traitsOf' J (VObj o) r) = Err e) by (rewrite seq'; apply obj_fails; assumption).
    unfold gives'. destruct s; try discriminate H; cbn [formatterFor']; unfold upperOf; rewrite E; reflexivity.
  - apply digits_printed in H1. apply (double_gives' J s c v b); [unfold float_spec; rewrite H; reflexivity|assumption|]. intros G _ EG.
    destruct s; try discriminate H; cbn in EG; injection EG as <-; apply fmt_f'_double; assumption.
  - apply digits_printed in H1. apply (double_gives' J s c v b); [unfold float_spec; rewrite H, orb_true_r; reflexivity|assumption|]. intros G _ EG.
    destruct s; try discriminate H; cbn in EG; injection EG as <-; apply fmt_e'_double; assumption.
  - apply digits_printed in H1. apply (double_gives' J s c v b); [unfold float_spec; rewrite H, orb_true_r; reflexivity|assumption|]. intros G _ EG.
    destruct s; try discriminate H; cbn in EG; injection EG as <-; apply fmt_g'_double; assumption.
  - apply (double_gives' J s c v b); [unfold float_spec; rewrite H, orb_true_r; reflexivity|assumption|]. intros G B EG.
    destruct s; try discriminate H; cbn in EG; injection EG as <-; apply fmt_a'_double; assumption.
  - apply (double_gives' J s c v b); [assumption|assumption|]. intros G B EG. rewrite (special_conv' c s G b EG) by lia.
    destruct (special'_den c b Hc ltac:(lia)) as (u & Eu & Du). exists u. split; [exact Eu|]. rewrite H1, Z.eqb_refl in Du. exact Du.
  - rewrite (small' J v r (nan_small J v H0)). destruct (nan_view J v r H0) as (b & Ev & Hb). apply (form_gives' J s c _ _ _ H Ev). intros G EG. rewrite (special_conv' c s G b EG) by lia.
    destruct (special'_den c b Hc ltac:(lia)) as (u & Eu & Du). exists u. split; [exact Eu|].
    replace (magnitude b =? inf_bits) with false in Du by (symmetry; apply Z.eqb_neq; lia). exact Du.
  - destruct (big' J v u sc r H1) as [Hj Ev]. apply (form_gives' J s c _ _ _) with (2 := Ev); [unfold float_spec; rewrite H, ?orb_true_r; reflexivity|].
    intros G EG. assert (G = fmt_f' c) as -> by (destruct s; try discriminate H; cbn in EG; congruence). apply fmt_f'_big; try assumption. apply (big_fixed_len c v u sc); assumption.
  - destruct (big' J v u sc r H0) as [Hj Ev]. apply (form_gives' J s c _ _ _) with (2 := Ev); [unfold float_spec; rewrite H, ?orb_true_r; reflexivity|].
    intros G EG. assert (G = fmt_e' c) as -> by (destruct s; try discriminate H; cbn in EG; congruence). apply fmt_e'_big; assumption.
  - destruct (big' J v u sc r H0) as [Hj Ev]. apply (form_refuses' J s c _ _ _) with (2 := Ev); [unfold float_spec; rewrite H, ?orb_true_r; reflexivity|].
    intros G EG. assert (G = fmt_e' c) as -> by (destruct s; try discriminate H; cbn in EG; congruence). apply fmt_e'_big; assumption.
  - destruct (big' J v u sc r H0) as [Hj Ev]. apply (form_gives' J s c _ _ _) with (2 := Ev); [unfold float_spec; rewrite H, ?orb_true_r; reflexivity|].
    intros G EG. assert (G = fmt_g' c) as -> by (destruct s; try discriminate H; cbn in EG; congruence). apply fmt_g'_big; assumption.
  - destruct (big' J v u sc r H0) as [Hj Ev]. apply (form_refuses' J s c _ _ _) with (2 := Ev); [unfold float_spec; rewrite H, ?orb_true_r; reflexivity|].
    intros G EG. assert (G = fmt_g' c) as -> by (destruct s; try discriminate H; cbn in EG; congruence). apply fmt_g'_big; assumption.
  - destruct (big' J v u sc r H0) as [Hj Ev]. unfold gives'. destruct s; try discriminate H; cbn [formatterFor']; unfold upperOf, withFloat; rewrite Ev; reflexivity.
  - rewrite (small' J v r (not_float_small J v H0)). apply form_fails'; [assumption|apply not_float_fails; assumption].
  - apply form_fails'; [assumption|]. apply (fails_double_is J o e r H0).
  - assert (X : exists u, fmt_t J c (traitsOf' J v r) = Ok u /\ den u (justify (q_of c) d)).
    { rewrite (dated_is J c _ t (Ok d)) by (try (rewrite temporal'; apply temporal_is); assumption). cbn [bind]. apply spaceJustify_den; [assumption|apply wrapS_den]. eapply dated_text; eassumption. }
    destruct s; try discriminate H; unfold gives', in_case; cbn [formatterFor' is_upper]; [exact X|apply upper_den, X].
  - assert (X : fmt_t J c (traitsOf' J v r) = Err e) by (rewrite (dated_is J c _ t (Err e)) by (try (rewrite temporal'; apply temporal_is); assumption); reflexivity).
    unfold gives'. destruct s; try discriminate H; cbn [formatterFor']; unfold upperOf; rewrite X; reflexivity.
  - assert (X : fmt_t J c (traitsOf' J v r) = Err e) by (unfold fmt_t; rewrite temporal', (not_temporal_fails J v e r) by assumption; reflexivity).
    unfold gives'. destruct s; try discriminate H; cbn [formatterFor']; unfold upperOf; rewrite X; reflexivity.
  - subst s. unfold gives'. cbn [formatterFor']. rewrite ref'. apply fmt_p_den; [assumption|match goal with X : ref_ok _ |- _ => exact (proj2 X) end].
  - subst s. unfold gives'. cbn [formatterFor']. rewrite ref'. cbn [fmt_p]. apply spaceJustify_den; [assumption|apply wrapS_den; vm_compute; discriminate].
  - subst s. unfold gives'. cbn [formatterFor']. rewrite ref'. reflexivity.
  - apply (text_gives' J s c _ (wrapS (txt "null"))); try assumption; [reflexivity|]. apply wrapS_den. vm_compute. discriminate.
  - subst s. unfold gives'. cbn [formatterFor' nullTraits t_ref fmt_p]. apply spaceJustify_den; [assumption|apply wrapS_den; vm_compute; discriminate].
  - unfold gives'. destruct H as [H|H]; [|subst s; reflexivity]. destruct s; try discriminate H; reflexivity.
  - subst s. exists emptyS. split; [reflexivity|apply emptyS_den].
  - subst s. exists (chS (ch "%")). split; [reflexivity|apply chS_den].
Qed.

(** the arguments a caller can pass *)
Definition allowed (g : given) : Prop := match g with Null => True | Given v r => java_value v /\ printable v /\ ref_ok r end.

Lemma scale_fits_or u sc P : scale_fits u sc P \/ ~ scale_fits u sc P.
Proof. unfold scale_fits. lia. Qed.

Lemma meant_total J g s d q : jdk_ok J -> allowed g -> exists o, meant J s d q g o.
Proof.
  intros HJ Hx. destruct g as [|v r].
  - assert (D : integer_conv s || float_spec s || date_conv s = true \/ text_conv s = true \/ s = Sc \/ s = Sp \/ s = Sn \/ s = Spct) by (destruct s; auto 8).
    destruct D as [D|[D|[D|[D|[D|D]]]]]; eexists.
    + apply mn_null. auto.
    + apply mn_null_text, D.
    + apply mn_null. auto.
    + apply mn_null_pointer, D.
    + apply mn_nothing, D.
    + apply mn_percent, D.
  - destruct Hx as (Hv & Hp & Hr).
    assert (D : integer_conv s = true \/ float_spec s = true \/ date_conv s = true \/ text_conv s = true \/ s = Sc \/ s = Sp \/ s = Sn \/ s = Spct) by (destruct s; auto 10).
    destruct D as [D|[D|[D|[D|[D|[D|[D|D]]]]]]].
    + destruct (integer_or_not J v Hv) as [(w & z & I)|(e & N)]; [|eexists; eapply mn_not_integer; eassumption].
      destruct (spec_eq s Sd) as [->|Ns]; [eexists; apply mn_signed with (z := z); [reflexivity|]; exists w; exact I|].
      destruct s; try discriminate D; try contradiction;
        (destruct (unsigned_or_negative J v w z I) as [(n & U)|[-> L]]; [|eexists; eapply mn_negative; [reflexivity|exact I|exact L]]).
      all: eexists; first [apply mn_unsigned with (n := n); [reflexivity|exact U] | apply mn_hex with (n := n); [auto; fail|exact U] | apply mn_octal with (n := n); [reflexivity|exact U]].
    + assert (G : fixed_conv s = true \/ exp_conv s = true \/ general_conv s = true \/ hex_conv s = true) by (destruct s; try discriminate D; auto).
      destruct (float_or_not J v HJ Hv) as [(b & B)|[N|[(u & sc & I)|[N|(o & e & -> & N)]]]].
      * destruct (double_view J v b r B) as [_ Rb]. destruct (digits_or_special b Rb) as [[(f & e & X) F]|[F|F]].
        -- destruct G as [G|[G|[G|G]]]; eexists; [eapply mn_fixed|eapply mn_exp|eapply mn_general|eapply mn_hexfloat]; eassumption.
        -- eexists. eapply mn_infinite; eassumption.
        -- eexists. apply mn_nan; [assumption|]. exact (double_nan J v b B F).
      * eexists. apply mn_nan; assumption.
      * destruct G as [G|[G|[G|G]]]; [| | |eexists; eapply mn_big_hex; eassumption].
        -- eexists. eapply mn_big_fixed; eassumption.
        -- destruct (scale_fits_or u sc (prec_or 6 q + 1)); eexists; [eapply mn_big_exp|eapply mn_big_exp_huge]; eassumption.
        -- destruct (scale_fits_or u sc (g_prec q)); eexists; [eapply mn_big_general|eapply mn_big_general_huge]; eassumption.
      * eexists. apply mn_not_float; assumption.
      * eexists. eapply mn_float_fails; eassumption.
    + destruct (temporal_or_not J v Hv) as [(t & T)|(e & N)]; [|eexists; eapply mn_not_date; eassumption].
      destruct (dated_total J d t) as [[t'|e] Hd]; eexists; [eapply mn_date|eapply mn_date_fails]; eassumption.
    + assert (X : (exists u, v = VSeq u) \/ forall u, v <> VSeq u) by (destruct v; try (right; discriminate); left; eauto).
      destruct X as [[u ->]|X].
      * destruct Hv as [t Hv]. eexists. eapply mn_seq; eassumption.
      * destruct (text_of J v HJ Hv X) as [(t & T & M)|(o & e & -> & E & _)]; eexists; [eapply mn_text|eapply mn_no_text]; eassumption.
    + destruct (char_or_not J v Hv) as [(c & C)|[N|(o & e & -> & N)]]; eexists; [eapply mn_char|eapply mn_not_char|eapply mn_char_fails]; eassumption.
    + destruct r as [| |name hash]; eexists; [apply mn_primitive|apply mn_no_pointer|apply mn_pointer]; assumption.
    + eexists. apply mn_nothing, D.
    + eexists. apply mn_percent, D.
Qed.
