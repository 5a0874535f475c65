From Coq Require Import QArith.
From Verif Require Import Base Digits UtilsM SeqM SeqSpec SeqP SeqSubP ContextM CompilerM GrammarSpec CompilerP CompilerP2 PatternP
  IntFormM FormatterM FmtSpec FmtP FmtP2 MathM DecimalM FPDecimalM DoubleM BigDecM RoundM TraitsM ImplM ImplP DecSpec
  FloatSpec DirSpec CastP IntP LoopSpec LoopP NearP FloatP DoubleP HexP FloatArgP PropsFloat BigSpec BigDecP BigGenP PropsBig WidthP BigFixP BigReadP ExactSpec ExactP
  ScaleSpec ScaleP ValueSpec ValueP ValueP2 WholeSpec.
Open Scope Z_scope.

(** ** One conversion *)

(** the conversion of [x] in context [c] ends as [o] says *)
Definition gives (J : jdk) (s : spec) (c : ctx) (x : traits) (o : res (list Z)) : Prop :=
  match o with Ok t => exists u, formatterFor J s c x = Ok u /\ wden u t | Err e => formatterFor J s c x = Err e end.

Lemma upper_gives r t : (exists u, r = Ok u /\ wden u t) -> exists u, upperOf r = Ok u /\ wden u (map ascii_upper t).
Proof. intros (u & -> & W). unfold upperOf. cbn [bind]. destruct (s_upper_wden u t W) as (w & E & Ww & _). eauto. Qed.

Lemma den_gives r t : (exists u, r = Ok u /\ den u t) -> exists u, r = Ok u /\ wden u t.
Proof. intros (u & E & D). exists u. split; [exact E|apply den_wden, D]. Qed.

Lemma float_specs s : float_spec s = true -> is_float_spec s.
Proof. unfold is_float_spec. destruct s; intros H; try discriminate H; tauto. Qed.

Lemma form_gives J s c x F t : float_spec s = true -> t_asFloatForm x = Ok F ->
  (forall G, float_conv c s = Some G -> exists u, G F = Ok u /\ wden u t) -> gives J s c x (Ok (in_case s t)).
Proof.
  intros Hs E H. unfold gives. destruct s; try discriminate Hs; cbn [formatterFor in_case is_upper]; unfold in_case; cbn [is_upper];
    try apply upper_gives; unfold withFloat; rewrite E; cbn [bind]; apply H; reflexivity.
Qed.

Lemma form_fails J s c x e : float_spec s = true -> t_asFloatForm x = Err e -> gives J s c x (Err e).
Proof. intros Hs E. unfold gives. destruct s; try discriminate Hs; cbn [formatterFor]; unfold upperOf, withFloat; rewrite E; reflexivity. Qed.

Lemma double_gives J s c v b r t : float_spec s = true -> is_double J v b ->
  (forall G, in_range 64 b -> float_conv c s = Some G -> exists u, G (doubleForm b) = Ok u /\ den u t) -> gives J s c (traitsOf J v r) (Ok (in_case s t)).
Proof.
  intros Hs Hv H. destruct (double_view J v b r Hv) as [Ev Hb]. apply (form_gives J s c _ _ t Hs Ev). intros G EG. apply den_gives, (H G Hb EG).
Qed.

Lemma int_gives J s c v e r : integer_conv s = true -> t_asIntForm (traitsOf J v r) = Err e -> gives J s c (traitsOf J v r) (Err e).
Proof. intros Hs E. unfold gives. destruct s; try discriminate Hs; cbn [formatterFor]; unfold upperOf, withInt; rewrite E; reflexivity. Qed.

Lemma date_gives J s c x o : date_conv s = true -> match o with Ok t => exists u, fmt_t J c x = Ok u /\ wden u t | Err e => fmt_t J c x = Err e end ->
  gives J s c x (match o with Ok t => Ok (in_case s t) | Err e => Err e end).
Proof.
  intros Hs H. unfold gives. destruct s; try discriminate Hs; destruct o as [t|e]; cbn [formatterFor]; unfold in_case; cbn [is_upper].
  - exact H.
  - exact H.
  - apply upper_gives, H.
  - unfold upperOf. rewrite H. reflexivity.
Qed.

Lemma text_gives J s c x o t : text_conv s = true -> t_asSeq x = Ok o -> (exists u, fmt_s c o = Ok u /\ wden u t) -> gives J s c x (Ok (in_case s t)).
Proof.
  intros Hs E H. unfold gives. destruct s; try discriminate Hs; cbn [formatterFor]; unfold in_case; cbn [is_upper]; try apply upper_gives; rewrite E; exact H.
Qed.

Lemma form_refuses J s c x F e : float_spec s = true -> t_asFloatForm x = Ok F ->
  (forall G, float_conv c s = Some G -> G F = Err e) -> gives J s c x (Err e).
Proof.
  intros Hs E H. unfold gives. destruct s; try discriminate Hs; cbn [formatterFor]; unfold upperOf, withFloat; rewrite E; cbn [bind]; rewrite (H _ eq_refl); reflexivity.
Qed.

Lemma obj_fails J o r e : object_text o = Err e -> t_asSeq (traitsOf J (VObj o) r) = Err e.
Proof.
  intros E. cbn [traitsOf]. assert (t_asSeq (objTraits o r) = seqOfString (objText o)) as -> by (destruct o; reflexivity). rewrite <- object_text_is, E. reflexivity.
Qed.

Lemma shown_gives J s d q x o c : jdk_ok J -> shown J s d q x o -> rt_ok c -> q_of c = q -> c_dtf c = d -> gives J s c x o.
Proof.
  intros HJ H Hc <- <-. assert (Re : forall T, renders J s x T -> gives J s c x (Ok (T (q_of c)))) by (intros T R; apply den_gives, renders_den; assumption).
  destruct H.
  - subst s. apply (Re (fun q => j_d q z)). constructor. assumption.
  - subst s. apply (Re (fun q => c_u q n)). constructor. assumption.
  - destruct H as [-> | ->]; [apply (Re (fun q => j_x q n))|apply (Re (fun q => upper (j_x q n)))]; constructor; assumption.
  - subst s. apply (Re (fun q => j_o q n)). constructor. assumption.
  - destruct (integral_form J v None z r H0) as [T _]. cbn [form_of] in T.
    unfold gives. destruct s; try discriminate H; cbn [formatterFor]; unfold upperOf, withInt; rewrite T; cbn [bind];
      unfold fmt_u, fmt_x, fmt_o; rewrite negative_form by auto; reflexivity.
  - apply int_gives; [assumption|apply not_integer_form; assumption].
  - subst s. apply (Re (fun q => c_c q c0)). constructor. assumption.
  - subst s. unfold gives. cbn [formatterFor]. rewrite (not_char_fails J v r) by assumption. reflexivity.
  - subst s. unfold gives. cbn [formatterFor]. rewrite (proj2 (fails_int_is J o e r H0)). reflexivity.
  - destruct s; try discriminate H; [apply (Re (fun q => c_s q t))|apply (Re (fun q => upper (c_s q t)))]; constructor; assumption.
  - apply (text_gives J s c _ u); [assumption|reflexivity|]. apply fmt_s_wden; assumption.
  - unfold gives. destruct s; try discriminate H; cbn [formatterFor]; unfold upperOf; rewrite obj_fails with (e := e) by assumption; reflexivity.
  - apply digits_printed in H1. apply (double_gives J s c v b); [unfold float_spec; rewrite H; reflexivity|assumption|]. intros G _ EG.
    destruct s; try discriminate H; cbn in EG; injection EG as <-; apply fmt_f_double; assumption.
  - apply digits_printed in H1. apply (double_gives J s c v b); [unfold float_spec; rewrite H, orb_true_r; reflexivity|assumption|]. intros G _ EG.
    destruct s; try discriminate H; cbn in EG; injection EG as <-; apply fmt_e_double; assumption.
  - apply digits_printed in H1. apply (double_gives J s c v b); [unfold float_spec; rewrite H, orb_true_r; reflexivity|assumption|]. intros G _ EG.
    destruct s; try discriminate H; cbn in EG; injection EG as <-; apply fmt_g_double; assumption.
  - apply (double_gives J s c v b); [unfold float_spec; rewrite H, orb_true_r; reflexivity|assumption|]. intros G B EG.
    destruct s; try discriminate H; cbn in EG; injection EG as <-; apply fmt_a_double; assumption.
  - apply (double_gives J s c v b); [assumption|assumption|]. intros G B EG. rewrite (special_conv c s G b EG) by lia.
    destruct (special_den c b Hc ltac:(lia)) as (u & Eu & Du). exists u. split; [exact Eu|]. rewrite H1, Z.eqb_refl in Du. exact Du.
  - destruct (nan_view J v r H0) as (b & Ev & Hb). apply (form_gives J s c _ _ _ H Ev). intros G EG. rewrite (special_conv c s G b EG) by lia.
    apply den_gives. destruct (special_den c b Hc ltac:(lia)) as (u & Eu & Du). exists u. split; [exact Eu|].
    replace (magnitude b =? inf_bits) with false in Du by (symmetry; apply Z.eqb_neq; lia). exact Du.
  - destruct (decimal_view J v u sc r H1) as [Hj Ev]. apply (form_gives J s c _ _ _) with (2 := Ev); [unfold float_spec; rewrite H, ?orb_true_r; reflexivity|].
    intros G EG. assert (G = fmt_f c) as -> by (destruct s; try discriminate H; cbn in EG; congruence). apply den_gives, fixed_gives; try assumption. apply (decimal_bounds v u sc); assumption.
  - destruct (decimal_view J v u sc r H0) as [Hj Ev]. apply (form_refuses J s c _ _ _) with (2 := Ev); [unfold float_spec; rewrite H, ?orb_true_r; reflexivity|].
    intros G EG. assert (G = fmt_f c) as -> by (destruct s; try discriminate H; cbn in EG; congruence). apply fmt_f_tiny; assumption.
  - destruct (decimal_view J v u sc r H0) as [Hj Ev]. apply (form_gives J s c _ _ _) with (2 := Ev); [unfold float_spec; rewrite H, ?orb_true_r; reflexivity|].
    intros G EG. assert (G = fmt_e c) as -> by (destruct s; try discriminate H; cbn in EG; congruence). apply den_gives, fmt_e_big_exact; assumption.
  - destruct (decimal_view J v u sc r H0) as [Hj Ev]. apply (form_refuses J s c _ _ _) with (2 := Ev); [unfold float_spec; rewrite H, ?orb_true_r; reflexivity|].
    intros G EG. assert (G = fmt_e c) as -> by (destruct s; try discriminate H; cbn in EG; congruence). apply fmt_e_big_fails; assumption.
  - destruct (decimal_view J v u sc r H0) as [Hj Ev]. apply (form_gives J s c _ _ _) with (2 := Ev); [unfold float_spec; rewrite H, ?orb_true_r; reflexivity|].
    intros G EG. assert (G = fmt_g c) as -> by (destruct s; try discriminate H; cbn in EG; congruence). apply fmt_g_big_exact; assumption.
  - destruct (decimal_view J v u sc r H0) as [Hj Ev]. apply (form_refuses J s c _ _ _) with (2 := Ev); [unfold float_spec; rewrite H, ?orb_true_r; reflexivity|].
    intros G EG. assert (G = fmt_g c) as -> by (destruct s; try discriminate H; cbn in EG; congruence). apply fmt_g_big_fails; assumption.
  - destruct (decimal_view J v u sc r H0) as [Hj Ev]. unfold gives. destruct s; try discriminate H; cbn [formatterFor]; unfold upperOf, withFloat; rewrite Ev; reflexivity.
  - apply form_fails; [assumption|apply not_float_fails; assumption].
  - apply form_fails; [assumption|apply fails_double_is; assumption].
  - apply (date_gives J s c _ (Ok _)); [assumption|]. rewrite (dated_is J c _ t (Ok d)) by (try apply temporal_is; assumption). cbn [bind].
    apply den_gives, spaceJustify_den; [assumption|apply wrapS_den]. eapply dated_text; eassumption.
  - apply (date_gives J s c _ (Err _)); [assumption|]. rewrite (dated_is J c _ t (Err e)) by (try apply temporal_is; assumption). reflexivity.
  - apply (date_gives J s c _ (Err _)); [assumption|]. unfold fmt_t. rewrite (not_temporal_fails J v e r) by assumption. reflexivity.
  - subst s. unfold gives. cbn [formatterFor]. rewrite traits_ref. apply den_gives, fmt_p_den; [assumption|match goal with X : ref_ok _ |- _ => exact (proj2 X) end].
  - subst s. unfold gives. cbn [formatterFor]. rewrite traits_ref. cbn [fmt_p]. apply den_gives, spaceJustify_den; [assumption|apply wrapS_den; vm_compute; discriminate].
  - subst s. unfold gives. cbn [formatterFor]. rewrite traits_ref. reflexivity.
  - destruct s; try discriminate H; [apply (Re (fun q => c_s q (txt "null")))|apply (Re (fun q => upper (c_s q (txt "null"))))]; constructor; assumption.
  - subst s. unfold gives. cbn [formatterFor nullTraits t_ref fmt_p]. apply den_gives, spaceJustify_den; [assumption|apply wrapS_den; vm_compute; discriminate].
  - unfold gives. destruct H as [H|H]; [|subst s; reflexivity]. destruct s; try discriminate H; reflexivity.
  - subst s. exists emptyS. split; [reflexivity|apply den_wden, emptyS_den].
  - subst s. exists (chS (ch "%")). split; [reflexivity|apply den_wden, chS_den].
Qed.

Lemma spec_eq (a b : spec) : a = b \/ a <> b.
Proof. destruct a, b; try (left; reflexivity); right; discriminate. Qed.

Lemma digits_or_special b : in_range 64 b -> (exists f e, its_digits b f e) /\ finite b \/ magnitude b = inf_bits \/ inf_bits < magnitude b.
Proof.
  intros Hb. destruct (Z_lt_ge_dec (magnitude b) inf_bits) as [L|L]; [left|lia].
  assert (F : finite b) by exact L. split; [|exact F]. apply digits_exist; assumption.
Qed.

Lemma double_nan J v b : is_double J v b -> inf_bits < magnitude b -> is_nan J v.
Proof.
  assert (N : forall x c P, nearest_double x c -> inf_bits < magnitude c -> P : Prop) by (intros x c P (_ & H & _) L; lia).
  intros H L. destruct H; try solve [eapply N; eassumption].
  - apply in_double with (b := b); assumption.
  - destruct H as (_ & _ & F & _). unfold finite in F. lia.
  - exfalso. revert L. destruct (f <? 0); vm_compute; discriminate.
  - eapply in_chars; eassumption.
  - apply in_number; assumption.
Qed.

Lemma shown_total J x s d q : jdk_ok J -> argument J x -> exists o, shown J s d q x o.
Proof.
  intros HJ Hx. destruct Hx as [|v r Hv Hp Hr].
  - assert (D : integer_conv s || float_spec s || date_conv s = true \/ text_conv s = true \/ s = Sc \/ s = Sp \/ s = Sn \/ s = Spct) by (destruct s; auto 8).
    destruct D as [D|[D|[D|[D|[D|D]]]]]; eexists.
    + apply sh_null. auto.
    + apply sh_null_text, D.
    + apply sh_null. auto.
    + apply sh_null_pointer, D.
    + apply sh_nothing, D.
    + apply sh_percent, D.
  - assert (D : integer_conv s = true \/ float_spec s = true \/ date_conv s = true \/ text_conv s = true \/ s = Sc \/ s = Sp \/ s = Sn \/ s = Spct) by (destruct s; auto 10).
    destruct D as [D|[D|[D|[D|[D|[D|[D|D]]]]]]].
    + destruct (integer_or_not J v Hv) as [(w & z & I)|(e & N)]; [|eexists; eapply sh_not_integer; eassumption].
      destruct (spec_eq s Sd) as [->|Ns]; [eexists; apply sh_signed with (z := z); [reflexivity|]; exists w; exact I|].
      destruct s; try discriminate D; try contradiction;
        (destruct (unsigned_or_negative J v w z I) as [(n & U)|[-> L]]; [|eexists; eapply sh_negative; [reflexivity|exact I|exact L]]).
      all: eexists; first [apply sh_unsigned with (n := n); [reflexivity|exact U] | apply sh_hex with (n := n); [auto; fail|exact U] | apply sh_octal with (n := n); [reflexivity|exact U]].
    + assert (G : fixed_conv s = true \/ exp_conv s = true \/ general_conv s = true \/ hex_conv s = true) by (destruct s; try discriminate D; auto).
      destruct (float_or_not J v HJ Hv) as [(b & B)|[N|[(u & sc & I)|[N|(o & e & -> & N)]]]].
      * destruct (double_view J v b r B) as [_ Rb]. destruct (digits_or_special b Rb) as [[(f & e & X) F]|[F|F]].
        -- destruct G as [G|[G|[G|G]]]; eexists; [eapply sh_fixed|eapply sh_exp|eapply sh_general|eapply sh_hexfloat]; eassumption.
        -- eexists. eapply sh_infinite; eassumption.
        -- eexists. apply sh_nan; [assumption|]. exact (double_nan J v b B F).
      * eexists. apply sh_nan; assumption.
      * destruct G as [G|[G|[G|G]]]; [| | |eexists; eapply sh_big_hex; eassumption].
        -- assert (L : (u = 0 \/ sc - prec_or 6 q <= 646456992) \/ (u <> 0 /\ 646456992 < sc - prec_or 6 q)) by lia.
           destruct L as [L|[L1 L2]]; eexists; [eapply sh_big_fixed|eapply sh_big_tiny]; eassumption.
        -- destruct (Z_le_gt_dec (last_exp (Z.abs u) (- sc) (prec_or 6 q + 1)) 2147483648); eexists; [eapply sh_big_exp|eapply sh_big_exp_huge]; try eassumption. lia.
        -- destruct (bg_positional (Z.abs u) (- sc) (g_prec q)) eqn:Bp; [eexists; eapply sh_big_general; [eassumption|eassumption|left; assumption]|].
           destruct (Z_le_gt_dec (last_exp (Z.abs u) (- sc) (g_prec q)) 2147483648); eexists;
             [eapply sh_big_general; [eassumption|eassumption|right; assumption]|eapply sh_big_general_huge; [eassumption|eassumption|assumption|lia]].
      * eexists. apply sh_not_float; assumption.
      * eexists. eapply sh_float_fails; eassumption.
    + destruct (temporal_or_not J v Hv) as [(t & T)|(e & N)]; [|eexists; eapply sh_not_date; eassumption].
      destruct (dated_total J d t) as [[t'|e] Hd]; eexists; [eapply sh_date|eapply sh_date_fails]; eassumption.
    + assert (X : (exists u, v = VSeq u) \/ forall u, v <> VSeq u) by (destruct v; try (right; discriminate); left; eauto).
      destruct X as [[u ->]|X].
      * destruct Hv as [t Hv]. destruct (wden_leaves _ _ (den_wden _ _ Hv)) as (ts & F & _). eexists. eapply sh_seq; eassumption.
      * destruct (text_of J v HJ Hv X) as [(t & T & M)|(o & e & -> & E & _)]; eexists; [eapply sh_text|eapply sh_no_text]; eassumption.
    + destruct (char_or_not J v Hv) as [(c & C)|[N|(o & e & -> & N)]]; eexists; [eapply sh_char|eapply sh_not_char|eapply sh_char_fails]; eassumption.
    + destruct r as [| |name hash]; eexists; [apply sh_primitive|apply sh_no_pointer|apply sh_pointer]; assumption.
    + eexists. apply sh_nothing, D.
    + eexists. apply sh_percent, D.
Qed.

(** ** '*' *)

Lemma star_int J x o : star_arg J x o -> t_asInt x = o /\ match o with Ok w => is_int w | Err _ => True end.
Proof.
  intros H. destruct H as [v w r H|v r H|o e r H|].
  - destruct (int_of J v w r H) as [E R]. split; [exact E|apply in_range_32, R].
  - split; [apply not_int_fails, H|exact I].
  - split; [apply (fails_int_is J o e r H)|exact I].
  - split; [reflexivity|exact I].
Qed.

Lemma taken_next J args o : taken J args o -> nextInt args = o /\ match o with Ok (w, _) => is_int w | Err _ => True end.
Proof.
  intros H. destruct H as [|x rest w H|x rest e H]; cbn [nextInt]; [split; [reflexivity|exact I]| |]; apply star_int in H as [-> H]; cbn [bind]; auto.
Qed.

Lemma taken_total J args : jdk_ok J -> Forall (argument J) args ->
  exists o, taken J args o /\ match o with Ok (_, rest) => exists x, args = x :: rest | Err _ => True end.
Proof.
  intros HJ H. destruct H as [|x rest Hx Hr]; [exists (Err (Printf MissingArg)); split; [constructor|exact I]|].
  destruct Hx as [|v r Hv Hp Ho].
  - exists (Err (Printf BadConversion)). split; [apply tk_not_int, st_null|exact I].
  - destruct (int_or_not J v Hv) as [[w W]|[W|(o & e & -> & W)]].
    + exists (Ok (w, rest)). split; [apply tk_int, st_int, W|eauto].
    + exists (Err (Printf BadConversion)). split; [apply tk_not_int, st_not_int, W|exact I].
    + exists (Err e). split; [apply tk_not_int, st_fails, W|exact I].
Qed.

(** the first half of DefaultAppender.append: the width *)
Definition widthOf (c : ctx) (it : list traits) : res (ctx * list traits) :=
  if isPrecedingWidth c then
    let* (w, it) := nextInt it in
    let* c := (if 0 <=? w then setWidth c w else setWidth (addFlag c LEFT_JUSTIFY) (wrap32 (- w))) in
    Ok (c, it)
  else Ok (c, it).
Definition precOf (c : ctx) (it : list traits) : res (ctx * list traits) :=
  if isPrecedingPrecision c then
    let* (p, it) := nextInt it in
    let* c := setPrecision c (if 0 <=? p then p else UNSET) in
    Ok (c, it)
  else Ok (c, it).
Lemma resolve_halves c it : resolveCtx c it = (let* (c, it) := widthOf c it in precOf c it).
Proof. reflexivity. Qed.

Definition star_ok (n : Z) : Prop := n = UNSET \/ n = PRECEDING \/ 0 <= n <= 65536.

Lemma checkValue_in k n : 0 <= n <= 65536 -> checkValue k n = Ok tt.
Proof.
  intros H. unfold checkValue, MAX_WP. replace (n <? 0) with false by (symmetry; apply Z.ltb_ge; lia). cbn [andb].
  replace (65536 <? n) with false by (symmetry; apply Z.ltb_ge; lia). reflexivity.
Qed.
Lemma checkValue_out k n : 65536 < n -> checkValue k n = Err (Printf k).
Proof.
  intros H. unfold checkValue, MAX_WP. replace (n <? 0) with false by (symmetry; apply Z.ltb_ge; lia). cbn [andb].
  replace (65536 <? n) with true by (symmetry; apply Z.ltb_lt; lia). reflexivity.
Qed.

Lemma width_resolves J fl w p d args o : star_ok w -> width_is J (f_left fl) w args o ->
  match o with
  | Err e => widthOf (mkCtx fl w p d) args = Err e
  | Ok (l, w', rest) => exists fl' w2, widthOf (mkCtx fl w p d) args = Ok (mkCtx fl' w2 p d, rest) /\
      f_left fl' = l /\ f_alt fl' = f_alt fl /\ f_plus fl' = f_plus fl /\ f_space fl' = f_space fl /\ f_zero fl' = f_zero fl /\
      Z.max 0 w2 = w' /\ (w2 = UNSET \/ 0 <= w2 <= 65536 \/ (w2 = int_min /\ f_left fl' = true))
  end.
Proof.
  intros Hs H. unfold widthOf, isPrecedingWidth. cbn [c_width].
  destruct H as [args|n args Hn|n args rest H Hn|n args rest H Hn|args rest H|n args rest H Hn Hm|args e H].
  - exists fl, UNSET. replace (UNSET =? PRECEDING) with false by reflexivity. repeat split. left. reflexivity.
  - assert (n =? PRECEDING = false) as -> by (apply Z.eqb_neq; unfold PRECEDING, int_min; lia).
    exists fl, n. repeat split; [lia|]. right. left. unfold star_ok, UNSET, PRECEDING, int_min in Hs. lia.
  - rewrite Z.eqb_refl. destruct (taken_next _ _ _ H) as [-> _]. cbn [bind]. replace (0 <=? n) with true by (symmetry; apply Z.leb_le; lia).
    unfold setWidth. rewrite checkValue_in by lia. cbn [bind c_flags c_prec c_dtf]. exists fl, n. repeat split; lia.
  - rewrite Z.eqb_refl. destruct (taken_next _ _ _ H) as [-> _]. cbn [bind]. replace (0 <=? - n) with false by (symmetry; apply Z.leb_gt; lia).
    rewrite Z.opp_involutive, wrap32_id by (unfold is_int, int_min, int_max; lia).
    unfold setWidth. rewrite checkValue_in by lia. cbn [bind addFlag c_flags c_prec c_dtf]. exists (addF LEFT_JUSTIFY fl), n. repeat split; cbn; lia.
  - rewrite Z.eqb_refl. destruct (taken_next _ _ _ H) as [-> _]. cbn [bind]. exists (addF LEFT_JUSTIFY fl), int_min. repeat split. right; right. split; reflexivity.
  - rewrite Z.eqb_refl. destruct (taken_next _ _ _ H) as [-> Hi]. cbn [bind]. unfold is_int, int_min, int_max in Hi. change (- 2 ^ 31) with (-2147483648) in Hm.
    destruct (0 <=? n) eqn:E0; bools.
    + unfold setWidth. rewrite checkValue_out by lia. reflexivity.
    + rewrite wrap32_id by (unfold is_int, int_min, int_max; lia). unfold setWidth. rewrite checkValue_out by lia. reflexivity.
  - rewrite Z.eqb_refl. destruct (taken_next _ _ _ H) as [-> _]. reflexivity.
Qed.

Lemma prec_resolves J fl w p d args o : star_ok p -> prec_is J p args o ->
  match o with
  | Err e => precOf (mkCtx fl w p d) args = Err e
  | Ok (p', rest) => exists p2, precOf (mkCtx fl w p d) args = Ok (mkCtx fl w p2 d, rest) /\
      (if p2 <? 0 then None else Some p2) = p' /\ (p2 = UNSET \/ 0 <= p2 <= 65536)
  end.
Proof.
  intros Hs H. unfold precOf, isPrecedingPrecision. cbn [c_prec].
  destruct H as [args|n args Hn|n args rest H Hn|n args rest H Hn|n args rest H Hn|args e H].
  - exists UNSET. repeat split. left. reflexivity.
  - assert (n =? PRECEDING = false) as -> by (apply Z.eqb_neq; unfold PRECEDING, int_min; lia).
    exists n. replace (n <? 0) with false by (symmetry; apply Z.ltb_ge; lia). repeat split. right. unfold star_ok, UNSET, PRECEDING, int_min in Hs. lia.
  - rewrite Z.eqb_refl. destruct (taken_next _ _ _ H) as [-> _]. cbn [bind]. replace (0 <=? n) with true by (symmetry; apply Z.leb_le; lia).
    unfold setPrecision. rewrite checkValue_in by lia. cbn [bind c_flags c_width c_dtf]. exists n. replace (n <? 0) with false by (symmetry; apply Z.ltb_ge; lia).
    repeat split; lia.
  - rewrite Z.eqb_refl. destruct (taken_next _ _ _ H) as [-> _]. cbn [bind]. replace (0 <=? n) with false by (symmetry; apply Z.leb_gt; lia).
    exists UNSET. repeat split. left. reflexivity.
  - rewrite Z.eqb_refl. destruct (taken_next _ _ _ H) as [-> _]. cbn [bind]. replace (0 <=? n) with true by (symmetry; apply Z.leb_le; lia).
    unfold setPrecision. rewrite checkValue_out by lia. reflexivity.
  - rewrite Z.eqb_refl. destruct (taken_next _ _ _ H) as [-> _]. reflexivity.
Qed.

(** ** Pieces *)

Lemma resolves J fl w p d args l w' a1 o : bounded_or_star (mkCtx fl w p d) ->
  width_is J (f_left fl) w args (Ok (l, w', a1)) -> prec_is J p a1 o ->
  match o with
  | Err e => resolveCtx (mkCtx fl w p d) args = Err e
  | Ok (p', rest) => exists c, resolveCtx (mkCtx fl w p d) args = Ok (c, rest) /\ rt_ok c /\ q_of c = asked fl l w' p' /\ c_dtf c = d
  end.
Proof.
  intros [Bw Bp] W P. cbn [c_width c_prec] in Bw, Bp. rewrite resolve_halves.
  destruct (width_resolves J fl w p d args _ Bw W) as (fl' & w2 & -> & E1 & E2 & E3 & E4 & E5 & E6 & R). cbn [bind].
  pose proof (prec_resolves J fl' w2 p d a1 o Bp P) as X. destruct o as [[p' rest]|e]; [|exact X].
  destruct X as (p2 & -> & Ep & Rp). eexists. split; [reflexivity|]. split; [split; cbn; assumption|]. split; [|reflexivity].
  unfold q_of, asked. cbn. rewrite E1, E2, E3, E4, E5, E6, Ep. reflexivity.
Qed.

Lemma piece_appends J a args o : jdk_ok J -> sane a -> piece J a args o ->
  match o with
  | Err e => appendOne J a args = Err e
  | Ok (t, rest) => exists u, appendOne J a args = Ok (u, rest) /\ forall emit, emits emit -> forall sb, emit u sb = (sb ++ t, None)
  end.
Proof.
  intros HJ Hs H. destruct H as [t args|s fl w p d args e W|s fl w p d args l w' a1 e W P|s fl w p d args l w' a1 p' W P|s fl w p d args l w' a1 p' x rest e W P S|s fl w p d args l w' a1 p' x rest t W P S];
    cbn [appendOne sane] in *.
  - exists (wrapS t). split; [reflexivity|]. intros emit He sb. apply wrapS_emits, He.
  - rewrite resolve_halves, (width_resolves J fl w p d args _ (proj1 Hs) W). reflexivity.
  - rewrite (resolves J fl w p d args l w' a1 _ Hs W P). reflexivity.
  - destruct (resolves J fl w p d args l w' a1 _ Hs W P) as (c & -> & _). reflexivity.
  - destruct (resolves J fl w p d args l w' a1 _ Hs W P) as (c & -> & Hc & Q & D). cbn [bind].
    pose proof (shown_gives J s d _ x _ c HJ S Hc Q D) as G. cbn [gives] in G. rewrite G. reflexivity.
  - destruct (resolves J fl w p d args l w' a1 _ Hs W P) as (c & -> & Hc & Q & D). cbn [bind].
    destruct (shown_gives J s d _ x _ c HJ S Hc Q D) as (u & -> & Wu). cbn [bind]. exists u. split; [reflexivity|].
    intros emit He sb. apply wden_emits; assumption.
Qed.

Lemma says_runs J ds args t o : jdk_ok J -> Forall sane ds -> says J ds args t o ->
  forall emit, emits emit -> forall sb, run J emit ds args sb = (sb ++ t, o).
Proof.
  intros HJ Hs H emit He. induction H as [args|d ds args t rest u o P S IH|d ds args e P]; intros sb; cbn [run].
  - rewrite app_nil_r. reflexivity.
  - inversion Hs as [|? ? Hd Hr]; subst. destruct (piece_appends J d args _ HJ Hd P) as (s & -> & E). rewrite (E emit He), (IH Hr), app_assoc. reflexivity.
  - inversion Hs as [|? ? Hd Hr]; subst. rewrite (piece_appends J d args _ HJ Hd P), app_nil_r. reflexivity.
Qed.

Lemma width_total J l w args : jdk_ok J -> star_ok w -> Forall (argument J) args ->
  exists o, width_is J l w args o /\ match o with Ok (_, _, rest) => Forall (argument J) rest | Err _ => True end.
Proof.
  intros HJ [-> |[-> |H]] Ha.
  - eexists. split; [apply wi_none|exact Ha].
  - destruct (taken_total J args HJ Ha) as ([[n rest]|e] & T & R); [|eexists; split; [apply wi_fails, T|exact I]].
    destruct R as [x ->]. inversion Ha as [|? ? Hx Hr]; subst.
    destruct (Z_le_gt_dec 0 n) as [L|L]; [destruct (Z_le_gt_dec n 65536) as [M|M]|destruct (Z.eq_dec n (- 2 ^ 31)) as [->|N]; [|destruct (Z_le_gt_dec (-65536) n) as [M|M]]].
    + eexists. split; [apply (wi_star J l n _ rest); [exact T|lia]|exact Hr].
    + eexists. split; [apply (wi_range J l n _ rest); [exact T|lia|change (- 2 ^ 31) with (-2147483648); lia]|exact I].
    + eexists. split; [apply (wi_smallest J l _ rest T)|exact Hr].
    + eexists. split; [apply (wi_negative J l (- n) _ rest); [rewrite Z.opp_involutive; exact T|lia]|exact Hr].
    + eexists. split; [apply (wi_range J l n _ rest); [exact T|lia|exact N]|exact I].
  - eexists. split; [apply wi_number; lia|exact Ha].
Qed.

Lemma prec_total J p args : jdk_ok J -> star_ok p -> Forall (argument J) args ->
  exists o, prec_is J p args o /\ match o with Ok (_, rest) => Forall (argument J) rest | Err _ => True end.
Proof.
  intros HJ [-> |[-> |H]] Ha.
  - eexists. split; [apply pi_none|exact Ha].
  - destruct (taken_total J args HJ Ha) as ([[n rest]|e] & T & R); [|eexists; split; [apply pi_fails, T|exact I]].
    destruct R as [x ->]. inversion Ha as [|? ? Hx Hr]; subst.
    destruct (Z_le_gt_dec 0 n) as [L|L]; [destruct (Z_le_gt_dec n 65536) as [M|M]|].
    + eexists. split; [apply (pi_star J n _ rest); [exact T|lia]|exact Hr].
    + eexists. split; [apply (pi_range J n _ rest); [exact T|lia]|exact I].
    + eexists. split; [apply (pi_negative J n _ rest); [exact T|lia]|exact Hr].
  - eexists. split; [apply pi_number; lia|exact Ha].
Qed.

Lemma piece_total J a args : jdk_ok J -> sane a -> Forall (argument J) args ->
  exists o, piece J a args o /\ match o with Ok (_, rest) => Forall (argument J) rest | Err _ => True end.
Proof.
  intros HJ Hs Ha. destruct a as [t|s [fl w p d]]; [eexists; split; [apply pc_literal|exact Ha]|].
  destruct Hs as [Bw Bp]. cbn [c_width c_prec] in Bw, Bp.
  destruct (width_total J (f_left fl) w args HJ Bw Ha) as ([[[l w'] a1]|e] & W & Ha1); [|eexists; split; [apply pc_width_fails, W|exact I]].
  destruct (prec_total J p a1 HJ Bp Ha1) as ([[p' a2]|e] & P & Ha2); [|eexists; split; [eapply pc_prec_fails; eassumption|exact I]].
  destruct Ha2 as [|x rest Hx Hr]; [eexists; split; [eapply pc_missing; eassumption|exact I]|].
  destruct (shown_total J x s d (asked fl l w' p') HJ Hx) as [[t|e] S]; eexists; (split; [first [eapply pc_shown; eassumption|eapply pc_refused; eassumption]|]); [exact Hr|exact I].
Qed.

Lemma says_total J ds : jdk_ok J -> Forall sane ds -> forall args, Forall (argument J) args -> exists t o, says J ds args t o.
Proof.
  intros HJ Hs. induction Hs as [|d r Hd Hr IH]; intros args Ha; [exists [], None; apply sy_end|].
  destruct (piece_total J d args HJ Hd Ha) as ([[t rest]|e] & P & Hrest).
  - destruct (IH rest Hrest) as (u & o & S). exists (t ++ u), o. eapply sy_piece; eassumption.
  - exists [], (Some e). apply sy_stop, P.
Qed.

Lemma says_unique J ds args t o t' o' : jdk_ok J -> Forall sane ds -> says J ds args t o -> says J ds args t' o' -> t = t' /\ o = o'.
Proof.
  intros HJ Hs S S'. pose proof (says_runs J ds args t o HJ Hs S _ emits_sb []) as E.
  rewrite (says_runs J ds args t' o' HJ Hs S' _ emits_sb []) in E. cbn [app] in E. injection E as -> ->. auto.
Qed.
