(** The text of a directive depends on the rounded number only. *)
From Coq Require Import QArith Qabs Qpower Lqa.
From Verif Require Import Base Digits UtilsM SeqM SeqSpec ContextM CompilerM GrammarSpec IntFormM FormatterM MathM DecimalM FPDecimalM DoubleM BigDecM RoundM TraitsM ImplM
  ReadSpec FmtSpec FmtP DirSpec DecSpec RoundP FloatSpec FPDecP FloatP DoubleP CastP NearP FloatQ HexP FloatArgP IntP PropsInt PropsDouble PropsFloat
  ReadFSpec ReadFP ReadFP2 ReadFP3 PropsRead ScaleSpec ScaleP ExactP AgainCheck AgainP AgainP2 AgainSpec.
Open Scope Z_scope.

(** the digits of a number rounded to [P] significant digits *)
Lemma sig_of_value S X S' X' P : 1 <= P -> 10 ^ (P - 1) <= S < 10 ^ P -> 10 ^ (P - 1) <= S' < 10 ^ P ->
  (dec S (X - P + 1) == dec S' (X' - P + 1))%Q -> S = S' /\ X = X'.
Proof.
  intros HP H H' E. apply (sig_half_up_unique (dec S (X - P + 1)) P); [exact HP|apply exact_sig; assumption|].
  apply (sig_half_up_eq (dec S' (X' - P + 1))); [symmetry; exact E|apply exact_sig; assumption].
Qed.
(** trailing zeros dropped in one way *)
Lemma stripped_unique S p M k M' k' : 0 < S -> 0 <= k <= p -> S = M * 10 ^ (p - k) -> k = 0 \/ M mod 10 <> 0 ->
  0 <= k' <= p -> S = M' * 10 ^ (p - k') -> k' = 0 \/ M' mod 10 <> 0 -> M = M' /\ k = k'.
Proof.
  assert (W : forall M k M' k', 0 <= k <= p -> S = M * 10 ^ (p - k) -> 0 <= k' <= p -> S = M' * 10 ^ (p - k') -> k' = 0 \/ M' mod 10 <> 0 -> k < k' -> False).
  { clear. intros M k M' k' Hk E Hk' E' Hz L. assert (T : M' = M * 10 ^ (k' - k)).
    { apply (Z.mul_reg_r _ _ (10 ^ (p - k'))); [pose proof (Z.pow_pos_nonneg 10 (p - k') ltac:(lia) ltac:(lia)); lia|]. rewrite <- E', E, <- Z.mul_assoc, <- Z.pow_add_r by lia. f_equal. f_equal. lia. }
    destruct Hz as [Hz|Hz]; [lia|]. apply Hz. rewrite T. replace (k' - k) with (1 + (k' - k - 1)) by lia. rewrite Z.pow_add_r by lia.
    replace (M * (10 ^ 1 * 10 ^ (k' - k - 1))) with (M * 10 ^ (k' - k - 1) * 10) by ring. apply Z_mod_mult. }
  intros HS Hk E Hz Hk' E' Hz'. destruct (Z.lt_trichotomy k k') as [L|[L|L]].
  - destruct (W M k M' k' Hk E Hk' E' Hz' L).
  - split; [|exact L]. subst k'. rewrite E in E'. apply Z.mul_reg_r in E'; [exact E'|]. pose proof (Z.pow_pos_nonneg 10 (p - k) ltac:(lia) ltac:(lia)). lia.
  - destruct (W M' k' M k Hk' E' Hk E Hz L).
Qed.

(** ** %#g in exponent notation *)

Lemma g_of_digits J src s q v b r f e : directive src s q -> s = Sg \/ s = SG -> is_double J v b -> printed b f e ->
  prints J src [traitsOf J v r] (cased s (j_g q (b <? 0) f e)).
Proof.
  intros Hd Hs Hv Pr. apply (conv_prints J src s q v b r _ Hd); [unfold is_float_spec; tauto|exact Hv|]. intros c F Hr <- EF.
  assert (F = fmt_g c) as -> by (destruct Hs as [-> | ->]; cbn in EF; congruence).
  exact (fmt_g_double c b f e Hr Pr).
Qed.

(** the exponent of a digit string of a double below the normal range *)
Lemma low_scale m e : 0 < m < 2 ^ 52 -> scale_of m e -> e <= -324.
Proof.
  intros Hm Hs. pose proof (dval_small (m - 1) ltac:(lia)) as D1.
  assert (D2 : (dval (m + 1) == inject_Z (m + 1) * 2 ^ (-1074))%Q).
  { rewrite dval_succ by lia. rewrite dval_small by lia. unfold expo. rewrite Z.div_small by lia. rewrite inject_Z_plus. change (inject_Z 1) with 1%Q. change (Z.max 1 0 - 1075) with (-1074). ring. }
  assert (In : (interval m == 2 ^ (-1074))%Q).
  { unfold interval. rewrite D1, D2. unfold Z.sub. rewrite !inject_Z_plus. change (inject_Z (- (1))) with (- (1))%Q. change (inject_Z 1) with 1%Q. ring. }
  assert (L : (2 ^ (-1074) < 10 ^ (-323))%Q) by (vm_compute; reflexivity).
  destruct Hs as [(n & Hn & En)|e _ [H _]|e _ _ [H _]].
  - exfalso. rewrite dval_small in En by lia. assert (A : (inject_Z m * 2 ^ (-1074) < 1)%Q).
    { apply (Qle_lt_trans _ (inject_Z (2 ^ 52) * 2 ^ (-1074))); [apply Qmult_le_compat_r; [rewrite <- Zle_Qle; lia|vm_compute; discriminate]|vm_compute; reflexivity]. }
    rewrite En in A. change 1%Q with (inject_Z 1) in A. rewrite <- Zlt_Qlt in A. lia.
  - rewrite In in H. assert (A : (10 ^ (e + 1) < 10 ^ (-323))%Q) by (eapply Qle_lt_trans; eassumption). apply ten_lt_inv in A. lia.
  - rewrite In in H. assert (A : (10 ^ e < 10 ^ (-323))%Q) by (eapply Qle_lt_trans; eassumption). apply ten_lt_inv in A. lia.
Qed.
Lemma any_scale m e : 3 <= m < inf_bits -> scale_of m e -> -324 <= e.
Proof.
  intros Hm Hs. destruct Hs as [_|e L _|e _ _ [_ H]]; [lia|lia|].
  assert (A : (10 ^ (-324) < interval m)%Q).
  { rewrite interval_val by lia. assert (E : -1074 <= expo m) by (unfold expo; lia). apply (Qlt_le_trans _ ((3 # 4) * 2 ^ (-1074))); [vm_compute; reflexivity|].
    assert (B : (2 ^ (-1074) <= 2 ^ expo m)%Q) by (apply Qpower_le_compat_l; [lia|vm_compute; discriminate]). pose proof (two_pos (-1074)). match goal with |- context [if ?c then _ else _] => destruct c end; lra. }
  assert (C : (10 ^ (-324) < 10 ^ (e + 1))%Q) by (eapply Qlt_trans; eassumption). apply ten_lt_inv in C. lia.
Qed.
Lemma least_two m f e : 0 < m < 3 -> toDecimal m = Ok (NonSpecial false f e) -> 0 < f < 10 ^ 2 /\ -325 <= e.
Proof.
  intros Hm. assert (C : m = 1 \/ m = 2) by lia. destruct C as [-> | ->]; vm_compute; intros E; injection E as <- <-; split; try split; congruence || reflexivity.
Qed.

(** digits enough for exponent notation, unless the double comes back *)
Lemma enough_digits b f e b' f' e' P S X : 1 <= P -> 0 < magnitude b -> 0 < magnitude b' -> printed b f e -> printed b' f' e' ->
  sig0 f e P = (S, X) -> sig0 f' e' P = (S, X) -> X < -4 \/ P <= X -> magnitude b = magnitude b' \/ rounds_to (dec S (X - P + 1)) (magnitude b') ->
  magnitude b = magnitude b' \/ P <= ndigits f /\ P <= ndigits f'.
Proof.
  intros HP M M' Pr Pr' ES ES' HX Hr.
  destruct Hr as [Em|Hr]; [left; exact Em|]. destruct (Z.eq_dec (magnitude b) (magnitude b')) as [|Ne]; [left; assumption|right].
  destruct Pr as [[Z0 _]|[R D]]; [change (magnitude b = 0) in Z0; lia|]. destruct Pr' as [[Z0 _]|[R' D']]; [change (magnitude b' = 0) in Z0; lia|].
  change (dbl_mag b) with (magnitude b) in *. change (dbl_mag b') with (magnitude b') in *.
  pose proof (do_right _ _ _ D) as Rt. pose proof (do_right _ _ _ D') as Rt'. pose proof (proj1 Rt) as Fp. pose proof (proj1 Rt') as Fp'.
  assert (W : forall f e, 0 < f -> sig0 f e P = (S, X) -> sig_half_up (dec f e) P S X /\ ndigits f + e - 1 <= X <= ndigits f + e).
  { clear - HP. intros f e Hf E. unfold sig0 in E. replace (f =? 0) with false in E by (symmetry; apply Z.eqb_neq; lia).
    split; [apply sig_right; assumption|]. unfold FloatSpec.sig in E. cbv zeta in E. destruct (_ =? _); injection E as _ <-; lia. }
  destruct (W f e ltac:(lia) ES) as [G B]. destruct (W f' e' ltac:(lia) ES') as [_ B'].
  assert (Same : forall n, digits_le (dec f e) n -> n <= P -> False).
  { intros n Dn L. apply Ne. apply (rounds_unique (dec S (X - P + 1))); [lia|lia| |exact Hr]. apply (rounds_eq (dec f e)); [symmetry; apply (sig_keeps _ n); assumption|].
    apply (its_rounds b f e). right. split; assumption. }
  destruct (ndigits_bounds f ltac:(lia)) as (N1 & N2 & N3). destruct (ndigits_bounds f' ltac:(lia)) as (N1' & N2' & N3').
  assert (L1 : P < ndigits f).
  { destruct (Z_lt_ge_dec P (ndigits f)) as [L|L]; [exact L|]. exfalso. apply (Same (ndigits f)); [exists f, e; split; [lia|reflexivity]|lia]. }
  assert (L2 : P <= 16).
  { destruct (Z_le_gt_dec P 16) as [L|L]; [exact L|]. exfalso. destruct (its_short b f e (or_intror (conj R Rt)) M) as (f0 & e0 & E0 & F0 & _).
    apply (Same 17); [exists f0, e0; split; [lia|exact E0]|lia]. }
  split; [lia|]. destruct (Z_le_gt_dec (2 ^ 52) (magnitude b')) as [Hn|Hn]; [apply (normal_digits b' f' e' P S X); [exact Hn|right; split; assumption|lia|exact ES'|exact HX]|].
  destruct (Z_le_gt_dec P (ndigits f')) as [L|L]; [exact L|]. exfalso.
  pose proof (low_scale (magnitude b') e' ltac:(lia) (toDecimal_scale _ _ _ _ R' (do_dec _ _ _ D'))) as E1.
  destruct (Z_le_gt_dec 3 (magnitude b)) as [L3|L3].
  - pose proof (any_scale (magnitude b) e ltac:(lia) (toDecimal_scale _ _ _ _ R (do_dec _ _ _ D))). lia.
  - destruct (least_two (magnitude b) f e ltac:(lia) (do_dec _ _ _ D)) as [F2 _]. assert (ndigits f <= 2); [|lia].
    destruct (Z_le_gt_dec (ndigits f) 2) as [L4|L4]; [exact L4|]. assert (10 ^ 2 <= 10 ^ (ndigits f - 1)) by (apply Z.pow_le_mono_r; lia). lia.
Qed.
Lemma same_alt J src s q v b r f e v' b' r' f' e' S X t : directive src s q -> s = Sg \/ s = SG -> q_alt q = true ->
  is_double J v b -> its_decimal b f e -> is_double J v' b' -> its_decimal b' f' e' -> (b <? 0) = (b' <? 0) -> 0 < magnitude b -> 0 < magnitude b' ->
  sig_half_up (dec f e) (g_prec q) S X -> sig_half_up (dec f' e') (g_prec q) S X -> magnitude b = magnitude b' \/ rounds_to (dec S (X - g_prec q + 1)) (magnitude b') ->
  prints J src [traitsOf J v r] t -> prints J src [traitsOf J v' r'] t.
Proof.
  intros Hd Hs Ha Hv Hi Hv' Hi' Sg0 M M' G G' Hr Ht. pose proof (g_prec_pos _ _ _ Hd) as HP.
  destruct (its_printed b f e Hi) as (f0 & e0 & Pr & Ed & Ez & F0). pose proof (its_pos _ _ _ Hi M) as Nz.
  destruct (its_printed b' f' e' Hi') as (f1 & e1 & Pr' & Ed' & Ez' & F1). pose proof (its_pos _ _ _ Hi' M') as Nz'.
  assert (ES : sig0 f0 e0 (g_prec q) = (S, X)) by (apply (its_sig b f e); try assumption; lia).
  assert (ES' : sig0 f1 e1 (g_prec q) = (S, X)) by (apply (its_sig b' f' e'); try assumption; lia).
  rewrite (prints_unique _ _ _ _ _ Ht (g_of_digits J src s q v b r f0 e0 Hd Hs Hv Pr)).
  assert (E : j_g q (b <? 0) f0 e0 = j_g q (b' <? 0) f1 e1); [|rewrite E; apply g_of_digits; assumption].
  rewrite Sg0. unfold j_g, g_irregular, c_g, g_body, g_unpadded. cbv zeta. rewrite ES, ES', Ha. cbn [andb].
  destruct ((-4 <=? X) && (X <? g_prec q)) eqn:EX; cbn [negb]; [reflexivity|].
  assert (HX : X < -4 \/ g_prec q <= X) by (apply andb_false_iff in EX as [EX|EX]; [apply Z.leb_gt in EX|apply Z.ltb_ge in EX]; lia).
  destruct (enough_digits b f0 e0 b' f1 e1 (g_prec q) S X HP M M' Pr Pr' ES ES' HX Hr) as [Em|[L L']].
  - destruct Pr as [[Z0 _]|[_ D]]; [change (magnitude b = 0) in Z0; lia|]. destruct Pr' as [[Z0 _]|[_ D']]; [change (magnitude b' = 0) in Z0; lia|].
    change (dbl_mag b) with (magnitude b) in D. change (dbl_mag b') with (magnitude b') in D'. rewrite Em in D. pose proof (do_dec _ _ _ D) as E1. pose proof (do_dec _ _ _ D') as E2. rewrite E1 in E2. apply nonspecial_inj in E2 as [-> _]. reflexivity.
  - rewrite (Z.min_r _ _ L), (Z.min_r _ _ L'). reflexivity.
Qed.


(** two doubles of one sign that the conversion rounds to the same number have the same text *)
Lemma same_text J src s q v b r f e v' b' r' f' e' x t : directive src s q -> decimal_spec s -> magnitude b = magnitude b' \/ rounds_to x (magnitude b') ->
  is_double J v b -> its_decimal b f e -> is_double J v' b' -> its_decimal b' f' e' -> (b <? 0) = (b' <? 0) ->
  rounded s q (dec f e) x -> rounded s q (dec f' e') x -> prints J src [traitsOf J v r] t -> prints J src [traitsOf J v' r'] t.
Proof.
  intros Hd Hs Hpf Hv Hi Hv' Hi' Sg0 Hx Hx' Ht. pose proof (prec_nonneg _ _ _ Hd) as Hp. pose proof (g_prec_pos _ _ _ Hd) as HP.
  assert (FF : s = Sf \/ s = SF -> (exists N, half_up_at (dec f e) (prec_or 6 q) N /\ (x == dec N (- prec_or 6 q))%Q) ->
    (exists N, half_up_at (dec f' e') (prec_or 6 q) N /\ (x == dec N (- prec_or 6 q))%Q) -> prints J src [traitsOf J v' r'] t).
  { intros Hs' (N & HN & E) (N' & HN' & E'). assert (N = N') as <-.
    { apply (half_up_unique x (prec_or 6 q)); [apply (half_up_eq (dec N (- prec_or 6 q))); [symmetry; exact E|apply exact_half_up]|apply (half_up_eq (dec N' (- prec_or 6 q))); [symmetry; exact E'|apply exact_half_up]]. }
    rewrite (prints_unique _ _ _ _ _ Ht (C28_fixed_notation J src s q v b r f e N Hd Hs' Hv Hi HN)), Sg0. apply (C28_fixed_notation J src s q v' b' r' f' e' N); assumption. }
  assert (SS : forall P, 1 <= P -> sig_rounded (dec f e) P x -> sig_rounded (dec f' e') P x ->
    magnitude b = 0 /\ magnitude b' = 0 /\ (x == 0)%Q \/
    exists S X, 0 < magnitude b /\ 0 < magnitude b' /\ sig_half_up (dec f e) P S X /\ sig_half_up (dec f' e') P S X /\ (x == dec S (X - P + 1))%Q /\ 10 ^ (P - 1) <= S < 10 ^ P).
  { intros P HP1 H H'. assert (Z0 : forall b f e, its_decimal b f e -> sig_rounded (dec f e) P x -> magnitude b = 0 /\ (x == 0)%Q \/
      0 < magnitude b /\ exists S X, sig_half_up (dec f e) P S X /\ (x == dec S (X - P + 1))%Q /\ 10 ^ (P - 1) <= S < 10 ^ P).
    { intros b0 f0 e0 I0 [[Ey Ex]|(S & X & G & Ex)].
      - left. split; [|exact Ex]. destruct I0 as [[M0 _]|[M0 (F0 & _)]]; [exact M0|]. pose proof (dec_pos f0 e0 ltac:(lia)). lra.
      - right. pose proof (sig_positive _ _ _ _ G) as Gp. split; [|exists S, X; split; [exact G|]; split; [exact Ex|destruct G as (_ & _ & _ & _ & _ & G); exact G]].
        destruct I0 as [[_ F0]|[M0 _]]; [rewrite F0, dec_zero in Gp; lra|lia]. }
    assert (Ps : forall S X, 10 ^ (P - 1) <= S < 10 ^ P -> (0 < dec S (X - P + 1))%Q).
    { intros S X [L _]. apply dec_pos. assert (0 < 10 ^ (P - 1)) by (apply Z.pow_pos_nonneg; lia). lia. }
    destruct (Z0 _ _ _ Hi H) as [[M E]|(M & S & X & G & E & R)]; destruct (Z0 _ _ _ Hi' H') as [[M' E']|(M' & S' & X' & G' & E' & R')].
    - left. split; [exact M|]. split; assumption.
    - exfalso. pose proof (Ps S' X' R'). lra.
    - exfalso. pose proof (Ps S X R). lra.
    - right. rewrite E in E'. destruct (sig_of_value S X S' X' P HP1 R R' E') as [<- <-]. exists S, X. repeat (split; [assumption|]). exact R. }
  assert (EE : s = Se \/ s = SE -> sig_rounded (dec f e) (prec_or 6 q + 1) x -> sig_rounded (dec f' e') (prec_or 6 q + 1) x -> prints J src [traitsOf J v' r'] t).
  { intros Hs' H H'. destruct (SS (prec_or 6 q + 1) ltac:(lia) H H') as [(M & M' & _)|(S & X & M & M' & G & G' & _)].
    - rewrite (prints_unique _ _ _ _ _ Ht (C30_scientific_zero J src s q v b r Hd Hs' Hv M)), Sg0. apply C30_scientific_zero; assumption.
    - rewrite (prints_unique _ _ _ _ _ Ht (C30_scientific_notation J src s q v b r f e S X Hd Hs' Hv Hi M G)), Sg0. apply (C30_scientific_notation J src s q v' b' r' f' e'); assumption. }
  assert (GG : s = Sg \/ s = SG -> sig_rounded (dec f e) (g_prec q) x -> sig_rounded (dec f' e') (g_prec q) x -> prints J src [traitsOf J v' r'] t).
  { intros Hs' H H'. destruct (SS _ HP H H') as [(M & M' & _)|(S & X & M & M' & G & G' & Ex & R)]; destruct (q_alt q) eqn:Ha.
    - rewrite (prints_unique _ _ _ _ _ Ht (C32_alternate_zero J src s q v b r Hd Hs' Ha Hv M)), Sg0. apply C32_alternate_zero; assumption.
    - rewrite (prints_unique _ _ _ _ _ Ht (C31_general_zero J src s q v b r Hd Hs' Ha Hv M)), Sg0. apply C31_general_zero; assumption.
    - apply (same_alt J src s q v b r f e v' b' r' f' e' S X t); try assumption. destruct Hpf as [Em|Hpf]; [left; exact Em|right]. apply (rounds_eq x); assumption.
    - destruct (C31_general_notation J src s q v b r f e S X Hd Hs' Ha Hv Hi M G) as (M1 & k1 & Pr1 & K1 & E1 & Z1).
      destruct (C31_general_notation J src s q v' b' r' f' e' S X Hd Hs' Ha Hv' Hi' M' G') as (M2 & k2 & Pr2 & K2 & E2 & Z2).
      assert (S0 : 0 < S) by (assert (0 < 10 ^ (g_prec q - 1)) by (apply Z.pow_pos_nonneg; lia); lia).
      destruct (stripped_unique S _ M1 k1 M2 k2 S0 K1 E1 Z1 K2 E2 Z2) as [-> ->]. rewrite (prints_unique _ _ _ _ _ Ht Pr1), Sg0. exact Pr2. }
  unfold decimal_spec in Hs. destruct Hs as [->|[->|[->|[->|[->| ->]]]]]; cbn [rounded] in *; [apply FF|apply FF|apply EE|apply EE|apply GG|apply GG]; auto.
Qed.
