(** %f, %e, %g and %a of exact doubles. *)
From Coq Require Import QArith Lqa.
From Verif Require Import Base Digits UtilsM SeqM SeqSpec SeqP SeqSubP ContextM CompilerM IntFormM FormatterM FmtSpec FmtP FmtP2 MathM DecimalM FPDecimalM DoubleM BigDecM
  RoundM TraitsM ImplM DecSpec FloatSpec BigSpec FPDecP FloatP DoubleP AnnP BigDecP BigGenP CastP FloatArgP WidthP PortSpec PortP RepairM RepairSpec RepairP RepairP2 GlibcM GlibcP.
From Verif Require HexP.
Open Scope Z_scope.

(** ** A wrapper with a given layout *)

Lemma laid_f c v neg a s : rt_ok c -> 0 <= a -> ndigits a <= 10000 -> - 2147483648 <= s <= 2147483647 -> 0 < a \/ 0 <= s ->
  f_isNaN v = false -> f_isInf v = false -> f_isNegative v = neg ->
  f_decimal v (prec_or 6 (q_of c)) = bd_decimal' (mkBD a s) (prec_or 6 (q_of c)) -> zlen (c_f (q_of c) neg a (- s)) < int_max ->
  exists w, fmt_f' c v = Ok w /\ den w (c_f (q_of c) neg a (- s)).
Proof.
  intros Hc Ha N9 Hs Hz' T1 T2 Tn El Hm. unfold fmt_f', fmt_f. rewrite T1, T2, Tn. cbn [orb].
  destruct (precOr6_spec c Hc) as [Ep Hp]. rewrite Ep.
  unfold c_f, f_body in *. cbv zeta in *. set (p := prec_or 6 (q_of c)) in *. replace (- (- s + p)) with (s - p) in * by lia.
  
  fold (with_alt (q_alt (q_of c)) (hup a (s - p)) p) in *. rewrite zlen_finite_text in Hm. pose proof (zlen_sign_text (q_of c) neg) as Zs.
  rewrite El, bd_decimal'_pair by (unfold int_min, int_max; lia). pose proof (dec_pair_facts a s p Ha ltac:(lia)) as F. destruct (dec_pair a s p) as [u' s'].
  destruct F as (F1 & F2 & F3 & F4 & F5 & F6 & F7 & F8). pose proof (lay_N_nonneg u' s' F1) as L0.
  assert (J0 : 0 <= lay_j s') by (unfold lay_j; lia).
  assert (Zt : zlen (decimal_text (lay_N u' s') (lay_j s')) = zlen (numeral 10 (hup a (s - p) / 10 ^ p)) + (if lay_j s' =? 0 then 0 else 1 + lay_j s')).
  { rewrite zlen_decimal_text by lia. rewrite (lay_integer_part u' s' p) by assumption. rewrite F7. reflexivity. }
  assert (Zb : zlen (with_alt (q_alt (q_of c)) (hup a (s - p)) p) >= zlen (numeral 10 (hup a (s - p) / 10 ^ p)) + (if p =? 0 then 0 else 1 + p)).
  { unfold with_alt. destruct (q_alt (q_of c)); [rewrite zlen_alt_text by lia; destruct (p =? 0) eqn:E; bools; lia|rewrite zlen_decimal_text by lia; lia]. }
  assert (Zl : zlen (decimal_text (lay_N u' s') (lay_j s')) + p + 1 <= int_max).
  { destruct (Z_lt_ge_dec s 0) as [Sn|Sp].
    - destruct (F4 Sn) as [-> ->]. replace (lay_j s) with 0 in * by (unfold lay_j; lia). rewrite int_max_val in *. rewrite Zt. change (0 =? 0) with true. cbv iota.
      destruct (p =? 0) eqn:E; bools; lia.
    - pose proof (lay_integer_len u' s' F1 (F3 ltac:(lia))) as Li. rewrite (lay_integer_part u' s' p), F7 in Li by assumption. rewrite int_max_val. rewrite Zt.
      destruct (lay_j s' =? 0) eqn:E; bools; lia. }
  rewrite int_max_val in *. pose proof (zlen_nonneg (decimal_text (lay_N u' s') (lay_j s'))) as Znn.
  assert (S2 : int_min <= s' <= int_max).
  { unfold int_min, int_max. destruct (Z_lt_ge_dec s 0) as [Sn|Sp]; [destruct (F4 Sn) as [_ ->]; lia|specialize (F3 ltac:(lia)); lia]. }
  destruct (decimalLayout0_spec u' s' F1 ltac:(lia) S2 (F5 Hz') ltac:(rewrite int_max_val; lia)) as (m & Em & Dm & _). rewrite Em. cbn [bind l_mant].
  destruct (fractionalPart_den m (lay_N u' s') (lay_j s') p (hasFlag c ALTERNATE) Dm L0 ltac:(lia)) as (w & Ew & Dw); [rewrite int_max_val; lia|].
  rewrite Ew. cbn [bind]. rewrite F7 in Dw. change (hasFlag c ALTERNATE) with (q_alt (q_of c)) in Dw. apply signAndJustify_den; [exact Hc|exact Dw|]. rewrite int_max_val. lia.
Qed.

Lemma laid_e c v neg a s : rt_ok c -> 0 <= a -> ndigits a <= 10000 -> - 2147483648 <= s <= 2147483647 -> (a = 0 -> s = 0) ->
  int_min <= rscale a s (prec_or 6 (q_of c) + 1) -> f_isNaN v = false -> f_isInf v = false -> f_isNegative v = neg ->
  f_scientific v (prec_or 6 (q_of c)) = bd_scientific' (mkBD a s) (prec_or 6 (q_of c)) ->
  exists w, fmt_e' c v = Ok w /\ den w (c_e (q_of c) neg a (- s)).
Proof.
  intros Hc Ha N9 Hs Hz Hf T1 T2 Tn El. unfold fmt_e', fmt_e. rewrite T1, T2, Tn. cbn [orb].
  destruct (precOr6_spec c Hc) as [Ep Hp]. rewrite Ep, El. unfold c_e, e_body. cbv zeta. set (p := prec_or 6 (q_of c)) in *.
  pose proof (ndigits_pos a Ha) as N1. unfold bd_scientific'. rewrite precision_ndigits by exact Ha. cbn [bd_u bd_s]. rewrite (wrap32_small (p + 1)) by lia.
  replace (if ndigits a - 1 <? p then ndigits a else p + 1) with (Z.min (ndigits a) (p + 1)) by (destruct (ndigits a - 1 <? p) eqn:E; bools; lia).
  rewrite bd_new_mc_exact by (try assumption; unfold int_min, int_max; lia). rewrite rdig_min, rscale_min by lia.
  destruct (round_facts a s (p + 1) Ha ltac:(lia) Hz) as (F1 & F2 & _ & _ & F5). rewrite F5. set (k := Z.min (ndigits a) (p + 1)) in *.
  assert (Hk : 1 <= k <= 65537) by (unfold k; lia). rewrite (proj2 (Z.leb_le _ _) Hf). cbn [bind]. assert (F4 : - 2147483648 <= rscale a s (p + 1) <= 2147483647) by (pose proof (rscale_upper a s (p + 1)); unfold int_min in Hf; lia).
    destruct (scientificLayout0'_spec (rdig a (p + 1)) (rscale a s (p + 1)) F1 ltac:(lia) F4) as (m & x & xs & Em & (Dm & _) & Dx & Zx & Exs).
    rewrite Em. cbn [bind l_mant l_exp nonNull]. rewrite F2 in *. pose proof (mant_len _ _ F1 F2 ltac:(lia)) as Zm.
    destruct (fractionalPart_den m (rdig a (p + 1)) (k - 1) p (hasFlag c ALTERNATE) Dm F1 ltac:(unfold k; lia)) as (w & Ew & Dw); [rewrite int_max_val; lia|].
    rewrite Ew. cbn [bind]. change (hasFlag c ALTERNATE) with (q_alt (q_of c)) in Dw. replace (p - (k - 1)) with (p + 1 - k) in Dw by lia.
    assert (Z1 : zlen (with_alt (q_alt (q_of c)) (rdig a (p + 1) * 10 ^ (p + 1 - k)) p) <= 200000 + p + 1).
    { pose proof (zlen_with_alt (q_alt (q_of c)) (rdig a (p + 1) * 10 ^ (p + 1 - k)) p ltac:(lia)) as Z1.
      replace (10 ^ p) with (10 ^ (k - 1 + (p + 1 - k))) in Z1 by (f_equal; lia). rewrite div_shift in Z1 by (unfold k; lia). rewrite zlen_decimal_text in Zm by lia. destruct (k - 1 =? 0) eqn:Ek; bools; lia. }
    fold (with_alt (q_alt (q_of c)) (rdig a (p + 1) * 10 ^ (p + 1 - k)) p).
    apply signAndJustify_den; [exact Hc|apply (append_exp_den _ _ _ xs); try assumption; lia|]. rewrite <- Exs, zlen_app, zlen_cons, int_max_val. lia.
Qed.

Lemma laid_g c v neg a s : rt_ok c -> 0 <= a -> ndigits a <= 10000 -> - 2147483648 <= s <= 2147483647 -> (a = 0 -> s = 0) ->
  int_min <= rscale a s (g_prec (q_of c)) -> f_isNaN v = false -> f_isInf v = false -> f_isNegative v = neg ->
  f_general v (g_prec (q_of c)) = bd_general' (mkBD a s) (g_prec (q_of c)) ->
  exists w, fmt_g' c v = Ok w /\ den w (c_g (q_of c) neg a (- s)).
Proof.
  intros Hc Ha N9 Hs Hz Hf T1 T2 Tn El. unfold fmt_g'. rewrite T1, T2, Tn. cbn [orb]. cbv zeta.
  destruct (g_prec_spec c Hc) as [Ep Hp]. rewrite Ep, El. unfold c_g, g_body. cbv zeta. set (P := g_prec (q_of c)) in *.
  pose proof (ndigits_pos a Ha) as N1. unfold bd_general'. cbn [bd_u bd_s]. rewrite bd_new_mc_exact by (try assumption; unfold int_min, int_max; lia).
  destruct (round_facts a s P Ha ltac:(lia) Hz) as (F1 & F2 & F3 & F3' & F5). rewrite F5. set (k := Z.min (ndigits a) P) in *.
  assert (Hk : 1 <= k <= P) by (unfold k; lia). rewrite (proj2 (Z.leb_le _ _) Hf). cbn [bind bd_u bd_s]. rewrite dec_text_pos, zlen_numeral by exact F1. fold (ndigits (rdig a P)). rewrite F2.
    assert (F4 : - 2147483648 <= rscale a s P <= 2147483647) by (pose proof (rscale_upper a s P); unfold int_min in Hf; lia).
    set (X := k - 1 - rscale a s P) in *. destruct (Z.eq_dec a 0) as [A0|A0].
    { assert (R0 : rscale a s P = 0) by (rewrite A0, (Hz A0); unfold rscale; change (ndigits 0) with 1; replace (1 <=? P) with true by (symmetry; apply Z.leb_le; lia); reflexivity).
      assert (K1 : k = 1) by (unfold k; rewrite A0; change (ndigits 0) with 1; lia). rewrite (F3' A0), R0 in *. replace X with 0 by (unfold X; lia).
      change (-4 <=? 0) with true. replace (0 <? P) with true by (symmetry; apply Z.ltb_lt; lia). cbn [andb]. change (decimalLayout0 (mkBD 0 0)) with (Ok (mkLayout (wrapS (txt "0")) None)).
      cbn [bind l_exp l_mant]. assert (D0 : den (wrapS (txt "0")) [ch "0"]) by (apply wrapS_den; rewrite int_max_val; vm_compute; discriminate).
      destruct (formatG'_zero c _ P D0 ltac:(lia)) as (w & Ew & Dw & Zw). rewrite Ew. cbn [bind]. rewrite Z.mul_0_l, Z.sub_0_r. apply signAndJustify_den; [exact Hc|exact Dw|]. rewrite int_max_val. lia. }
    specialize (F3 ltac:(lia)). destruct ((-4 <=? X) && (X <? P)) eqn:ES.
    + apply andb_prop in ES as [ES1 ES2]. bools. set (s' := rscale a s P) in *. set (u' := rdig a P) in *.
      assert (LN : 0 < lay_N u' s') by (unfold lay_N; pose proof (pow10_gt0 (- s')); nia). assert (J0 : 0 <= lay_j s') by (unfold lay_j; lia).
      assert (En : ndigits (lay_N u' s') = k + Z.max 0 (- s')) by (unfold lay_N; rewrite ndigits_shift by lia; lia).
      assert (Zt : zlen (decimal_text (lay_N u' s') (lay_j s')) <= 200000).
      { rewrite zlen_decimal_text by lia. assert (lay_j s' <= P + 3) by (unfold lay_j, X in *; lia).
        assert (zlen (numeral 10 (lay_N u' s' / 10 ^ lay_j s')) <= P); [|destruct (lay_j s' =? 0); lia]. apply zlen_numeral_lt; [lia|]. pose proof (pow10_pos (lay_j s') J0).
        split; [apply Z.div_pos; lia|]. apply Z.le_lt_trans with (lay_N u' s'); [apply Z.div_le_upper_bound; nia|].
        destruct (ndigits_bounds _ LN) as (_ & _ & B). assert (10 ^ ndigits (lay_N u' s') <= 10 ^ P) by (apply Z.pow_le_mono_r; unfold X in *; lia). lia. }
      destruct (decimalLayout0_spec u' s' F1 ltac:(lia) ltac:(unfold int_min, int_max; lia) (or_introl F3) ltac:(rewrite int_max_val; lia)) as (m & Em & Dm & _).
      rewrite Em. cbn [bind l_exp l_mant]. destruct (formatG'_den c m _ _ P Dm LN J0 ltac:(lia) ltac:(unfold X in *; lia) ltac:(lia)) as (w & Ew & Dw & Zw). rewrite Ew. cbn [bind].
      assert (E1 : lay_N u' s' * 10 ^ (P - ndigits (lay_N u' s')) = u' * 10 ^ (P - k)).
      { rewrite En. unfold lay_N. rewrite <- Z.mul_assoc, <- Z.pow_add_r by (unfold X in *; lia). do 2 f_equal. lia. }
      assert (E2 : lay_j s' + (P - ndigits (lay_N u' s')) = P - 1 - X) by (rewrite En; unfold lay_j, X; lia).
      rewrite E1, E2 in *. apply signAndJustify_den; [exact Hc|exact Dw|]. rewrite int_max_val. lia.
    + clear ES. destruct (scientificLayout0'_spec (rdig a P) (rscale a s P) F1 ltac:(lia) F4) as (m & x & xs & Em & (Dm & _) & Dx & Zx & Exs).
      rewrite Em. cbn [bind l_mant l_exp]. rewrite F2 in *. pose proof (mant_len _ _ F1 F2 ltac:(lia)) as Zm.
      destruct (formatG'_den c m _ _ P Dm F3 ltac:(lia) ltac:(lia) ltac:(lia) ltac:(lia)) as (w & Ew & Dw & Zw). rewrite Ew. cbn [bind]. rewrite F2 in *.
      replace (k - 1 + (P - k)) with (P - 1) in * by lia.
      apply signAndJustify_den; [exact Hc|apply (append_exp_den _ _ _ xs); try assumption; lia|]. rewrite zlen_app. unfold X. rewrite <- Exs, zlen_cons, int_max_val. lia.
Qed.

(** ** %f, %e and %g *)

Lemma exact_tests b : finite b -> f_isNaN (exactForm b) = false /\ f_isInf (exactForm b) = false /\ f_isNegative (exactForm b) = (b <? 0).
Proof.
  intros H. destruct (finite_tests b H) as (T1 & T2 & _). cbn [exactForm f_isNaN f_isInf]. unfold f_isNegative. cbn [exactForm f_signum]. rewrite (finite_sign b H). auto.
Qed.
Lemma digits_1000 u : 0 <= u < 10 ^ 1000 -> ndigits u <= 1000.
Proof. intros [H1 H2]. unfold ndigits. apply digits_len_le; try lia. Qed.
Lemma digits_some u n : 0 <= u < 10 ^ n -> 1 <= n -> ndigits u <= n.
Proof. intros [H1 H2] Hn. unfold ndigits. apply digits_len_le; try lia. Qed.
Lemma ten_1001 : 10 * 10 ^ 1000 = 10 ^ 1001.
Proof. vm_compute. reflexivity. Qed.

Lemma exact_f c b N : rt_ok c -> finite b -> even_at (dval (magnitude b)) (prec_or 6 (q_of c)) N ->
  exists w, fmt_fC c (exactForm b) = Ok w /\ den w (finite_text (q_of c) (b <? 0) (pointed (q_of c) N (prec_or 6 (q_of c)))).
Proof.
  intros Hc Hf HN. destruct (exact_tests b Hf) as (T1 & T2 & T3). unfold fmt_fC. rewrite T1, T2. cbn [orb]. pose proof (mag_range b) as Rm. change (dbl_mag b < inf_bits) in Hf.
  destruct (precOr6_spec c Hc) as [_ Hp]. set (p := prec_or 6 (q_of c)) in *. destruct (bd_ofDouble (dbl_mag b)) as [u s] eqn:E.
  destruct (ofDouble_exact (dbl_mag b) u s ltac:(lia) E) as (V & U & Hs & Z0). destruct (bd_scaleEven (mkBD u s) p) as [u' s'] eqn:E'.
  destruct (scaleEven_at u s p u' s' ltac:(lia) ltac:(lia) ltac:(lia) E') as (A & U' & S' & _).
  assert (EN : hup u' (s' - p) = N) by (apply (even_unique (dval (dbl_mag b)) p); [apply (even_eq _ _ _ _ V A)|exact HN]).
  assert (N' : ndigits u' <= 1001) by (apply digits_some; [rewrite <- ten_1001; lia|lia]).
  assert (Et : c_f (q_of c) (b <? 0) u' (- s') = finite_text (q_of c) (b <? 0) (pointed (q_of c) N p)).
  { unfold c_f, f_body, pointed. cbv zeta. fold p. replace (- (- s' + p)) with (s' - p) by lia. rewrite EN. reflexivity. }
  rewrite <- Et. apply laid_f; try assumption; try lia.
  - cbn [exactForm f_decimal]. cbv zeta. fold p. rewrite E, E'. reflexivity.
  - destruct (rt_bounds c Hc) as [W P]. unfold c_f. rewrite zlen_finite_text. pose proof (zlen_sign_text (q_of c) (b <? 0)).
    pose proof (with_alt_short (q_alt (q_of c)) u' (- (- s' + p)) p ltac:(lia) ltac:(lia)) as L.
    change (zlen (f_body (q_of c) u' (- s'))) with (zlen (with_alt (q_alt (q_of c)) (hup u' (- (- s' + p))) p)). rewrite int_max_val. lia.
Qed.

Lemma rscale_lower u s P : ndigits u <= P -> rscale u s P = s.
Proof. intros H. unfold rscale. rewrite (proj2 (Z.leb_le _ _) H). reflexivity. Qed.

(** the digits kept are C's *)
Lemma exact_digits b P u' s' S X : finite b -> 1 <= P -> bd_roundEven (bd_ofDouble (dbl_mag b)) P = mkBD u' s' -> c_digits (dval (magnitude b)) P S X ->
  sig0 u' (- s') P = (S, X) /\ 0 <= u' /\ ndigits u' <= 1001 /\ - 1001 <= s' <= 1075 /\ (u' = 0 -> s' = 0) /\ rscale u' s' P = s'.
Proof.
  intros Hf HP E C. pose proof (mag_range b) as Rm. change (dbl_mag b < inf_bits) in Hf. change (magnitude b) with (dbl_mag b) in C. destruct (bd_ofDouble (dbl_mag b)) as [u s] eqn:Eu.
  destruct (ofDouble_exact (dbl_mag b) u s ltac:(lia) Eu) as (V & U & Hs & Z0). destruct (Z.eq_dec u 0) as [->|Nu].
  - destruct (Z0 eq_refl) as [M0 ->]. unfold bd_roundEven in E. assert (E1 : bd_roundEven1 (mkBD 0 0) P = mkBD 0 0).
    { unfold bd_roundEven1. change (bd_precision (mkBD 0 0)) with 1. rewrite (proj2 (Z.leb_le 1 P) HP). reflexivity. }
    rewrite !E1 in E. injection E as <- <-. destruct C as [(_ & -> & ->)|C].
    + split; [reflexivity|]. change (ndigits 0) with 1. repeat split; try lia. apply rscale_lower. exact HP.
    + apply sig_even_pos in C. rewrite <- V in C. exfalso. revert C. unfold dec. rewrite Qmult_0_l. apply Qlt_irrefl.
  - destruct (FloatSpec.sig u' (- s') P) as [S0 X0] eqn:ES. pose proof (digits_1000 u U) as N1. destruct (roundEven_sig u s P u' s' S0 X0 ltac:(lia) HP E ES) as (A & U' & Nd & S').
    assert (Vp : (0 < dval (dbl_mag b))%Q) by (rewrite <- V; apply (sig_even_pos _ _ _ _ A)).
    assert (A' : sig_even (dval (dbl_mag b)) P S0 X0).
    { destruct A as (Y & N & D & R & T). exists Y, N. split; [destruct D; split; rewrite <- V; assumption|]. split; [apply (even_eq _ _ _ _ V R)|exact T]. }
    destruct C as [(C & _)|C]; [exfalso; rewrite C in Vp; apply (Qlt_irrefl _ Vp)|].
    destruct (sig_even_unique _ P _ _ _ _ HP A' C) as [-> ->].
    split; [unfold sig0; replace (u' =? 0) with false by (symmetry; apply Z.eqb_neq; lia); exact ES|]. split; [lia|].
    split; [apply digits_some; [rewrite <- ten_1001; lia|lia]|]. split; [lia|]. split; [lia|]. apply rscale_lower. exact Nd.
Qed.

Lemma exact_e c b S X : rt_ok c -> finite b -> c_digits (dval (magnitude b)) (prec_or 6 (q_of c) + 1) S X ->
  exists w, fmt_eC c (exactForm b) = Ok w /\ den w (finite_text (q_of c) (b <? 0) (pointed (q_of c) S (prec_or 6 (q_of c)) ++ exp_text X)).
Proof.
  intros Hc Hf HN. destruct (exact_tests b Hf) as (T1 & T2 & T3). unfold fmt_eC. rewrite T1, T2. cbn [orb].
  destruct (precOr6_spec c Hc) as [_ Hp]. set (p := prec_or 6 (q_of c)) in *. destruct (bd_roundEven (bd_ofDouble (dbl_mag b)) (p + 1)) as [u' s'] eqn:E.
  destruct (exact_digits b (p + 1) u' s' S X Hf ltac:(lia) E HN) as (A & U & N1 & S1 & Hz & R).
  assert (Et : c_e (q_of c) (b <? 0) u' (- s') = finite_text (q_of c) (b <? 0) (pointed (q_of c) S p ++ exp_text X)).
  { unfold c_e, e_body, pointed. cbv zeta. fold p. rewrite A. reflexivity. }
  rewrite <- Et. apply laid_e; try assumption; try lia.
  - fold p. rewrite R. unfold int_min. lia.
  - cbn [exactForm f_scientific]. cbv zeta. fold p. rewrite wrap32_small by lia. rewrite E. reflexivity.
Qed.

Lemma exact_g c b S X : rt_ok c -> finite b -> c_digits (dval (magnitude b)) (g_prec (q_of c)) S X ->
  exists w, fmt_gC c (exactForm b) = Ok w /\ den w (finite_text (q_of c) (b <? 0)
    (if (-4 <=? X) && (X <? g_prec (q_of c)) then g_text (q_of c) S (g_prec (q_of c) - 1 - X) else g_text (q_of c) S (g_prec (q_of c) - 1) ++ exp_text X)).
Proof.
  intros Hc Hf HN. destruct (exact_tests b Hf) as (T1 & T2 & T3). unfold fmt_gC. rewrite T1, T2. cbn [orb].
  destruct (g_prec_spec c Hc) as [_ Hp]. set (P := g_prec (q_of c)) in *. destruct (bd_roundEven (bd_ofDouble (dbl_mag b)) P) as [u' s'] eqn:E.
  destruct (exact_digits b P u' s' S X Hf ltac:(lia) E HN) as (A & U & N1 & S1 & Hz & R).
  assert (Et : c_g (q_of c) (b <? 0) u' (- s') = finite_text (q_of c) (b <? 0)
    (if (-4 <=? X) && (X <? P) then g_text (q_of c) S (P - 1 - X) else g_text (q_of c) S (P - 1) ++ exp_text X)).
  { unfold c_g, g_body. cbv zeta. fold P. rewrite A. reflexivity. }
  rewrite <- Et. apply laid_g; try assumption; try lia.
  - fold P. rewrite R. unfold int_min. lia.
  - cbn [exactForm f_general]. cbv zeta. fold P. rewrite E. reflexivity.
Qed.

(** ** %a *)

Lemma aC_same c b : finite b -> q_prec (q_of c) <> Some 0 -> rt_ok c -> fmt_aC c (exactForm b) = fmt_a c (doubleForm b).
Proof.
  intros Hf Hq Hc. destruct (finite_tests b Hf) as (T1 & T2 & _). unfold fmt_aC, fmt_a. cbn [exactForm doubleForm f_isNaN f_isInf f_hex f_signum]. rewrite T1, T2. cbn [orb].
  destruct (prec_cases c Hc) as [(-> & _ & Q)|(-> & B & Q)]; [reflexivity|].
  assert (c_prec c <> 0) by (intros E; apply Hq; rewrite Q, E; reflexivity). replace (c_prec c =? 0) with false by (symmetry; apply Z.eqb_neq; assumption). reflexivity.
Qed.
Lemma exact_a c b : rt_ok c -> - 2 ^ 63 <= b < 2 ^ 63 -> finite b -> q_prec (q_of c) <> Some 0 ->
  exists u, fmt_aC c (exactForm b) = Ok u /\ den u (j_a (q_of c) (b <? 0) (magnitude b)).
Proof. intros Hc Hb Hf Hq. rewrite aC_same by assumption. apply HexP.fmt_a_double; assumption. Qed.

(** the first digit, rounded to even *)
Lemma first_digit b M : finite b -> hex_even (dval (magnitude b)) 0 M (snd (bin_parts (magnitude b))) ->
  M = (if dbl_bexp b =? 0 then (if 2 ^ 51 <? dbl_frac b then 1 else 0) else (if 2 ^ 51 <=? dbl_frac b then 2 else 1)) /\
  snd (bin_parts (magnitude b)) = (if dbl_isZero b then 0 else if dbl_bexp b =? 0 then -1022 else dbl_getExponent b).
Proof.
  intros Hf H. assert (Ef : dbl_frac b = dbl_mag b mod 2 ^ 52) by (apply (eq_sym (CastP.frac_mag b))). rewrite Ef.
  unfold dbl_getExponent, dbl_bexp, dbl_isZero. change (magnitude b) with (dbl_mag b) in *. pose proof (mag_range b) as R. change (dbl_mag b < inf_bits) in Hf.
  set (m := dbl_mag b) in *. clearbody m. clear Ef. destruct (bin_parts m) as [c x] eqn:Eb. cbn [snd] in *. pose proof (FloatQ.bin_parts_value m c x ltac:(lia) Eb) as V.
  pose proof (Z.mod_pos_bound m (2 ^ 52) ltac:(lia)) as B. pose proof (Z.div_mod m (2 ^ 52) ltac:(lia)) as D. split.
  - assert (W : (dval m * 16 ^ 0 * 2 ^ (- x) * inject_Z (2 ^ 52) == inject_Z c)%Q).
    { change (16 ^ 0)%Q with 1%Q. setoid_replace (inject_Z (2 ^ 52)) with (16 ^ 13)%Q by reflexivity.
      setoid_replace (dval m * 1 * 2 ^ (- x) * 16 ^ 13)%Q with (dval m * 16 ^ 13 * 2 ^ (- x))%Q by ring. rewrite V. rewrite <- Qmult_assoc, <- CastP.two_add.
      replace (x + - x) with 0 by lia. change (2 ^ 0)%Q with 1%Q. ring. }
    destruct H as [[H1 H2] H3]. set (y := (dval m * 16 ^ 0 * 2 ^ (- x))%Q) in *. clearbody y. clear V.
    assert (T : forall z, (z * inject_Z (2 ^ 52) == inject_Z c -> (y == z)%Q)%Q).
    { intros z E. apply (Qmult_inj_r _ _ (inject_Z (2 ^ 52))); [discriminate|]. rewrite W, E. reflexivity. }
    assert (L1 : (2 * M - 1) * 2 ^ 52 <= 2 * c).
    { rewrite Zle_Qle. unfold Z.sub. rewrite !inject_Z_mult, inject_Z_plus, !inject_Z_mult, <- W. change (inject_Z 2) with 2%Q. change (inject_Z (- (1))) with (- (1))%Q.
      set (K := inject_Z (2 ^ 52)) in *. assert (0 < K)%Q by reflexivity. nra. }
    assert (L2 : 2 * c <= (2 * M + 1) * 2 ^ 52).
    { rewrite Zle_Qle. rewrite !inject_Z_mult, inject_Z_plus, !inject_Z_mult, <- W. change (inject_Z 2) with 2%Q. change (inject_Z 1) with 1%Q.
      set (K := inject_Z (2 ^ 52)) in *. assert (0 < K)%Q by reflexivity. nra. }
    assert (Od : c = M * 2 ^ 52 - 2 ^ 51 \/ c = M * 2 ^ 52 + 2 ^ 51 -> Z.even M = true).
    { intros [E|E]; apply H3; [left|right]; apply T; rewrite E.
      - unfold Z.sub. rewrite inject_Z_plus, inject_Z_mult. setoid_replace (inject_Z (- 2 ^ 51)) with (- ((1 # 2) * inject_Z (2 ^ 52)))%Q by reflexivity. ring.
      - rewrite inject_Z_plus, inject_Z_mult. setoid_replace (inject_Z (2 ^ 51)) with ((1 # 2) * inject_Z (2 ^ 52))%Q by reflexivity. ring. }
    clear H1 H2 H3 T W. unfold bin_parts in Eb. destruct (Z.eqb_spec (m / 2 ^ 52) 0) as [E0|E0]; apply HexP.pair_eq in Eb as [<- <-].
    + assert (m mod 2 ^ 52 = m) as -> by lia. destruct (Z.ltb_spec (2 ^ 51) m).
      * assert (M = 1 \/ M = 2) as [-> | ->] by lia; lia.
      * assert (M = 0 \/ M = 1) as [-> | ->] by lia; [reflexivity|]. exfalso. assert (O : Z.even 1 = true) by (apply Od; lia). discriminate.
    + destruct (Z.leb_spec (2 ^ 51) (m mod 2 ^ 52)).
      * assert (M = 1 \/ M = 2) as [-> | ->] by lia; [|reflexivity]. exfalso. assert (O : Z.even 1 = true) by (apply Od; lia). discriminate.
      * lia.
  - unfold bin_parts in Eb. destruct (Z.eqb_spec (m / 2 ^ 52) 0) as [E0|E0]; apply HexP.pair_eq in Eb as [<- <-].
    + destruct (m =? 0); reflexivity.
    + destruct (Z.eqb_spec m 0) as [->|_]; [exfalso; apply E0; reflexivity|reflexivity].
Qed.

Lemma no_dot d : den (chS d) [d] -> d <> ch "." -> s_indexOf (chS d) (ch ".") = Ok (-1).
Proof.
  intros D N. rewrite (s_indexOf_wden _ _ _ (den_wden _ _ D) (den_max _ _ D)). f_equal. cbn [index_of]. replace (d =? ch ".") with false by (symmetry; apply Z.eqb_neq; exact N). reflexivity.
Qed.

Lemma exact_a0 c b M : rt_ok c -> finite b -> q_prec (q_of c) = Some 0 -> hex_even (dval (magnitude b)) 0 M (snd (bin_parts (magnitude b))) ->
  exists u, fmt_aC c (exactForm b) = Ok u /\
    den u (hex_finite (q_of c) (b <? 0) (hex_pointed (q_of c) M 0 ++ bin_exp_text (snd (bin_parts (magnitude b))))).
Proof.
  intros Hc Hf Hq H. destruct (first_digit b M Hf H) as [EM EX]. destruct (finite_tests b Hf) as (T1 & T2 & _). unfold fmt_aC. cbn [exactForm f_isNaN f_isInf f_hex f_signum]. rewrite T1, T2. cbn [orb].
  destruct (prec_cases c Hc) as [(_ & _ & Q)|(-> & B & Q)]; [congruence|]. rewrite Hq in Q. injection Q as Q. rewrite <- Q. cbn [Z.eqb]. cbv zeta. unfold dbl_hex0. cbv zeta. rewrite <- EM, <- EX.
  cbn [bind l_mant l_exp nonNull]. rewrite finite_sign by exact Hf. pose proof (mag_range b) as Rm. change (dbl_mag b < inf_bits) in Hf. change (magnitude b) with (dbl_mag b) in *.
  destruct (bin_parts (dbl_mag b)) as [cc x] eqn:Eb. cbn [snd] in *. destruct (HexP.bin_parts_range (dbl_mag b) cc x ltac:(lia) Eb) as (_ & Rx & _).
  destruct (HexP.addPlus_den x ltac:(lia)) as (xs & -> & Dx & Lx).
  assert (HM : 0 <= M <= 2) by (rewrite EM; destruct (dbl_bexp b =? 0); [destruct (2 ^ 51 <? dbl_frac b)|destruct (2 ^ 51 <=? dbl_frac b)]; lia). clear EM EX H.
  assert (P : exists v0, formatFractionalPart (chS (ch "0" + M)) 0 (hasFlag c ALTERNATE) = Ok v0 /\ den v0 (hex_pointed (q_of c) M 0) /\ zlen (hex_pointed (q_of c) M 0) <= 2).
  { unfold formatFractionalPart. pose proof (chS_den (ch "0" + M)) as D0. change (ch "0") with 48 in *. rewrite no_dot by (try exact D0; change (ch ".") with 46; lia). cbn [bind]. change ((0 =? 0) && (-1 =? NOT_FOUND)) with true. cbv iota.
    assert (En : hex_pointed (q_of c) M 0 = [48 + M] ++ (if q_alt (q_of c) then txt "." else [])).
    { unfold hex_pointed. change (16 ^ 0) with 1. rewrite Z.div_1_r. change (0 <? 0) with false. cbn [orb]. change (hex_fraction 0 M) with (@nil Z). rewrite app_nil_r. f_equal.
      assert (M = 0 \/ M = 1 \/ M = 2) as [-> |[-> | ->]] by lia; reflexivity. }
    rewrite En. change (hasFlag c ALTERNATE) with (q_alt (q_of c)). destruct (q_alt (q_of c)).
    - eexists. split; [reflexivity|]. split; [|vm_compute; discriminate]. apply s_append_den; [exact D0|apply chS_den|vm_compute; discriminate].
    - eexists. split; [reflexivity|]. rewrite app_nil_r. split; [exact D0|vm_compute; discriminate]. }
  destruct P as (v0 & -> & D & L). cbn [bind]. unfold hex_finite. apply HexP.fmt_a_tail; [exact Hc| |].
  - apply HexP.bin_exp_append; [exact D|lia|exact Dx|exact Lx].
  - rewrite zlen_app. lia.
Qed.

(** ** Infinities and NaN *)

Lemma word_den c neg w : rt_ok c -> zlen w <= 1000 -> exists u, spaceJustify c (sign c (wrapS w) neg) = Ok u /\ den u (justify (q_of c) (sign_text (q_of c) neg ++ w)).
Proof.
  intros Hc Hw. apply spaceJustify_den; [exact Hc|]. apply sign_den; [apply wrapS_den; rewrite int_max_val; lia|]. rewrite int_max_val. lia.
Qed.

Definition float_convC (c : ctx) (s : spec) : option (floatform -> res seq) :=
  match s with
  | Sf | SF => Some (fmt_fC c)
  | Se | SE => Some (fmt_eC c)
  | Sg | SG => Some (fmt_gC c)
  | Sa | SA => Some (fmt_aC c)
  | _ => None
  end.

Lemma exact_special c s F b : float_convC c s = Some F -> rt_ok c -> inf_bits <= magnitude b ->
  exists u, F (exactForm b) = Ok u /\
    den u (justify (q_of c) (if magnitude b =? inf_bits then sign_text (q_of c) (b <? 0) ++ txt "inf" else sign_text (q_of c) false ++ txt "nan")).
Proof.
  intros EF Hc Hb. destruct (double_class b) as [E1 E2].
  assert (E : F (exactForm b) = nanOrInfinityC c (exactForm b)).
  { assert (E : f_isNaN (exactForm b) || f_isInf (exactForm b) = true).
    { cbn [exactForm f_isNaN f_isInf]. rewrite E1, E2. destruct (Z.ltb_spec inf_bits (magnitude b)); [reflexivity|]. apply Z.eqb_eq. lia. }
    destruct s; try discriminate; injection EF as <-; unfold fmt_fC, fmt_eC, fmt_gC, fmt_aC; rewrite E; reflexivity. }
  rewrite E. unfold nanOrInfinityC. cbn [exactForm f_isNaN f_signum]. rewrite E1. destruct (Z.ltb_spec inf_bits (magnitude b)) as [L|L].
  - replace (magnitude b =? inf_bits) with false by (symmetry; apply Z.eqb_neq; lia). apply (word_den c false (txt "nan")); [exact Hc|vm_compute; discriminate].
  - assert (M : magnitude b = inf_bits) by lia. rewrite M, Z.eqb_refl.
    assert (Sg : (dbl_compare0 b <? 0) = (b <? 0)).
    { unfold dbl_compare0, dbl_neg. rewrite E1. replace (inf_bits <? magnitude b) with false by (symmetry; apply Z.ltb_ge; lia). destruct (dbl_isZero b), (b <? 0); reflexivity. }
    rewrite Sg. apply (word_den c (b <? 0) (txt "inf")); [exact Hc|vm_compute; discriminate].
Qed.
