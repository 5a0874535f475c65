(** %g of BigDecimal and BigInteger arguments. *)
From Verif Require Import Base Digits SeqM SeqSpec SeqP ContextM FormatterM DecimalM FPDecimalM DoubleM BigDecM DecSpec FmtSpec FmtP FmtP2 FloatSpec BigSpec FPDecP FloatP DoubleP AnnP BigDecP.
Open Scope Z_scope.

(** comparison with a power of ten *)
Lemma compare_pow a s t : 0 < a -> (match bd_compare (mkBD a s) (mkBD 1 t) with Lt => true | _ => false end) = (ndigits a - 1 - s <? - t).
Proof.
  intros Ha. destruct (ndigits_bounds a Ha) as (N1 & B1 & B2). unfold bd_compare. cbn [bd_u bd_s]. set (m := Z.max s t). rewrite Z.mul_1_l.
  assert (P : 0 < 10 ^ (m - s)) by (apply pow10_pos; lia).
  destruct (ndigits a - 1 - s <? - t) eqn:E; bools.
  - assert (H : a * 10 ^ (m - s) < 10 ^ (m - t)); [|rewrite (proj2 (Z.compare_lt_iff _ _) H); reflexivity].
    apply Z.lt_le_trans with (10 ^ ndigits a * 10 ^ (m - s)); [nia|]. rewrite <- Z.pow_add_r by lia. apply Z.pow_le_mono_r; lia.
  - assert (H : 10 ^ (m - t) <= a * 10 ^ (m - s)).
    { apply Z.le_trans with (10 ^ (ndigits a - 1) * 10 ^ (m - s)); [|nia]. rewrite <- Z.pow_add_r by lia. apply Z.pow_le_mono_r; lia. }
    destruct (Z.compare_spec (a * 10 ^ (m - s)) (10 ^ (m - t))); [reflexivity|lia|reflexivity].
Qed.

Lemma compare_zero s t : bd_compare (mkBD 0 s) (mkBD 1 t) = Lt.
Proof.
  unfold bd_compare. cbn [bd_u bd_s]. rewrite Z.mul_0_l, Z.mul_1_l. apply Z.compare_lt_iff, pow10_pos. lia.
Qed.

(** how %g picks the style *)
Lemma style_spec a s P : 0 <= a ->
  ((a =? 0) && (s =? 0)) || (match bd_compare (mkBD a s) (mkBD 1 4) with Lt => false | _ => true end) && (match bd_compare (mkBD a s) (mkBD 1 (- P)) with Lt => true | _ => false end)
  = bg_positional a (- s) P.
Proof.
  intros Ha. unfold bg_positional. destruct (a =? 0) eqn:E; bools.
  - subst a. rewrite !compare_zero. cbn [andb orb]. rewrite orb_false_r. destruct (Z.eqb_spec s 0), (Z.eqb_spec (- s) 0); try reflexivity; lia.
  - cbn [andb orb]. rewrite compare_pow by lia. rewrite Z.opp_involutive. replace (ndigits a - 1 - s) with (ndigits a + - s - 1) by lia. f_equal.
    pose proof (compare_pow a s 4 ltac:(lia)) as H. destruct (bd_compare (mkBD a s) (mkBD 1 4)); symmetry in H; bools; symmetry; try (apply Z.leb_le; lia); apply Z.leb_gt; lia.
Qed.

(** the number laid out in positional style *)
Lemma fixed_pair a s P : 1 <= P -> 0 <= P - ndigits a + s ->
  bg_fixed a (- s) P = let (u', s') := dec_pair a s (P - ndigits a + s) in (lay_N u' s', lay_j s').
Proof.
  intros HP Hp. unfold bg_fixed, dec_pair. cbv zeta. replace (- - s) with s by lia. replace (P - ndigits a - - s) with (P - ndigits a + s) by lia.
  assert (L : forall u p, 0 <= p -> (lay_N u p, lay_j p) = (u, p)).
  { intros u p H. unfold lay_N, lay_j. rewrite (Z.max_l 0 (- p)), (Z.max_r 0 p) by lia. f_equal. lia. }
  destruct (ndigits a <=? P) eqn:E; bools.
  - replace (s <=? P - ndigits a + s) with true by (symmetry; apply Z.leb_le; lia). reflexivity.
  - replace (s <=? P - ndigits a + s) with false by (symmetry; apply Z.leb_gt; lia). replace (s - (P - ndigits a + s)) with (ndigits a - P) by lia.
    replace (ndigits a - (ndigits a - P)) with P by lia. destruct (s <? ndigits a) eqn:E1; bools.
    + replace (ndigits a <=? s) with false by (symmetry; apply Z.leb_gt; lia). rewrite andb_true_r. destruct (hup a (ndigits a - P) =? 10 ^ P); [|symmetry; apply L; exact Hp].
      destruct (P - ndigits a + s =? 0) eqn:E2; bools; [|symmetry; apply L; lia]. rewrite E2. unfold lay_N, lay_j. cbn [Z.sub Z.opp Z.add Z.max Z.compare Pos.compare].
      f_equal. change (Z.max 0 (- (0 - 1))) with 1. rewrite <- Z.pow_add_r by lia. f_equal. lia.
    + replace (ndigits a <=? s) with true by (symmetry; apply Z.leb_le; lia). rewrite andb_false_r. symmetry. apply L. exact Hp.
Qed.

Lemma hup_at_most a P : 0 < a -> 1 <= P -> 0 < hup a (ndigits a - P) <= 10 ^ P.
Proof.
  intros Ha HP. destruct (ndigits_bounds a Ha) as (N1 & B1 & B2). pose proof (pow10_pos (P - 1) ltac:(lia)) as P1. destruct (Z_le_gt_dec (ndigits a) P) as [H|H].
  - unfold hup. replace (ndigits a - P <=? 0) with true by (symmetry; apply Z.leb_le; lia). pose proof (pow10_pos (- (ndigits a - P)) ltac:(lia)) as P2. split; [nia|].
    replace (10 ^ P) with (10 ^ ndigits a * 10 ^ (- (ndigits a - P))) by (rewrite <- Z.pow_add_r by lia; f_equal; lia). nia.
  - pose proof (hup_range a (ndigits a) (ndigits a - P) Ha eq_refl ltac:(lia) ltac:(lia)) as R. replace (ndigits a - (ndigits a - P)) with P in R by lia. lia.
Qed.

Lemma cut_loss_nonneg N j : 0 <= j -> 0 <= cut_loss N j.
Proof. intros Hj. unfold cut_loss. destruct (drop_zeros _ _) as [M r]. destruct (_ || _); [lia|]. destruct (j <? ndigits N) eqn:E; bools; lia. Qed.

Lemma positional_layout a s P : 0 < a -> ndigits a <= 646456993 -> - 2147483648 <= s <= 2147483647 -> 1 <= P <= 65536 ->
  -4 <= ndigits a - s - 1 < P ->
  let (N, j) := bg_fixed a (- s) P in
  exists m, bd_decimal (mkBD a s) (P - ndigits a + s) = Ok (mkLayout m None) /\ laid_out m N j /\ 0 < N /\ 0 <= j <= P + 3 /\ zlen (numeral 10 (N / 10 ^ j)) <= P + 1.
Proof.
  intros Ha Hn Hs HP HX. rewrite fixed_pair by lia. set (p := P - ndigits a + s). assert (Hp : 0 <= p <= P + 3) by (unfold p; lia).
  rewrite bd_decimal_pair by (unfold int_min, int_max; lia). pose proof (dec_pair_facts a s p ltac:(lia) ltac:(lia)) as F.
  assert (Es : s - p = ndigits a - P) by (unfold p; lia). rewrite Es in F. pose proof (hup_at_most a P Ha ltac:(lia)) as H.
  destruct (dec_pair a s p) as [u' s']. destruct F as (F1 & F2 & F3 & F4 & F5 & F6 & F7 & F8). pose proof (lay_N_nonneg u' s' F1) as L0.
  assert (J0 : 0 <= lay_j s') by (unfold lay_j; lia). pose proof (pow10_pos (p - lay_j s') ltac:(lia)) as Pj.
  assert (LN : 0 < lay_N u' s') by nia.
  assert (U0 : 0 < u'). { unfold lay_N in LN. pose proof (pow10_gt0 (- s')). nia. }
  assert (Zq : zlen (numeral 10 (lay_N u' s' / 10 ^ lay_j s')) <= P + 1).
  { rewrite (lay_integer_part u' s' p) by assumption. rewrite F7. pose proof (pow10_pos p ltac:(lia)) as Pp. apply zlen_numeral_lt; [lia|]. split; [apply Z.div_pos; lia|].
    apply Z.le_lt_trans with (hup a (ndigits a - P)); [apply Z.div_le_upper_bound; nia|]. apply Z.le_lt_trans with (10 ^ P); [lia|apply Z.pow_lt_mono_r; lia]. }
  assert (S2 : int_min <= s' <= int_max).
  { unfold int_min, int_max. destruct (Z_lt_ge_dec s 0) as [Sn|Sp]; [destruct (F4 Sn) as [_ ->]; lia|specialize (F3 ltac:(lia)); lia]. }
  destruct (decimalLayout0_spec u' s' F1 ltac:(lia) S2 ltac:(lia)) as (m & Em & _ & Lm).
  { rewrite zlen_decimal_text by lia. rewrite int_max_val. destruct (lay_j s' =? 0); lia. }
  exists m. split; [exact Em|]. split; [apply Lm; left; exact U0|]. split; [exact LN|]. split; [lia|exact Zq].
Qed.

Lemma exponent_layout a s P : 0 <= a -> ndigits a <= 715827883 -> - 2147483648 <= s <= 2147483647 -> last_exp a (- s) P <= 2147483648 -> 1 <= P <= 65536 ->
  let (D, X) := bg_sci a (- s) P in
  exists m x xs, bd_scientific (mkBD a s) (P - 1) = Ok (mkLayout m (Some x)) /\ laid_out m D (kept a P - 1) /\ den x xs /\ zlen xs <= 100 /\
    0 <= D /\ ndigits D = kept a P /\ 1 <= kept a P <= P /\
    ch "e" :: xs = (if a =? 0 then exp_text (- s) else big_exp_text a P X).
Proof.
  intros Ha Hn Hs Hl HP. pose proof (ndigits_pos a Ha) as N1. rewrite last_rscale in Hl by lia. rewrite bd_scientific_exact by (try assumption; lia). rewrite Z.sub_add.
  rewrite rdig_min, rscale_min by lia. replace (int_min <=? rscale a s P) with true by (symmetry; apply Z.leb_le; unfold int_min; lia).
  unfold bg_sci. assert (R : - 2147483648 <= rscale a s P <= 2147483647) by (pose proof (rscale_upper a s P); lia). unfold big_exp_text, kept. set (k := Z.min (ndigits a) P). assert (Hk : 1 <= k <= P) by (unfold k; lia).
  destruct (a =? 0) eqn:Ea; bools.
  - subst a. assert (E1 : rdig 0 P = 0) by (unfold rdig; change (ndigits 0) with 1; replace (1 <=? P) with true by (symmetry; apply Z.leb_le; lia); reflexivity).
    assert (E2 : rscale 0 s P = s) by (unfold rscale; change (ndigits 0) with 1; replace (1 <=? P) with true by (symmetry; apply Z.leb_le; lia); reflexivity).
    assert (Ek : k = 1) by (unfold k; change (ndigits 0) with 1; lia). rewrite E1, E2, Ek in *.
    destruct (scientificLayout0_spec 0 s ltac:(lia) Hn R) as (m & x & xs & Em & Lm & Dx & Zx & Exs). change (ndigits 0) with 1 in *.
    exists m, x, xs. rewrite Exs. rewrite andb_false_r. replace (1 - 1 - s) with (- s) by lia. repeat split; try assumption; try lia; apply Lm.
  - rewrite rdig_sig by lia. fold k. destruct (rdig_facts a P ltac:(lia) ltac:(lia)) as [F1 F2]. fold k in F2.
    rewrite Z.div_mul by (pose proof (pow10_pos (P - k)); lia).
    destruct (scientificLayout0_spec (rdig a P) (rscale a s P) ltac:(lia) ltac:(lia) R) as (m & x & xs & Em & Lm & Dx & Zx & Exs). rewrite F2 in *.
    exists m, x, xs. rewrite Exs.
    assert (Ex : (k - 1 - rscale a s P =? 9) && (k =? 10) = (rscale a s P =? 0) && (k =? 10)).
    { destruct (k =? 10) eqn:Ek; bools; [|rewrite !andb_false_r; reflexivity]. rewrite !andb_true_r. destruct (Z.eqb_spec (rscale a s P) 0), (Z.eqb_spec (k - 1 - rscale a s P) 9); try reflexivity; lia. }
    rewrite Ex. repeat split; try assumption; try lia; apply Lm.
Qed.

Lemma append_exp_adn s t a x xs y : adn s t a -> den x xs -> a <= 2000000000 -> zlen xs <= 1000 -> ch "e" :: xs = y ->
  adn (s_append (s_append s (chS (ch "e"))) x) (t ++ y) (a + zlen y).
Proof.
  intros Hd Dx Ht Hx <-. change (t ++ ch "e" :: xs) with (t ++ [ch "e"] ++ xs). rewrite app_assoc. rewrite zlen_cons, Z.add_assoc. change 1 with (zlen [ch "e"]).
  apply s_append_adn; [apply s_append_adn; [exact Hd|apply chS_den|rewrite zlen_one, int_max_val; lia]|exact Dx|rewrite zlen_one, int_max_val; lia].
Qed.

Lemma den_adn s t : den s t -> adn s t (zlen t).
Proof. intros H. constructor. exact H. Qed.

Lemma fmt_g_big_fails c u s : rt_ok c -> java_decimal u s -> bg_positional (Z.abs u) (- s) (g_prec (q_of c)) = false ->
  2147483648 < last_exp (Z.abs u) (- s) (g_prec (q_of c)) -> fmt_g c (bigDecForm (mkBD u s)) = Err (OtherExn 1).
Proof.
  intros Hc [Hj Hs] Hst Hl. unfold fmt_g. cbn [bigDecForm f_isNaN f_isInf f_general orb]. cbv zeta. destruct (g_prec_spec c Hc) as [Ep Hp]. rewrite Ep.
  unfold bd_abs. cbn [bd_u bd_s]. unfold bd_general. cbn [bd_u bd_s]. rewrite style_spec, Hst by lia. rewrite last_rscale in Hl by lia.
  rewrite bd_scientific_exact by (try assumption; lia). rewrite Z.sub_add. rewrite rdig_min, rscale_min by lia.
  replace (int_min <=? rscale (Z.abs u) s (g_prec (q_of c))) with false by (symmetry; apply Z.leb_gt; unfold int_min; lia). reflexivity.
Qed.

Lemma fmt_g_big_exact c u s : rt_ok c -> java_decimal u s ->
  bg_positional (Z.abs u) (- s) (g_prec (q_of c)) = true \/ last_exp (Z.abs u) (- s) (g_prec (q_of c)) <= 2147483648 ->
  exists w, fmt_g c (bigDecForm (mkBD u s)) = Ok w /\ wden w (b_g (q_of c) (u <? 0) (Z.abs u) (- s)).
Proof.
  intros Hc [Hj Hs] Hl. unfold fmt_g. cbn [bigDecForm f_isNaN f_isInf f_general orb]. unfold f_isNegative. cbn [bigDecForm f_signum bd_u]. rewrite big_sign.
  cbv zeta. destruct (g_prec_spec c Hc) as [Ep Hp]. rewrite Ep. unfold bd_abs. cbn [bd_u bd_s]. pose proof (ndigits_fits u Hj) as N9. pose proof (ndigits_tight u Hj) as N8.
  unfold b_g, bg_parts. cbv zeta. set (P := g_prec (q_of c)) in *. set (a := Z.abs u) in *. assert (Ha : 0 <= a) by (unfold a; lia). clearbody a. clear Hj.
  pose proof (ndigits_pos a Ha) as N1. unfold bd_general. cbn [bd_u bd_s]. rewrite style_spec by exact Ha.
  assert (Fin : forall v t n, adn v t (zlen t - n) -> 0 <= n -> zlen t <= 1000000 ->
    exists w, signAndJustify c v (u <? 0) = Ok w /\ wden w (finite_text (widen (q_of c) n) (u <? 0) t)).
  { intros v t n A Hn Ht. apply (signAndJustify_adn c v t (zlen t - n) n); [exact Hc|exact A|lia|exact Hn|rewrite int_max_val; lia]. }
  assert (Fin0 : forall v t, den v t -> zlen t <= 1000000 -> exists w, signAndJustify c v (u <? 0) = Ok w /\ wden w (finite_text (widen (q_of c) 0) (u <? 0) t)).
  { intros v t D Ht. apply Fin; [rewrite Z.sub_0_r; apply den_adn; exact D|lia|exact Ht]. }
  assert (Sci : bg_positional a (- s) P = false -> exists w, (let* l := bd_scientific (mkBD a s) (P - 1) in
      let* v0 := match l_exp l with None => formatGDecimal c l P | Some x => formatGScientific c l x end in signAndJustify c v0 (u <? 0)) = Ok w /\
    wden w (let (t, n) := (let (D, X) := bg_sci a (- s) P in
      ((if q_alt (q_of c) then decimal_text D (kept a P - 1) else short_text D (kept a P - 1)) ++ (if a =? 0 then exp_text (- s) else big_exp_text a P X),
       if q_alt (q_of c) then 0 else cut_loss D (kept a P - 1))) in finite_text (widen (q_of c) n) (u <? 0) t)).
  { intros Hst. destruct Hl as [Hl|Hl]; [congruence|]. pose proof (exponent_layout a s P Ha N9 ltac:(lia) Hl ltac:(lia)) as L. destruct (bg_sci a (- s) P) as [D X]. destruct L as (m & x & xs & Em & Lm & Dx & Zx & D0 & Dn & Hk & Exs).
    rewrite Em. cbn [bind l_exp l_mant]. unfold formatGScientific. cbn [l_mant]. change (hasFlag c ALTERNATE) with (q_alt (q_of c)). set (y := if a =? 0 then _ else _) in *.
    assert (Zy : zlen y <= 101) by (rewrite <- Exs, zlen_cons; lia). clearbody y.
    assert (Zm : zlen (decimal_text D (kept a P - 1)) <= 200000).
    { rewrite zlen_decimal_text by lia. assert (zlen (numeral 10 (D / 10 ^ (kept a P - 1))) <= kept a P); [|destruct (kept a P - 1 =? 0); lia].
      apply zlen_numeral_lt; [lia|]. pose proof (pow10_pos (kept a P - 1) ltac:(lia)). split; [apply Z.div_pos; lia|]. assert (D < 10 ^ kept a P) by (rewrite <- Dn; apply digits_upper; lia).
      apply Z.div_lt_upper_bound; nia. }
    destruct (q_alt (q_of c)); cbn [negb].
    - cbn [bind]. destruct Lm as [Dm _]. apply Fin0; [apply (append_exp_den _ _ _ xs); try assumption; lia|]. rewrite zlen_app. lia.
    - destruct (strip_laid_out m D (kept a P - 1) Lm D0 ltac:(lia)) as (w & Ew & Dw). rewrite Ew. cbn [bind].
      pose proof (zlen_short_text D (kept a P - 1) D0 ltac:(lia)) as Zs. pose proof (cut_loss_nonneg D (kept a P - 1) ltac:(lia)) as C0.
      apply Fin; [|exact C0|rewrite zlen_app; lia].
      pose proof (append_exp_adn _ _ _ x xs y Dw Dx ltac:(lia) ltac:(lia) Exs) as A. rewrite zlen_app.
      replace (zlen (short_text D (kept a P - 1)) + zlen y - cut_loss D (kept a P - 1)) with (zlen (short_text D (kept a P - 1)) - cut_loss D (kept a P - 1) + zlen y) by lia. exact A. }
  destruct (bg_positional a (- s) P) eqn:Est; [|exact (Sci eq_refl)]. clear Sci Hl. unfold bg_positional in Est. destruct (a =? 0) eqn:Ea; bools.
  - subst a. assert (s = 0) by lia. subst s. change (dec_text 0) with (txt "0"). change (wrap32 (wrap32 (- 0) + (zlen (txt "0") - 1))) with 0. rewrite Z.sub_0_r.
    rewrite (wrap32_small P) by lia. rewrite wrap32_small by lia. unfold bd_decimal. cbn [bd_s]. replace (P - 1 <? 0) with false by (symmetry; apply Z.ltb_ge; lia). cbn [bind].
    change (decimalLayout0 (mkBD 0 0)) with (Ok (mkLayout (wrapS (txt "0")) None)). cbn [bind l_exp l_mant]. unfold formatGDecimal. cbn [l_mant].
    unfold bg_fixed. cbv zeta. change (ndigits 0) with 1. replace (1 <=? P) with true by (symmetry; apply Z.leb_le; lia). rewrite Z.mul_0_l. change (Z.max 0 (- - 0)) with 0.
    change (ndigits 0) with 1. rewrite Z.mul_0_l, Z.add_0_l. change (hasFlag c ALTERNATE) with (q_alt (q_of c)).
    assert (D0 : den (wrapS (txt "0")) [ch "0"]) by (apply wrapS_den; rewrite int_max_val; vm_compute; discriminate).
    destruct (q_alt (q_of c)).
    + destruct (padToPrecision_zero _ P D0 ltac:(lia)) as (w & Ew & Dw). rewrite Ew. cbn [bind]. change (ndigits 0) with 1. rewrite (Z.max_r 0 (P - 1)) by lia. apply Fin0; [exact Dw|].
      rewrite zlen_alt_text by lia. rewrite Z.div_0_l by (pose proof (pow10_pos (P - 1)); lia). change (zlen (numeral 10 0)) with 1. lia.
    + destruct (strip_laid_out (wrapS (txt "0")) 0 0) as (w & Ew & Dw); [split; [exact D0|left; reflexivity]|lia|lia|]. rewrite Ew. cbn [bind]. apply Fin; [exact Dw|apply cut_loss_nonneg; lia|vm_compute; discriminate].
  - rewrite dec_text_pos, zlen_numeral by exact Ha. fold (ndigits a).
    rewrite (wrap32_small (- s)) by lia. rewrite (wrap32_small (- s + (ndigits a - 1))) by lia. rewrite (wrap32_small (P - (- s + (ndigits a - 1)))) by lia. rewrite wrap32_small by lia.
    replace (P - (- s + (ndigits a - 1)) - 1) with (P - ndigits a + s) by lia.
    pose proof (positional_layout a s P ltac:(lia) N8 Hs ltac:(lia) ltac:(lia)) as L. destruct (bg_fixed a (- s) P) as [N j].
    destruct L as (m & Em & Lm & N0 & Hj & Zq). rewrite Em. cbn [bind l_exp l_mant]. unfold formatGDecimal. cbn [l_mant]. change (hasFlag c ALTERNATE) with (q_alt (q_of c)).
    assert (Zt : zlen (decimal_text N j) <= 200000) by (rewrite zlen_decimal_text by lia; destruct (j =? 0); lia).
    destruct (q_alt (q_of c)).
    + destruct Lm as [Dm _]. destruct (padToPrecision_den m N j P Dm N0 ltac:(lia) ltac:(lia) ltac:(rewrite int_max_val; lia)) as (w & Ew & Dw). rewrite Ew. cbn [bind].
      apply Fin0; [exact Dw|]. rewrite zlen_alt_text by lia. rewrite div_shift by lia. pose proof (ndigits_pos N ltac:(lia)). lia.
    + destruct (strip_laid_out m N j Lm ltac:(lia) ltac:(lia)) as (w & Ew & Dw). rewrite Ew. cbn [bind]. pose proof (zlen_short_text N j ltac:(lia) ltac:(lia)).
      apply Fin; [exact Dw|apply cut_loss_nonneg; lia|lia].
Qed.

Lemma fmt_g_big c u s : rt_ok c -> java_decimal u s -> - 2147483648 + ndigits (Z.abs u) <= s ->
  exists w, fmt_g c (bigDecForm (mkBD u s)) = Ok w /\ wden w (b_g (q_of c) (u <? 0) (Z.abs u) (- s)).
Proof.
  intros Hc Hj Hl. apply fmt_g_big_exact; [exact Hc|exact Hj|]. right. destruct (g_prec_spec c Hc) as [_ Hp]. destruct Hj as [_ Hs]. apply last_exp_room; lia.
Qed.

(** ** comparison with C's rule *)

Lemma cut_loss_bound N j : 0 < N -> 0 <= j -> let (M, r) := drop_zeros (Z.to_nat j) N in
  cut_loss N j <= zlen (decimal_text M r) /\ (r = 0 -> cut_loss N j = 0).
Proof.
  intros HN Hj. pose proof (drop_zeros_facts N j ltac:(lia) Hj) as F. unfold cut_loss. unfold short_text in F. destruct (drop_zeros (Z.to_nat j) N) as [M r].
  destruct F as (F1 & F2 & F3 & F4 & F5). pose proof (zlen_nonneg (decimal_text M r)) as Z0. rewrite F5 in *. pose proof (pow10_pos (j - r) ltac:(lia)) as Pj.
  assert (M0 : 0 < M) by nia. destruct (r =? 0) eqn:E0; bools; [rewrite orb_true_r; split; [lia|reflexivity]|].
  rewrite orb_false_r. split; [|lia]. destruct (r =? j) eqn:E1; bools; [lia|].
  pose proof (numeral_nonempty 10 (N / 10 ^ j) ltac:(lia) ltac:(apply Z.div_pos; [lia|apply pow10_pos; lia])) as Zq.
  assert (En : ndigits N = ndigits M + (j - r)) by (rewrite F2; apply ndigits_shift; lia). destruct (ndigits_bounds M M0) as (NM & _).
  destruct (j <? ndigits N) eqn:E2; bools; [|lia].
  destruct (ndigits_bounds N HN) as (_ & B1 & B2). assert (10 ^ j <= N) by (apply Z.le_trans with (10 ^ (ndigits N - 1)); [apply Z.pow_le_mono_r; lia|lia]).
  pose proof (numeral_split N j Hj ltac:(lia)) as Sp. apply (f_equal (@zlen Z)) in Sp. rewrite zlen_app, zlen_fraction in Sp. rewrite zlen_numeral in Sp at 1. fold (ndigits N) in Sp. lia.
Qed.

(** the positional layout has the digits of the rounded value *)
Lemma fixed_value a s P : 0 < a -> 1 <= P -> 0 <= P - ndigits a + s ->
  let (N, j) := bg_fixed a (- s) P in 0 < N /\ 0 <= j <= P - ndigits a + s /\ N * 10 ^ (P - ndigits a + s - j) = hup a (ndigits a - P).
Proof.
  intros Ha HP Hp. rewrite fixed_pair by assumption. pose proof (dec_pair_facts a s (P - ndigits a + s) ltac:(lia) Hp) as F.
  replace (s - (P - ndigits a + s)) with (ndigits a - P) in F by lia. pose proof (hup_at_most a P Ha HP) as H.
  destruct (dec_pair _ _ _) as [u' s']. destruct F as (F1 & F2 & F3 & F4 & F5 & F6 & F7 & F8). pose proof (lay_N_nonneg u' s' F1) as L0.
  pose proof (pow10_pos (P - ndigits a + s - lay_j s') ltac:(lia)). split; [nia|]. split; [unfold lay_j in *; lia|exact F7].
Qed.

Lemma dropz_shift N p z : 0 <= N -> 0 <= p -> 0 <= z -> drop_zeros (Z.to_nat (p + z)) (N * 10 ^ z) = drop_zeros (Z.to_nat p) N.
Proof. intros HN Hp Hz. rewrite Z2Nat.inj_add by lia. rewrite <- (Z2Nat.id z) at 2 by lia. apply drop_zeros_shift. exact HN. Qed.

Lemma fixed_short a s P S X : 0 < a -> 1 <= P -> sig a (- s) P = (S, X) -> X < P ->
  let (N, j) := bg_fixed a (- s) P in drop_zeros (Z.to_nat j) N = drop_zeros (Z.to_nat (P - 1 - X)) S.
Proof.
  intros Ha HP ES HX. assert (Hp : 0 <= P - ndigits a + s) by (unfold sig in ES; destruct (_ =? _); injection ES as <- <-; lia).
  pose proof (fixed_value a s P Ha HP Hp) as F. destruct (bg_fixed a (- s) P) as [N j]. destruct F as (F1 & F2 & F3).
  rewrite <- (dropz_shift N j (P - ndigits a + s - j)) by lia. rewrite F3. replace (j + (P - ndigits a + s - j)) with (P - ndigits a + s) by lia.
  unfold sig in ES. destruct (hup a (ndigits a - P) =? 10 ^ P) eqn:E; bools; injection ES as <- <-.
  - rewrite E. replace (10 ^ P) with (10 ^ (P - 1) * 10 ^ 1) by (rewrite <- Z.pow_add_r by lia; f_equal; lia).
    replace (P - ndigits a + s) with (P - 1 - (ndigits a + - s) + 1) by lia. pose proof (pow10_pos (P - 1) ltac:(lia)). apply dropz_shift; lia.
  - do 2 f_equal. lia.
Qed.

Lemma fixed_alt a s P S X : 0 < a -> 1 <= P -> sig a (- s) P = (S, X) -> X < P -> X = ndigits a - s - 1 \/ s < ndigits a ->
  let (N, j) := bg_fixed a (- s) P in let z := Z.max 0 (P - ndigits N) in N * 10 ^ z = S /\ j + z = P - 1 - X.
Proof.
  intros Ha HP ES HX HC. assert (Hp : 0 <= P - ndigits a + s) by (unfold sig in ES; destruct (_ =? _); injection ES as <- <-; lia).
  pose proof (fixed_value a s P Ha HP Hp) as F. pose proof (hup_at_most a P Ha HP) as H.
  unfold sig in ES. destruct (hup a (ndigits a - P) =? 10 ^ P) eqn:E; bools; injection ES as <- <-.
  - assert (s < ndigits a) by lia. unfold bg_fixed. cbv zeta. replace (- - s) with s by lia. destruct (ndigits a <=? P) eqn:E1; bools.
    + exfalso. destruct (ndigits_bounds a Ha) as (N1 & _ & B2). unfold hup in E. replace (ndigits a - P <=? 0) with true in E by (symmetry; apply Z.leb_le; lia).
      pose proof (pow10_pos (- (ndigits a - P)) ltac:(lia)). replace (10 ^ P) with (10 ^ ndigits a * 10 ^ (- (ndigits a - P))) in E by (rewrite <- Z.pow_add_r by lia; f_equal; lia). nia.
    + rewrite E, Z.eqb_refl. replace (s <? ndigits a) with true by (symmetry; apply Z.ltb_lt; lia). cbn [andb].
      replace (P - ndigits a - - s =? 0) with false by (symmetry; apply Z.eqb_neq; lia). rewrite ndigits_pow by lia.
      rewrite Z.sub_diag; change (Z.max 0 0) with 0. split; [rewrite Z.pow_0_r; lia|lia].
  - destruct (bg_fixed a (- s) P) as [N j]. destruct F as (F1 & F2 & F3). cbv zeta.
    assert (Eh : ndigits (hup a (ndigits a - P)) = P).
    { destruct (Z_le_gt_dec (ndigits a) P) as [Q|Q].
      - unfold hup. replace (ndigits a - P <=? 0) with true by (symmetry; apply Z.leb_le; lia). rewrite ndigits_shift by lia. lia.
      - pose proof (hup_range a (ndigits a) (ndigits a - P) Ha eq_refl ltac:(lia) ltac:(lia)) as R. replace (ndigits a - (ndigits a - P)) with P in R by lia. apply ndigits_unique; [lia|lia|]. lia. }
    rewrite <- F3 in Eh. rewrite ndigits_shift in Eh by lia. replace (Z.max 0 (P - ndigits N)) with (P - ndigits a + s - j) by lia. split; [exact F3|lia].
Qed.

(** the kept digits have the value of the rounded digits *)
Lemma sci_short a s P S X : 0 < a -> 1 <= P -> sig a (- s) P = (S, X) ->
  bg_sci a (- s) P = (S / 10 ^ (P - kept a P), X) /\ S = S / 10 ^ (P - kept a P) * 10 ^ (P - kept a P) /\ 0 < S /\ 1 <= kept a P <= P.
Proof.
  intros Ha HP ES. destruct (ndigits_bounds a Ha) as (N1 & _). unfold bg_sci, kept. replace (a =? 0) with false by (symmetry; apply Z.eqb_neq; lia). rewrite ES. split; [reflexivity|].
  rewrite rdig_sig in ES by lia. destruct (rdig_facts a P Ha HP) as [R _]. injection ES as <- <-. set (k := Z.min (ndigits a) P) in *. pose proof (pow10_pos (P - k) ltac:(lia)).
  rewrite Z.div_mul by lia. split; [reflexivity|]. split; [nia|lia].
Qed.

(** ** %f of a zero with negative scale *)

Lemma fractionalPart_plain s t p alt : den s t -> index_of (ch ".") t = -1 -> 0 <= p -> zlen t + p + 1 <= int_max ->
  exists u, formatFractionalPart s p alt = Ok u /\ den u (t ++ (if (p =? 0) && negb alt then [] else ch "." :: zeros p)).
Proof.
  intros Hd Hi Hp Hm. unfold formatFractionalPart. rewrite (s_indexOf_wden _ _ _ (den_wden _ _ Hd) (den_max _ _ Hd)). cbn [bind].
  rewrite Hi. unfold NOT_FOUND. change (-1 =? -1) with true. rewrite andb_true_r.
  assert (D1 : den (s_append s (chS (ch "."))) (t ++ [ch "."])).
  { apply s_append_den; [exact Hd|apply chS_den|]. rewrite zlen_app, zlen_one. lia. }
  destruct (p =? 0) eqn:Ep; bools; cbn [andb].
  - subst p. destruct alt; cbn [negb]; eexists; (split; [reflexivity|]); [exact D1|rewrite app_nil_r; exact Hd].
  - change (0 <=? -1) with false. change (-1 <? 0) with true. cbn match. replace (p <=? 0) with false by (symmetry; apply Z.leb_gt; lia). rewrite Z.sub_0_r.
    destruct (append_zeros _ _ p D1 ltac:(lia)) as (u & E & D); [rewrite zlen_app, zlen_one; lia|]. exists u. split; [exact E|].
    rewrite <- app_assoc in D. exact D.
Qed.

Lemma index_of_rep x y n : x <> y -> index_of x (rep y n) = -1.
Proof.
  intros H. unfold rep. induction (Z.to_nat n) as [|k IH]; [reflexivity|]. cbn [repeat]. cbn [index_of]. replace (y =? x) with false by (symmetry; apply Z.eqb_neq; congruence).
  cbn [List.repeat] in *. rewrite IH. reflexivity.
Qed.

Lemma fmt_f_big_zero c s : rt_ok c -> s < 0 ->
  let t := finite_text (q_of c) false (zeros (- s) ++ with_alt (q_alt (q_of c)) 0 (prec_or 6 (q_of c))) in
  zlen t < int_max -> exists w, fmt_f c (bigDecForm (mkBD 0 s)) = Ok w /\ den w t.
Proof.
  intros Hc Hs t Hm. unfold fmt_f. cbn [bigDecForm f_isNaN f_isInf f_decimal orb]. unfold f_isNegative. cbn [bigDecForm f_signum bd_u].
  destruct (precOr6_spec c Hc) as [Ep Hp]. rewrite Ep. unfold bd_abs. cbn [bd_u bd_s Z.abs Z.sgn]. change (0 <? 0) with false.
  set (p := prec_or 6 (q_of c)) in *. pose proof (zlen_sign_text (q_of c) false) as Zs. unfold t in Hm. rewrite zlen_finite_text, zlen_app in Hm.
  unfold zeros in Hm at 1. rewrite zlen_rep, (Z.max_r 0 (- s)) in Hm by lia. rewrite int_max_val in Hm.
  assert (Ew : with_alt (q_alt (q_of c)) 0 p = ch "0" :: (if (p =? 0) && negb (q_alt (q_of c)) then [] else ch "." :: zeros p)).
  { unfold with_alt, alt_text, decimal_text. rewrite Z.div_0_l by (pose proof (pow10_pos p); lia). rewrite numeral_0. unfold zeros.
    assert (F0 : fraction p 0 = rep (ch "0") p) by (rewrite <- (Z.mul_0_l (10 ^ p)), fraction_shift by lia; reflexivity). rewrite F0.
    destruct (p =? 0) eqn:E; bools; destruct (q_alt (q_of c)); cbn [andb negb]; try reflexivity; [subst p; rewrite E; reflexivity|rewrite app_nil_r; reflexivity]. }
  assert (Zw : zlen (with_alt (q_alt (q_of c)) 0 p) >= 1 + p).
  { rewrite Ew, zlen_cons. destruct (p =? 0) eqn:E; bools; cbn [andb]; [destruct (negb _)|]; rewrite ?zlen_nil, ?zlen_cons; unfold zeros; rewrite ?zlen_rep; lia. }
  unfold bd_decimal. cbn [bd_s]. replace (p <? s) with false by (symmetry; apply Z.ltb_ge; lia). cbn [bind].
  unfold decimalLayout0. cbn [bd_u bd_s]. change (dec_text 0) with (txt "0"). change (zlen (txt "0")) with 1. replace (s =? 0) with false by (symmetry; apply Z.eqb_neq; lia). cbv zeta.
  rewrite (wrap32_small (s - 1)) by lia. replace (0 <=? s - 1) with false by (symmetry; apply Z.leb_gt; lia).
  rewrite (wrap32_small (- (s - 1))) by lia. replace (- (s - 1) <? 1) with false by (symmetry; apply Z.ltb_ge; lia). rewrite (wrap32_small (- s)) by lia.
  destruct (repeated_den (ch "0") (- s)) as (z & Ez & Dz); [rewrite int_max_val; lia|]. rewrite Ez. cbn [bind l_mant].
  assert (D : den (s_append (wrapS (txt "0")) z) (rep (ch "0") (- s) ++ [ch "0"])).
  { replace (rep (ch "0") (- s) ++ [ch "0"]) with (txt "0" ++ rep (ch "0") (- s)).
    - apply s_append_den; [apply wrapS_den; rewrite int_max_val; vm_compute; discriminate|exact Dz|]. rewrite zlen_app, zlen_rep, int_max_val. change (zlen (txt "0")) with 1. lia.
    - unfold rep. change (txt "0") with [ch "0"]. rewrite <- repeat_cons. reflexivity. }
  destruct (fractionalPart_plain _ _ p (hasFlag c ALTERNATE) D) as (u & Eu & Du); [|lia|rewrite zlen_app, zlen_rep, zlen_one, int_max_val; lia|].
  { unfold rep. replace (repeat (ch "0") (Z.to_nat (- s)) ++ [ch "0"]) with (rep (ch "0") (- s + 1)); [apply index_of_rep; discriminate|].
    unfold rep. rewrite Z2Nat.inj_add by lia. rewrite repeat_app. reflexivity. }
  rewrite Eu. cbn [bind]. change (hasFlag c ALTERNATE) with (q_alt (q_of c)) in Du. rewrite <- app_assoc in Du. cbn [app] in Du. rewrite <- Ew in Du.
  apply signAndJustify_den; [exact Hc|exact Du|]. rewrite zlen_app, int_max_val; unfold zeros; rewrite zlen_rep. lia.
Qed.
