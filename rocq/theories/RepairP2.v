(** %f, %e and %g of the repaired library. *)
From Verif Require Import Base Digits UtilsM SeqM SeqSpec SeqP SeqSubP ContextM CompilerM IntFormM FormatterM FmtSpec FmtP FmtP2 MathM DecimalM FPDecimalM DoubleM BigDecM
  RoundM TraitsM ImplM DecSpec FloatSpec BigSpec FPDecP FloatP DoubleP AnnP BigDecP BigGenP CastP FloatArgP RepairM RepairSpec RepairP.
Open Scope Z_scope.

(** ** the end of %g *)

Lemma formatG'_den c m N j P : den m (decimal_text N j) -> 0 < N -> 0 <= j -> 1 <= P <= 70000 -> ndigits N <= P -> zlen (decimal_text N j) <= 1000000 ->
  exists u, formatG' c m P = Ok u /\ den u (g_text (q_of c) (N * 10 ^ (P - ndigits N)) (j + (P - ndigits N))) /\
    zlen (g_text (q_of c) (N * 10 ^ (P - ndigits N)) (j + (P - ndigits N))) <= 2000000.
Proof.
  intros Dm HN Hj HP Hn Hl. unfold formatG', g_text. change (hasFlag c ALTERNATE) with (q_alt (q_of c)). destruct (q_alt (q_of c)).
  - destruct (padToPrecision_den m N j P Dm HN Hj ltac:(lia) ltac:(rewrite int_max_val; lia)) as (u & Eu & Du). rewrite Z.max_r in Du by lia. exists u. split; [exact Eu|]. split; [exact Du|].
    rewrite zlen_alt_text by lia. rewrite div_shift by lia. rewrite zlen_decimal_text in Hl by lia. pose proof (ndigits_pos N ltac:(lia)). destruct (j =? 0) eqn:E; bools; lia.
  - destruct (strip'_decimal m N j Dm ltac:(lia) Hj) as (u & Eu & Du). rewrite short_text_shift by lia. exists u. split; [exact Eu|]. split; [exact Du|].
    pose proof (zlen_short_text N j ltac:(lia) Hj). lia.
Qed.

Lemma formatG'_dot c m N P : den m (alt_text N 0) -> 0 < N -> ndigits N = 1 -> 1 <= P <= 70000 ->
  exists u, formatG' c m P = Ok u /\ den u (g_text (q_of c) (N * 10 ^ (P - 1)) (P - 1)) /\ zlen (g_text (q_of c) (N * 10 ^ (P - 1)) (P - 1)) <= 2000000.
Proof.
  intros Dm HN Hn HP. unfold formatG', g_text. change (hasFlag c ALTERNATE) with (q_alt (q_of c)).
  assert (Zd : zlen (decimal_text N 0) = 1) by (rewrite integer_text, zlen_numeral; exact Hn). destruct (q_alt (q_of c)).
  - destruct (padToPrecision_dot m N P Dm HN ltac:(lia)) as (u & Eu & Du); [rewrite int_max_val; lia|]. rewrite Hn, Z.max_r in Du by lia. exists u. split; [exact Eu|]. split; [exact Du|].
    rewrite zlen_alt_text by lia. rewrite Z.div_mul by (pose proof (pow10_pos (P - 1)); lia). rewrite zlen_numeral. fold (ndigits N). lia.
  - destruct (strip'_dot m N Dm ltac:(lia)) as (u & Eu & Du). pose proof (short_text_shift N 0 (P - 1) ltac:(lia) ltac:(lia) ltac:(lia)) as Es. rewrite Z.add_0_l, short_text_0 in Es. rewrite Es.
    exists u. split; [exact Eu|]. split; [exact Du|]. lia.
Qed.

Lemma formatG'_zero c m P : den m [ch "0"] -> 1 <= P <= 70000 ->
  exists u, formatG' c m P = Ok u /\ den u (g_text (q_of c) 0 (P - 1)) /\ zlen (g_text (q_of c) 0 (P - 1)) <= 2000000.
Proof.
  intros Dm HP. unfold formatG', g_text. change (hasFlag c ALTERNATE) with (q_alt (q_of c)). destruct (q_alt (q_of c)).
  - destruct (padToPrecision_zero m P Dm HP) as (u & Eu & Du). exists u. split; [exact Eu|]. split; [exact Du|]. rewrite zlen_alt_text by lia.
    rewrite Z.div_0_l by (pose proof (pow10_pos (P - 1)); lia). change (zlen (numeral 10 0)) with 1. lia.
  - destruct (strip'_decimal m 0 0 Dm ltac:(lia) ltac:(lia)) as (u & Eu & Du). pose proof (short_text_shift 0 0 (P - 1) ltac:(lia) ltac:(lia) ltac:(lia)) as S0. rewrite Z.mul_0_l, Z.add_0_l in S0.
    rewrite S0. exists u. split; [exact Eu|]. split; [exact Du|]. vm_compute. discriminate.
Qed.

(** ** doubles *)

Lemma fmt_g'_double c b f e : rt_ok c -> printed b f e -> exists u, fmt_g' c (doubleForm b) = Ok u /\ den u (c_g (q_of c) (b <? 0) f e).
Proof.
  intros Hc Hb. pose proof (printed_finite b f e Hb) as Hfin. destruct (finite_tests b Hfin) as (T1 & T2 & _).
  unfold fmt_g'. cbn [doubleForm f_isNaN f_isInf f_general]. rewrite T1, T2. cbn [orb]. cbv zeta.
  destruct (g_prec_spec c Hc) as [Ep Hp]. rewrite Ep. unfold f_isNegative. cbn [doubleForm f_signum]. rewrite finite_sign by exact Hfin.
  unfold c_g, g_body, sig0. set (P := g_prec (q_of c)) in *. unfold dbl_general, dbl_isZero, dbl_abs.
  destruct Hb as [(E & -> & ->)|(Hb & D)].
  - rewrite E. cbn [Z.eqb bind l_mant l_exp]. change (-4 <=? 0) with true. replace (0 <? P) with true by (symmetry; apply Z.ltb_lt; lia). cbn [andb]. rewrite Z.sub_0_r.
    destruct (formatG'_zero c _ P (chS_den (ch "0")) ltac:(lia)) as (u & Eu & Du & Zu). rewrite Eu. cbn [bind]. apply signAndJustify_den; [exact Hc|exact Du|]. rewrite int_max_val. lia.
  - replace (dbl_mag b =? 0) with false by (symmetry; apply Z.eqb_neq; lia). destruct D as [Ds _ _ Df De].
    replace (f =? 0) with false by (symmetry; apply Z.eqb_neq; lia). rewrite Ds. cbn [bind]. unfold general. pose proof (ndigits_17 f Df) as N17.
    rewrite round_spec by (try assumption; try reflexivity; lia). cbn [bind].
    pose proof (rnd_n f e P Df ltac:(lia)) as Rn.
    destruct (rnd_sig f e (ndigits f) P Df eq_refl ltac:(lia)) as (R1 & R2 & R3 & R4).
    pose proof (rnd_exp f e (ndigits f) P De N17 eq_refl ltac:(lia)) as Rx. set (d := rnd f e (ndigits f) P) in *.
    pose proof (ndigits_17 _ R1) as D17. rewrite R2 in D17. rewrite R4. cbv zeta. unfold exponentRounded.
    set (X := d_n d + d_e d - 1). assert (EX : d_n d + d_e d - 1 = X) by reflexivity. clearbody X. assert (Hn : d_n d <= P) by lia.
    destruct ((-4 <=? X) && (X <? P)) eqn:ES.
    + apply andb_prop in ES as [ES1 ES2]. bools.
      rewrite plainChars_text by (try assumption; lia). cbn [bind layoutOf option_map l_mant l_exp].
      pose proof (zlen_plain d ltac:(lia) ltac:(lia)) as Zp. assert (HN : 0 < pl_N d) by (unfold pl_N; pose proof (pow10_gt0 (d_e d)); nia).
      assert (Hj : 0 <= pl_j d) by (unfold pl_j; lia). set (z := P - d_n d - Z.max 0 (d_e d)). assert (Hz : 0 <= z) by (unfold z; lia).
      assert (E1 : d_f d * 10 ^ (P - d_n d) = pl_N d * 10 ^ z).
      { unfold pl_N, z. rewrite <- Z.mul_assoc, <- Z.pow_add_r by lia. f_equal. f_equal. lia. }
      assert (E2 : P - 1 - X = pl_j d + z) by (unfold pl_j, z; lia). rewrite E1, E2.
      assert (En : P - ndigits (pl_N d) = z) by (unfold pl_N, z; rewrite ndigits_shift by lia; lia).
      pose proof (seqOfArr_den (decimal_text (pl_N d) (pl_j d)) ltac:(rewrite int_max_val; lia)) as Dm.
      destruct (formatG'_den c _ _ _ P Dm HN Hj ltac:(lia) ltac:(lia) ltac:(lia)) as (u & Eu & Du & Zu). rewrite Eu. cbn [bind]. rewrite En in *.
      apply signAndJustify_den; [exact Hc|exact Du|]. rewrite int_max_val. lia.
    + clear ES. rewrite scientificChars_text by (try assumption; lia). cbn [bind layoutOf option_map l_mant l_exp].
      pose proof (zlen_mant d (P - 1) R1 R2) as Zm. pose proof (seqOfArr_den (mant d (P - 1)) ltac:(rewrite int_max_val; lia)) as Dm.
      pose proof (zlen_exp_text X ltac:(lia)) as Zx. pose proof (exp_text_chars d ltac:(lia) ltac:(lia)) as Ex. rewrite EX in Ex.
      assert (Zxs : zlen (expChars d) <= 1000) by (rewrite Ex, zlen_cons in Zx; lia). symmetry in Ex.
      assert (G : exists u, formatG' c (seqOfArr (mant d (P - 1))) P = Ok u /\ den u (g_text (q_of c) (d_f d * 10 ^ (P - d_n d)) (P - 1)) /\
                  zlen (g_text (q_of c) (d_f d * 10 ^ (P - d_n d)) (P - 1)) <= 2000000).
      { unfold mant in *. destruct (P - 1 =? 0) eqn:E1; bools.
        - destruct (formatG'_den c _ (d_f d) 0 P Dm ltac:(lia) ltac:(lia) ltac:(lia) ltac:(lia) ltac:(lia)) as (u & Eu & Du & Zu). rewrite R2 in *. rewrite Z.add_0_l in *.
          exists u. split; [exact Eu|]. replace (P - d_n d) with (P - 1) in * by lia. split; [exact Du|exact Zu].
        - destruct (Z.eq_dec (d_n d) 1) as [En|En].
          + rewrite En in *. change (1 - 1) with 0 in *. apply formatG'_dot; [exact Dm|lia|lia|lia].
          + rewrite alt_text_pos in * by lia. destruct (formatG'_den c _ (d_f d) (d_n d - 1) P Dm ltac:(lia) ltac:(lia) ltac:(lia) ltac:(lia) ltac:(lia)) as (u & Eu & Du & Zu). rewrite R2 in *.
            replace (d_n d - 1 + (P - d_n d)) with (P - 1) in * by lia. exists u. split; [exact Eu|]. split; [exact Du|exact Zu]. }
      destruct G as (u & Eu & Du & Zu). rewrite Eu. cbn [bind].
      apply signAndJustify_den; [exact Hc|apply append_exp_den with (xs := expChars d); [exact Du|apply seqOfArr_den; rewrite int_max_val; lia|lia|lia|exact Ex]|].
      rewrite zlen_app, int_max_val. lia.
Qed.

Lemma fmt_f'_double c b f e : rt_ok c -> printed b f e -> exists u, fmt_f' c (doubleForm b) = Ok u /\ den u (c_f (q_of c) (b <? 0) f e).
Proof.
  intros Hc Hb. pose proof (printed_finite b f e Hb) as Hfin. destruct (finite_tests b Hfin) as (T1 & T2 & _).
  unfold fmt_f'. cbn [doubleForm f_isNaN f_isInf]. rewrite T1, T2. cbn [orb]. apply fmt_f_double; assumption.
Qed.
Lemma fmt_e'_double c b f e : rt_ok c -> printed b f e -> exists u, fmt_e' c (doubleForm b) = Ok u /\ den u (c_e (q_of c) (b <? 0) f e).
Proof.
  intros Hc Hb. pose proof (printed_finite b f e Hb) as Hfin. destruct (finite_tests b Hfin) as (T1 & T2 & _).
  unfold fmt_e'. cbn [doubleForm f_isNaN f_isInf]. rewrite T1, T2. cbn [orb]. apply fmt_e_double; assumption.
Qed.

(** ** BigDecimals *)

(** the scale stored *)
Definition kept_scale (u s : Z) : Z := if u =? 0 then 0 else s.
Lemma stored u s : (if u =? 0 then mkBD 0 0 else bd_abs (mkBD u s)) = mkBD (Z.abs u) (kept_scale u s).
Proof. unfold kept_scale. destruct (Z.eqb_spec u 0) as [->|H]; reflexivity. Qed.

(** a number below the places kept *)
Lemma hup_below u s p : 0 <= u -> p < s -> u < 10 ^ (s - p) ->
  hup u (s - p) = match bd_compare (mkBD u s) (mkBD 5 (p + 1)) with Lt => 0 | _ => 1 end.
Proof.
  intros Hu Hs Hb. unfold bd_compare. cbn [bd_u bd_s]. rewrite Z.max_l by lia. rewrite Z.sub_diag, Z.pow_0_r, Z.mul_1_r. rewrite hup_pos_eq by lia.
  replace (s - (p + 1)) with (s - p - 1) by lia. set (k := s - p) in *. destruct (half_pow k ltac:(lia)) as [Hh He]. pose proof (pow10_pos (k - 1) ltac:(lia)).
  destruct (Z.compare_spec u (5 * 10 ^ (k - 1))) as [C|C|C].
  - replace (u + 5 * 10 ^ (k - 1)) with (10 ^ k) by lia. apply Z.div_same. lia.
  - apply Z.div_small. lia.
  - symmetry. apply (Z.div_unique _ _ 1 (u + 5 * 10 ^ (k - 1) - 10 ^ k)); lia.
Qed.

Lemma bd_decimal'_pair u s p : 0 <= u -> ndigits u <= 646456993 -> 0 <= p <= 100000 -> int_min <= s <= int_max ->
  bd_decimal' (mkBD u s) p = let (u', s') := dec_pair u s p in decimalLayout0 (mkBD u' s').
Proof.
  intros Hu Hn Hp Hs. unfold bd_decimal', dec_pair. cbn [bd_s bd_u]. rewrite precision_ndigits by exact Hu. destruct (s <=? p) eqn:E; bools.
  - replace (p <? s) with false by (symmetry; apply Z.ltb_ge; lia). reflexivity.
  - replace (p <? s) with true by (symmetry; apply Z.ltb_lt; lia). destruct (ndigits u <=? s - p) eqn:E0; bools.
    + replace (ndigits u <=? s) with true by (symmetry; apply Z.leb_le; lia). cbn [bind]. rewrite hup_below; [reflexivity|exact Hu|lia|].
      pose proof (ndigits_pos u Hu). assert (B : u < 10 ^ ndigits u) by (apply digits_upper; lia). assert (10 ^ ndigits u <= 10 ^ (s - p)) by (apply Z.pow_le_mono_r; lia). lia.
    + destruct (ndigits u <=? s) eqn:E1; bools.
      * unfold bd_setScale, checkTen, MAX_TEN. cbn [bd_s bd_u]. cbv zeta. replace (s - p <=? 646456992) with true by (symmetry; apply Z.leb_le; lia).
        replace (if u =? 0 then Ok tt else Ok tt) with (Ok tt : res unit) by (destruct (u =? 0); reflexivity). cbn [bind]. rewrite half_up_signed_hup by lia. reflexivity.
      * rewrite bd_new_mc_spec; [|exact Hu|lia|exact Hs|unfold int_min; lia]. cbn [bind]. unfold rdig, rscale.
        replace (ndigits u <=? ndigits u - (s - p)) with false by (symmetry; apply Z.leb_gt; lia).
        replace (ndigits u - (ndigits u - (s - p))) with (s - p) by lia. cbv zeta. destruct (_ =? _); do 2 f_equal; lia.
Qed.

Lemma hup_zero k : hup 0 k = 0.
Proof.
  unfold hup. destruct (k <=? 0) eqn:E; bools; [reflexivity|]. rewrite Z.add_0_l. pose proof (pow10_pos k ltac:(lia)). apply Z.div_small. split; [apply Z.div_pos; lia|apply Z.div_lt; lia].
Qed.
Lemma c_f_kept q u s : c_f q (u <? 0) (Z.abs u) (- kept_scale u s) = c_f q (u <? 0) (Z.abs u) (- s).
Proof. unfold kept_scale. destruct (Z.eqb_spec u 0) as [->|H]; [|reflexivity]. unfold c_f, f_body. cbv zeta. cbn [Z.abs]. rewrite !hup_zero. reflexivity. Qed.
Lemma sig0_kept u s P : sig0 (Z.abs u) (- kept_scale u s) P = sig0 (Z.abs u) (- s) P.
Proof. unfold kept_scale, sig0. destruct (Z.eqb_spec u 0) as [->|H]; reflexivity. Qed.
Lemma kept_decimal u s : java_decimal u s -> java_decimal u (kept_scale u s).
Proof. intros [H1 H2]. split; [exact H1|]. unfold kept_scale. destruct (u =? 0); lia. Qed.

Lemma fmt_f'_big c u s : rt_ok c -> java_decimal u s -> zlen (c_f (q_of c) (u <? 0) (Z.abs u) (- s)) < int_max ->
  exists w, fmt_f' c (bigDecForm' (mkBD u s)) = Ok w /\ den w (c_f (q_of c) (u <? 0) (Z.abs u) (- s)).
Proof.
  intros Hc Hjs Hm. unfold fmt_f', fmt_f. cbn [bigDecForm' f_isNaN f_isInf f_decimal orb]. unfold f_isNegative. cbn [bigDecForm' f_signum bd_u]. rewrite big_sign, stored.
  rewrite <- c_f_kept in *. assert (Hz : u <> 0 \/ 0 <= kept_scale u s) by (unfold kept_scale; destruct (Z.eqb_spec u 0); lia).
  apply kept_decimal in Hjs. revert Hjs Hm Hz. generalize (kept_scale u s). clear s. intros s [Hj Hs] Hm Hz.
  destruct (precOr6_spec c Hc) as [Ep Hp]. rewrite Ep. pose proof (ndigits_tight u Hj) as N9.
  unfold c_f, f_body in *. cbv zeta in *. set (p := prec_or 6 (q_of c)) in *. replace (- (- s + p)) with (s - p) in * by lia.
  set (a := Z.abs u) in *. assert (Ha : 0 <= a) by (unfold a; lia). assert (Hz' : 0 < a \/ 0 <= s) by (unfold a; lia). clearbody a.
  fold (with_alt (q_alt (q_of c)) (hup a (s - p)) p) in *. rewrite zlen_finite_text in Hm. pose proof (zlen_sign_text (q_of c) (u <? 0)) as Zs.
  rewrite bd_decimal'_pair by (unfold int_min, int_max; lia). pose proof (dec_pair_facts a s p Ha ltac:(lia)) as F. destruct (dec_pair a s p) as [u' s'].
  destruct F as (F1 & F2 & F3 & F4 & F5 & F6 & F7 & F8). pose proof (lay_N_nonneg u' s' F1) as L0.
  assert (J0 : 0 <= lay_j s') by (unfold lay_j; lia).
  assert (Zt : zlen (decimal_text (lay_N u' s') (lay_j s')) = zlen (numeral 10 (hup a (s - p) / 10 ^ p)) + (if lay_j s' =? 0 then 0 else 1 + lay_j s')).
  { rewrite zlen_decimal_text by lia. rewrite (lay_integer_part u' s' p) by assumption. rewrite F7. reflexivity. }
  assert (Zb : zlen (with_alt (q_alt (q_of c)) (hup a (s - p)) p) >= zlen (numeral 10 (hup a (s - p) / 10 ^ p)) + (if p =? 0 then 0 else 1 + p)).
  { unfold with_alt. destruct (q_alt (q_of c)); [rewrite zlen_alt_text by lia; destruct (p =? 0) eqn:E; bools; lia|rewrite zlen_decimal_text by lia; lia]. }
  assert (Zl : zlen (decimal_text (lay_N u' s') (lay_j s')) + p + 1 <= int_max).
  { destruct (Z_lt_ge_dec s 0) as [Sn|Sp].
    - destruct (F4 Sn) as [-> ->]. replace (lay_j s) with 0 in * by (unfold lay_j; lia). rewrite int_max_val in *. rewrite Zt. change (0 =? 0) with true. cbv iota.
      destruct (p =? 0) eqn:E; bools; lia.
    - pose proof (lay_integer_len u' s' F1 (F3 ltac:(lia))) as Li. rewrite (lay_integer_part u' s' p), F7 in Li by assumption. rewrite int_max_val. rewrite Zt.
      destruct (lay_j s' =? 0) eqn:E; bools; lia. }
  rewrite int_max_val in *. pose proof (zlen_nonneg (decimal_text (lay_N u' s') (lay_j s'))) as Znn.
  assert (S2 : int_min <= s' <= int_max).
  { unfold int_min, int_max. destruct (Z_lt_ge_dec s 0) as [Sn|Sp]; [destruct (F4 Sn) as [_ ->]; lia|specialize (F3 ltac:(lia)); lia]. }
  destruct (decimalLayout0_spec u' s' F1 ltac:(lia) S2 (F5 Hz') ltac:(rewrite int_max_val; lia)) as (m & Em & Dm & _). rewrite Em. cbn [bind l_mant].
  destruct (fractionalPart_den m (lay_N u' s') (lay_j s') p (hasFlag c ALTERNATE) Dm L0 ltac:(lia)) as (w & Ew & Dw); [rewrite int_max_val; lia|].
  rewrite Ew. cbn [bind]. rewrite F7 in Dw. change (hasFlag c ALTERNATE) with (q_alt (q_of c)) in Dw. apply signAndJustify_den; [exact Hc|exact Dw|]. rewrite int_max_val. lia.
Qed.

Lemma scientificLayout0'_spec u s : 0 <= u -> ndigits u <= 715827883 -> - 2147483648 <= s <= 2147483647 ->
  exists m x xs, scientificLayout0' (mkBD u s) = Ok (mkLayout m (Some x)) /\ laid_out m u (ndigits u - 1) /\
    den x xs /\ zlen xs <= 100 /\ ch "e" :: xs = exp_text (ndigits u - 1 - s).
Proof.
  intros Hu Hn Hs. pose proof (ndigits_pos u Hu) as N1. assert (Ln : zlen (numeral 10 u) = ndigits u) by apply zlen_numeral.
  destruct (mantissa_layout u Hu Hn) as (m & Em & Lm).
  destruct (scientificLayout0_spec u s Hu Hn Hs) as (m0 & x0 & xs0 & E0 & L0 & D0 & Z0 & X0).
  destruct ((s =? 0) && (ndigits u =? 10)) eqn:Eq.
  - clear m0 x0 xs0 E0 L0 D0 Z0 X0. apply andb_prop in Eq as [Es Et]. bools. subst s. unfold scientificLayout0'. cbn [bd_u bd_s]. rewrite dec_text_pos by exact Hu. cbv zeta. rewrite Ln.
    rewrite Et in *. change (1 <? 10) with true in *. change (10 <=? 10) with true. change (0 =? 0) with true. cbv iota in *. rewrite Em. cbn [bind].
    exists m, (wrapS (txt "+09")), (txt "+09"). split; [reflexivity|]. split; [exact Lm|]. split; [apply wrapS_den; vm_compute; discriminate|]. split; [vm_compute; discriminate|reflexivity].
  - exists m0, x0, xs0. split; [|auto]. rewrite <- E0. unfold scientificLayout0', scientificLayout0. cbn [bd_u bd_s]. rewrite dec_text_pos by exact Hu. cbv zeta. rewrite Ln.
    destruct (s =? 0) eqn:Es; [|reflexivity]. cbn [andb] in Eq. replace (ndigits u <=? 10) with (ndigits u <? 10); [reflexivity|]. bools.
    destruct (Z.ltb_spec (ndigits u) 10), (Z.leb_spec (ndigits u) 10); try reflexivity; lia.
Qed.

(** rounding to [P] digits *)
Lemma round_facts a s P : 0 <= a -> 1 <= P -> (a = 0 -> s = 0) ->
  let k := Z.min (ndigits a) P in
  0 <= rdig a P /\ ndigits (rdig a P) = k /\ (0 < a -> 0 < rdig a P) /\ (a = 0 -> rdig a P = 0) /\
  sig0 a (- s) P = (rdig a P * 10 ^ (P - k), k - 1 - rscale a s P).
Proof.
  intros Ha HP Hz. cbv zeta. unfold sig0. destruct (a =? 0) eqn:E; bools.
  - subst a. rewrite (Hz eq_refl). unfold rdig, rscale. change (ndigits 0) with 1. replace (1 <=? P) with true by (symmetry; apply Z.leb_le; lia). change (ndigits 0) with 1.
    rewrite Z.min_l by lia. repeat split; try lia.
  - destruct (rdig_facts a P ltac:(lia) HP) as [R1 R2]. repeat split; try lia. apply rdig_sig; lia.
Qed.

Lemma fits_scale u s P : 1 <= P -> scale_fits u s P <-> int_min <= rscale (Z.abs u) (kept_scale u s) P.
Proof.
  intros HP. unfold scale_fits, kept_scale. destruct (Z.eqb_spec u 0) as [->|N].
  - split; [intros _|auto]. unfold rscale. change (ndigits (Z.abs 0)) with 1. replace (1 <=? P) with true by (symmetry; apply Z.leb_le; lia). unfold int_min. lia.
  - rewrite last_rscale by lia. unfold int_min. lia.
Qed.

Lemma mant_len D k : 0 <= D -> ndigits D = k -> 1 <= k <= 70000 -> zlen (decimal_text D (k - 1)) <= 200000.
Proof.
  intros D0 Dn Hk. rewrite zlen_decimal_text by lia. assert (zlen (numeral 10 (D / 10 ^ (k - 1))) <= k); [|destruct (k - 1 =? 0); lia].
  apply zlen_numeral_lt; [lia|]. pose proof (pow10_pos (k - 1) ltac:(lia)). split; [apply Z.div_pos; lia|]. assert (D < 10 ^ k) by (rewrite <- Dn; apply digits_upper; lia).
  apply Z.div_lt_upper_bound; nia.
Qed.

Lemma fmt_e'_big c u s : rt_ok c -> java_decimal u s ->
  (scale_fits u s (prec_or 6 (q_of c) + 1) -> exists w, fmt_e' c (bigDecForm' (mkBD u s)) = Ok w /\ den w (c_e (q_of c) (u <? 0) (Z.abs u) (- s))) /\
  (~ scale_fits u s (prec_or 6 (q_of c) + 1) -> fmt_e' c (bigDecForm' (mkBD u s)) = Err (OtherExn 1)).
Proof.
  intros Hc Hjs. unfold fmt_e', fmt_e. cbn [bigDecForm' f_isNaN f_isInf f_scientific orb]. unfold f_isNegative. cbn [bigDecForm' f_signum bd_u]. rewrite big_sign, stored.
  destruct (precOr6_spec c Hc) as [Ep Hp]. rewrite Ep. unfold c_e, e_body. cbv zeta. set (p := prec_or 6 (q_of c)) in *. rewrite fits_scale by lia. rewrite <- (sig0_kept u s).
  assert (Hz : Z.abs u = 0 -> kept_scale u s = 0) by (unfold kept_scale; destruct (Z.eqb_spec u 0); lia).
  apply kept_decimal in Hjs. revert Hjs Hz. generalize (kept_scale u s). clear s. intros s [Hj Hs] Hz. pose proof (ndigits_fits u Hj) as N9.
  set (a := Z.abs u) in *. assert (Ha : 0 <= a) by (unfold a; lia). clearbody a. clear Hj.
  pose proof (ndigits_pos a Ha) as N1. unfold bd_scientific'. rewrite precision_ndigits by exact Ha. cbn [bd_u bd_s]. rewrite (wrap32_small (p + 1)) by lia.
  replace (if ndigits a - 1 <? p then ndigits a else p + 1) with (Z.min (ndigits a) (p + 1)) by (destruct (ndigits a - 1 <? p) eqn:E; bools; lia).
  rewrite bd_new_mc_exact by (try assumption; unfold int_min, int_max; lia). rewrite rdig_min, rscale_min by lia.
  destruct (round_facts a s (p + 1) Ha ltac:(lia) Hz) as (F1 & F2 & _ & _ & F5). rewrite F5. set (k := Z.min (ndigits a) (p + 1)) in *.
  assert (Hk : 1 <= k <= 65537) by (unfold k; lia). split; intros Hf.
  - rewrite (proj2 (Z.leb_le _ _) Hf). cbn [bind]. assert (F4 : - 2147483648 <= rscale a s (p + 1) <= 2147483647) by (pose proof (rscale_upper a s (p + 1)); unfold int_min in Hf; lia).
    destruct (scientificLayout0'_spec (rdig a (p + 1)) (rscale a s (p + 1)) F1 ltac:(lia) F4) as (m & x & xs & Em & (Dm & _) & Dx & Zx & Exs).
    rewrite Em. cbn [bind l_mant l_exp nonNull]. rewrite F2 in *. pose proof (mant_len _ _ F1 F2 ltac:(lia)) as Zm.
    destruct (fractionalPart_den m (rdig a (p + 1)) (k - 1) p (hasFlag c ALTERNATE) Dm F1 ltac:(unfold k; lia)) as (w & Ew & Dw); [rewrite int_max_val; lia|].
    rewrite Ew. cbn [bind]. change (hasFlag c ALTERNATE) with (q_alt (q_of c)) in Dw. replace (p - (k - 1)) with (p + 1 - k) in Dw by lia.
    assert (Z1 : zlen (with_alt (q_alt (q_of c)) (rdig a (p + 1) * 10 ^ (p + 1 - k)) p) <= 200000 + p + 1).
    { pose proof (zlen_with_alt (q_alt (q_of c)) (rdig a (p + 1) * 10 ^ (p + 1 - k)) p ltac:(lia)) as Z1.
      replace (10 ^ p) with (10 ^ (k - 1 + (p + 1 - k))) in Z1 by (f_equal; lia). rewrite div_shift in Z1 by (unfold k; lia). rewrite zlen_decimal_text in Zm by lia. destruct (k - 1 =? 0) eqn:Ek; bools; lia. }
    fold (with_alt (q_alt (q_of c)) (rdig a (p + 1) * 10 ^ (p + 1 - k)) p).
    apply signAndJustify_den; [exact Hc|apply (append_exp_den _ _ _ xs); try assumption; lia|]. rewrite <- Exs, zlen_app, zlen_cons, int_max_val. lia.
  - replace (int_min <=? rscale a s (p + 1)) with false by (symmetry; apply Z.leb_gt; lia). reflexivity.
Qed.

Lemma fmt_g'_big c u s : rt_ok c -> java_decimal u s ->
  (scale_fits u s (g_prec (q_of c)) -> exists w, fmt_g' c (bigDecForm' (mkBD u s)) = Ok w /\ den w (c_g (q_of c) (u <? 0) (Z.abs u) (- s))) /\
  (~ scale_fits u s (g_prec (q_of c)) -> fmt_g' c (bigDecForm' (mkBD u s)) = Err (OtherExn 1)).
Proof.
  intros Hc Hjs. unfold fmt_g'. cbn [bigDecForm' f_isNaN f_isInf f_general orb]. unfold f_isNegative. cbn [bigDecForm' f_signum bd_u]. rewrite big_sign, stored. cbv zeta.
  destruct (g_prec_spec c Hc) as [Ep Hp]. rewrite Ep. unfold c_g, g_body. cbv zeta. set (P := g_prec (q_of c)) in *. rewrite fits_scale by lia. rewrite <- (sig0_kept u s).
  assert (Hz : Z.abs u = 0 -> kept_scale u s = 0) by (unfold kept_scale; destruct (Z.eqb_spec u 0); lia).
  apply kept_decimal in Hjs. revert Hjs Hz. generalize (kept_scale u s). clear s. intros s [Hj Hs] Hz. pose proof (ndigits_fits u Hj) as N9.
  set (a := Z.abs u) in *. assert (Ha : 0 <= a) by (unfold a; lia). clearbody a. clear Hj.
  pose proof (ndigits_pos a Ha) as N1. unfold bd_general'. cbn [bd_u bd_s]. rewrite bd_new_mc_exact by (try assumption; unfold int_min, int_max; lia).
  destruct (round_facts a s P Ha ltac:(lia) Hz) as (F1 & F2 & F3 & F3' & F5). rewrite F5. set (k := Z.min (ndigits a) P) in *.
  assert (Hk : 1 <= k <= P) by (unfold k; lia). split; intros Hf.
  - rewrite (proj2 (Z.leb_le _ _) Hf). cbn [bind bd_u bd_s]. rewrite dec_text_pos, zlen_numeral by exact F1. fold (ndigits (rdig a P)). rewrite F2.
    assert (F4 : - 2147483648 <= rscale a s P <= 2147483647) by (pose proof (rscale_upper a s P); unfold int_min in Hf; lia).
    set (X := k - 1 - rscale a s P) in *. destruct (Z.eq_dec a 0) as [A0|A0].
    { assert (R0 : rscale a s P = 0) by (rewrite A0, (Hz A0); unfold rscale; change (ndigits 0) with 1; replace (1 <=? P) with true by (symmetry; apply Z.leb_le; lia); reflexivity).
      assert (K1 : k = 1) by (unfold k; rewrite A0; change (ndigits 0) with 1; lia). rewrite (F3' A0), R0 in *. replace X with 0 by (unfold X; lia).
      change (-4 <=? 0) with true. replace (0 <? P) with true by (symmetry; apply Z.ltb_lt; lia). cbn [andb]. change (decimalLayout0 (mkBD 0 0)) with (Ok (mkLayout (wrapS (txt "0")) None)).
      cbn [bind l_exp l_mant]. assert (D0 : den (wrapS (txt "0")) [ch "0"]) by (apply wrapS_den; rewrite int_max_val; vm_compute; discriminate).
      destruct (formatG'_zero c _ P D0 ltac:(lia)) as (w & Ew & Dw & Zw). rewrite Ew. cbn [bind]. rewrite Z.mul_0_l, Z.sub_0_r. apply signAndJustify_den; [exact Hc|exact Dw|]. rewrite int_max_val. lia. }
    specialize (F3 ltac:(lia)). destruct ((-4 <=? X) && (X <? P)) eqn:ES.
    + apply andb_prop in ES as [ES1 ES2]. bools. set (s' := rscale a s P) in *. set (u' := rdig a P) in *.
      assert (LN : 0 < lay_N u' s') by (unfold lay_N; pose proof (pow10_gt0 (- s')); nia). assert (J0 : 0 <= lay_j s') by (unfold lay_j; lia).
      assert (En : ndigits (lay_N u' s') = k + Z.max 0 (- s')) by (unfold lay_N; rewrite ndigits_shift by lia; lia).
      assert (Zt : zlen (decimal_text (lay_N u' s') (lay_j s')) <= 200000).
      { rewrite zlen_decimal_text by lia. assert (lay_j s' <= P + 3) by (unfold lay_j, X in *; lia).
        assert (zlen (numeral 10 (lay_N u' s' / 10 ^ lay_j s')) <= P); [|destruct (lay_j s' =? 0); lia]. apply zlen_numeral_lt; [lia|]. pose proof (pow10_pos (lay_j s') J0).
        split; [apply Z.div_pos; lia|]. apply Z.le_lt_trans with (lay_N u' s'); [apply Z.div_le_upper_bound; nia|].
        destruct (ndigits_bounds _ LN) as (_ & _ & B). assert (10 ^ ndigits (lay_N u' s') <= 10 ^ P) by (apply Z.pow_le_mono_r; unfold X in *; lia). lia. }
      destruct (decimalLayout0_spec u' s' F1 ltac:(lia) ltac:(unfold int_min, int_max; lia) (or_introl F3) ltac:(rewrite int_max_val; lia)) as (m & Em & Dm & _).
      rewrite Em. cbn [bind l_exp l_mant]. destruct (formatG'_den c m _ _ P Dm LN J0 ltac:(lia) ltac:(unfold X in *; lia) ltac:(lia)) as (w & Ew & Dw & Zw). rewrite Ew. cbn [bind].
      assert (E1 : lay_N u' s' * 10 ^ (P - ndigits (lay_N u' s')) = u' * 10 ^ (P - k)).
      { rewrite En. unfold lay_N. rewrite <- Z.mul_assoc, <- Z.pow_add_r by (unfold X in *; lia). do 2 f_equal. lia. }
      assert (E2 : lay_j s' + (P - ndigits (lay_N u' s')) = P - 1 - X) by (rewrite En; unfold lay_j, X; lia).
      rewrite E1, E2 in *. apply signAndJustify_den; [exact Hc|exact Dw|]. rewrite int_max_val. lia.
    + clear ES. destruct (scientificLayout0'_spec (rdig a P) (rscale a s P) F1 ltac:(lia) F4) as (m & x & xs & Em & (Dm & _) & Dx & Zx & Exs).
      rewrite Em. cbn [bind l_mant l_exp]. rewrite F2 in *. pose proof (mant_len _ _ F1 F2 ltac:(lia)) as Zm.
      destruct (formatG'_den c m _ _ P Dm F3 ltac:(lia) ltac:(lia) ltac:(lia) ltac:(lia)) as (w & Ew & Dw & Zw). rewrite Ew. cbn [bind]. rewrite F2 in *.
      replace (k - 1 + (P - k)) with (P - 1) in * by lia.
      apply signAndJustify_den; [exact Hc|apply (append_exp_den _ _ _ xs); try assumption; lia|]. rewrite zlen_app. unfold X. rewrite <- Exs, zlen_cons, int_max_val. lia.
  - replace (int_min <=? rscale a s P) with false by (symmetry; apply Z.leb_gt; lia). reflexivity.
Qed.
