(** FormattedFPDecimal.java: digit arrays, rounding and layouts as texts. *)
From Verif Require Import Base Digits UtilsM MathM MathP DecimalM FPDecimalM FmtSpec FmtP FloatSpec.

(** ** arrays *)

Lemma aset_mid a x b c : aset (a ++ x :: b) (zlen a) c = Ok (a ++ c :: b).
Proof.
  unfold aset. pose proof (zlen_nonneg a). pose proof (zlen_nonneg b).
  replace (0 <=? zlen a) with true by (symmetry; apply Z.leb_le; lia).
  replace (zlen a <? zlen (a ++ x :: b)) with true by (symmetry; apply Z.ltb_lt; rewrite zlen_app, zlen_cons; lia).
  cbn [andb]. unfold zlen. rewrite Nat2Z.id. replace (Z.to_nat (Z.of_nat (List.length a) + 1)) with (List.length a + 1)%nat by lia.
  rewrite firstn_app, Nat.sub_diag, firstn_all. cbn [firstn]. rewrite app_nil_r.
  rewrite skipn_app, skipn_all2 by lia. replace (List.length a + 1 - List.length a)%nat with 1%nat by lia. reflexivity.
Qed.

Lemma snoc_split {A} (m : list A) k : List.length m = S k -> exists m' x, m = m' ++ [x] /\ List.length m' = k.
Proof.
  intros H. destruct (exists_last (l := m)) as (m' & x & ->); [intros ->; discriminate|].
  exists m', x. split; [reflexivity|]. rewrite app_length in H. cbn in H. lia.
Qed.

Lemma toDigit_char d : 0 <= d < 10 -> toDigit d = digit_char d.
Proof.
  intros H. unfold toDigit, digit_char. rewrite (wrap32_small d) by lia. rewrite wrap32_small by lia.
  replace (d <? 10) with true by (symmetry; apply Z.ltb_lt; lia). rewrite Z.mod_small by lia. lia.
Qed.

Lemma fillDigits_spec k : forall x a m b, List.length m = k -> 0 <= x < 2 ^ 63 ->
  fillDigits k x (zlen a + Z.of_nat k) (a ++ m ++ b) = Ok (x / 10 ^ Z.of_nat k, a ++ map digit_char (fixdigs 10 k x) ++ b).
Proof.
  induction k as [|k IH]; intros x a m b Hm Hx.
  - apply length_zero_iff_nil in Hm. subst m. cbn. rewrite Z.div_1_r. reflexivity.
  - destruct (snoc_split m k Hm) as (m' & y & -> & Hl). assert (L : zlen m' = Z.of_nat k) by (unfold zlen; lia). cbn [fillDigits fixdigs].
    rewrite Z.quot_div_nonneg by lia. pose proof (Z.div_mod x 10 ltac:(lia)) as D. pose proof (Z.mod_pos_bound x 10 ltac:(lia)) as M.
    rewrite (wrap64_small (x / 10 * 10)) by lia. rewrite wrap64_small by lia. replace (x - x / 10 * 10) with (x mod 10) by lia.
    rewrite toDigit_char by lia. replace (zlen a + Z.of_nat (S k) - 1) with (zlen (a ++ m')) by (rewrite zlen_app; lia).
    replace (a ++ (m' ++ [y]) ++ b) with ((a ++ m') ++ y :: b) by (rewrite <- !app_assoc; reflexivity).
    rewrite aset_mid. cbn [bind]. replace (zlen (a ++ m')) with (zlen a + Z.of_nat k) by (rewrite zlen_app; lia).
    rewrite <- app_assoc. rewrite IH by (auto; lia).
    replace (Z.of_nat (S k)) with (1 + Z.of_nat k) by lia. rewrite Z.pow_add_r, Z.pow_1_r by lia. rewrite Z.div_div by lia.
    rewrite map_app, <- app_assoc. reflexivity.
Qed.

Lemma fillWithDigits_spec x from to a m b : zlen a = from -> zlen m = to - from -> 0 <= x < 2 ^ 63 ->
  fillWithDigits x from to (a ++ m ++ b) = Ok (x / 10 ^ (to - from), a ++ map digit_char (fixdigs 10 (Z.to_nat (to - from)) x) ++ b).
Proof.
  intros Ha Hm Hx. pose proof (zlen_nonneg m). unfold fillWithDigits. replace to with (zlen a + Z.of_nat (Z.to_nat (to - from))) at 2 by lia.
  rewrite fillDigits_spec by (unfold zlen in Hm; lia). rewrite Z2Nat.id by lia. reflexivity.
Qed.

Lemma fillZ_spec k : forall a m b, List.length m = k ->
  fillZ k (zlen a + Z.of_nat k) (a ++ m ++ b) = Ok (a ++ repeat (ch "0") k ++ b).
Proof.
  induction k as [|k IH]; intros a m b Hm.
  - apply length_zero_iff_nil in Hm. subst m. reflexivity.
  - destruct (snoc_split m k Hm) as (m' & y & -> & Hl). assert (L : zlen m' = Z.of_nat k) by (unfold zlen; lia). cbn [fillZ].
    replace (zlen a + Z.of_nat (S k) - 1) with (zlen (a ++ m')) by (rewrite zlen_app; lia).
    replace (a ++ (m' ++ [y]) ++ b) with ((a ++ m') ++ y :: b) by (rewrite <- !app_assoc; reflexivity).
    rewrite aset_mid. cbn [bind]. replace (zlen (a ++ m')) with (zlen a + Z.of_nat k) by (rewrite zlen_app; lia).
    rewrite <- app_assoc. rewrite IH by auto. change (ch "0" :: b) with ([ch "0"] ++ b). rewrite (app_assoc (repeat _ _)), <- repeat_cons. reflexivity.
Qed.

Lemma fillWithZeros_spec from to a m b : zlen a = from -> zlen m = to - from ->
  fillWithZeros from to (a ++ m ++ b) = Ok (a ++ zeros (to - from) ++ b).
Proof.
  intros Ha Hm. pose proof (zlen_nonneg m). unfold fillWithZeros. replace to with (zlen a + Z.of_nat (Z.to_nat (to - from))) at 2 by lia.
  rewrite fillZ_spec by (unfold zlen in Hm; lia). reflexivity.
Qed.

Lemma newArr_ok n : 0 <= n -> newArr n = Ok (rep 0 n).
Proof. intros H. unfold newArr. replace (n <? 0) with false by (symmetry; apply Z.ltb_ge; lia). reflexivity. Qed.

(** ** digits *)

Lemma zlen_fraction p N : zlen (fraction p N) = Z.max 0 p.
Proof. unfold fraction. rewrite zlen_map, fixdigs_length. lia. Qed.

Lemma numeral_fraction N n : 0 <= N -> ndigits N = n -> fraction n N = numeral 10 N.
Proof. intros H E. unfold fraction, numeral. rewrite (digits_fixdigs 10 N) by lia. subst n. reflexivity. Qed.

Lemma numeral_small d : 0 <= d < 10 -> numeral 10 d = [digit_char d].
Proof. intros H. unfold numeral. rewrite digits_unfold by lia. replace (d <? 10) with true by (symmetry; apply Z.ltb_lt; lia). reflexivity. Qed.

Lemma numeral_0 : numeral 10 0 = txt "0". Proof. reflexivity. Qed.

Lemma fraction_app a b N : 0 <= a -> 0 <= b -> 0 <= N -> fraction (a + b) N = fraction a (N / 10 ^ b) ++ fraction b N.
Proof.
  intros Ha Hb HN. unfold fraction. rewrite Z2Nat.inj_add by lia. rewrite fixdigs_app by lia. rewrite map_app, Z2Nat.id by lia. reflexivity.
Qed.

Lemma fixdigs_0 k : fixdigs 10 k 0 = repeat 0 k.
Proof. induction k; [reflexivity|]. cbn [fixdigs]. change (0 / 10) with 0. change (0 mod 10) with 0. rewrite IHk. symmetry. apply repeat_cons. Qed.

Lemma map_repeat {A B} (f : A -> B) x n : map f (repeat x n) = repeat (f x) n.
Proof. induction n; cbn; [reflexivity|]. f_equal. assumption. Qed.

Lemma fraction_shift N j : 0 <= N -> 0 <= j -> fraction j (N * 10 ^ j) = zeros j.
Proof.
  intros HN Hj. unfold fraction, zeros, rep.
  assert (E : forall k m, 0 <= m -> fixdigs 10 k (m * 10 ^ Z.of_nat k) = repeat 0 k).
  { induction k as [|k IH]; intros m Hm; [reflexivity|]. cbn [fixdigs].
    replace (Z.of_nat (S k)) with (Z.of_nat k + 1) by lia. rewrite Z.pow_add_r, Z.pow_1_r by lia. rewrite Z.mul_assoc.
    rewrite Z.div_mul, Z.mod_mul by lia. rewrite IH by lia. symmetry. apply repeat_cons. }
  rewrite <- (Z2Nat.id j) at 2 by lia. rewrite E by lia. rewrite map_repeat. reflexivity.
Qed.

Lemma pow10_gt0 k : 0 < 10 ^ Z.max 0 k. Proof. apply Z.pow_pos_nonneg; lia. Qed.
Lemma pow10_pos k : 0 <= k -> 0 < 10 ^ k. Proof. intros. apply Z.pow_pos_nonneg; lia. Qed.

Lemma numeral_shift N j : 0 < N -> 0 <= j -> numeral 10 (N * 10 ^ j) = numeral 10 N ++ zeros j.
Proof.
  intros HN Hj. pose proof (pow10_pos j Hj). unfold numeral. rewrite (digits_split 10 (N * 10 ^ j) (Z.to_nat j)); rewrite ?Z2Nat.id by lia; try nia.
  rewrite Z.div_mul by lia. rewrite map_app. f_equal. apply fraction_shift; lia.
Qed.

Lemma numeral_split N j : 0 <= j -> 10 ^ j <= N -> numeral 10 N = numeral 10 (N / 10 ^ j) ++ fraction j N.
Proof.
  intros Hj H. pose proof (pow10_pos j Hj). unfold numeral. rewrite (digits_split 10 N (Z.to_nat j)); rewrite ?Z2Nat.id by lia; try lia. apply map_app.
Qed.

Lemma ndigits_bounds f : 0 < f -> 1 <= ndigits f /\ 10 ^ (ndigits f - 1) <= f < 10 ^ ndigits f.
Proof.
  intros H. unfold ndigits. split; [apply digits_nonempty; lia|]. split; [apply digits_lower; lia|apply digits_upper; lia].
Qed.

Lemma ndigits_unique f n : 0 < f -> 1 <= n -> 10 ^ (n - 1) <= f < 10 ^ n -> ndigits f = n.
Proof. intros. apply digits_length_unique; lia. Qed.

(** ** the layouts *)

Lemma plainChars_spec f e n : 0 <= f < 2 ^ 63 -> ndigits f = n -> (0 < f \/ e = 0) ->
  plainChars (mkFpd f e n) = Ok (if 0 <=? e then numeral 10 (f * 10 ^ e) else decimal_text f (- e)).
Proof.
  intros Hf Hn He. unfold plainChars. cbn [d_e d_n]. assert (N1 : 1 <= n) by (subst n; apply digits_nonempty; lia).
  destruct (0 <=? e) eqn:E; bools.
  - unfold plainCharsPureInteger. cbn [d_f d_e d_n]. rewrite newArr_ok by lia. cbn [bind].
    replace (rep 0 (n + e)) with (rep 0 n ++ rep 0 e ++ []) by (rewrite app_nil_r; symmetry; apply rep_add; lia).
    rewrite fillWithZeros_spec by (rewrite zlen_rep; lia). cbn [bind].
    replace (n + e - n) with e by lia. change (rep 0 n ++ zeros e ++ []) with ([] ++ rep 0 n ++ zeros e ++ []).
    rewrite fillWithDigits_spec by (try rewrite zlen_rep; try reflexivity; lia). cbn [bind]. rewrite Z.sub_0_r, app_nil_r. cbn [app]. f_equal.
    fold (fraction n f). rewrite numeral_fraction by lia. destruct He as [He|He].
    + symmetry. apply numeral_shift; lia.
    + subst e. rewrite Z.pow_0_r, Z.mul_1_r, app_nil_r. reflexivity.
  - unfold decimal_text. replace (- e =? 0) with false by (symmetry; apply Z.eqb_neq; lia).
    destruct He as [He|He]; [|lia].
    pose proof (ndigits_bounds f He) as (_ & B1 & B2). rewrite Hn in B1, B2.
    destruct (0 <? n + e) eqn:E2; bools.
    + unfold plainCharsMixed. cbn [d_f d_e d_n]. rewrite newArr_ok by lia. cbn [bind].
      replace (rep 0 (n + 1)) with (rep 0 (n + e + 1) ++ rep 0 (- e) ++ []) by (rewrite app_nil_r; rewrite <- rep_add by lia; f_equal; lia).
      rewrite fillWithDigits_spec by (try rewrite zlen_rep; lia). cbn [bind]. replace (n + 1 - (n + 1 + e)) with (- e) by lia. fold (fraction (- e) f).
      rewrite rep_add by lia. rewrite <- app_assoc. change (rep 0 1 ++ ?x) with (0 :: x).
      assert (Z1 : n + e = zlen (rep 0 (n + e))) by (rewrite zlen_rep; lia). rewrite Z1 at 2. rewrite aset_mid. cbn [bind].
      change (rep 0 (n + e) ++ ?x) with ([] ++ rep 0 (n + e) ++ x). pose proof (pow10_pos (- e) ltac:(lia)).
      rewrite fillWithDigits_spec; [|reflexivity|rewrite zlen_rep; lia|split; [apply Z.div_pos; lia|apply Z.div_lt_upper_bound; nia]].
      cbn [bind app]. rewrite app_nil_r, Z.sub_0_r. fold (fraction (n + e) (f / 10 ^ (- e))). f_equal.
      rewrite numeral_fraction; [reflexivity|apply Z.div_pos; lia|].
      replace (n - 1) with (n + e - 1 + - e) in B1 by lia. replace n with (n + e + - e) in B2 by lia. rewrite Z.pow_add_r in B1, B2 by lia.
      apply ndigits_unique; [|lia|split; [apply Z.div_le_lower_bound; lia|apply Z.div_lt_upper_bound; lia]].
      apply Z.div_str_pos. pose proof (pow10_pos (n + e - 1) ltac:(lia)). nia.
    + unfold plainCharsPureFraction. cbn [d_f d_e d_n]. rewrite newArr_ok by lia. cbn [bind].
      replace (rep 0 (2 - e)) with (rep 0 (2 - e - n) ++ rep 0 n ++ []) by (rewrite app_nil_r; rewrite <- rep_add by lia; f_equal; lia).
      rewrite fillWithDigits_spec by (try rewrite zlen_rep; lia). cbn [bind]. replace (2 - e - (2 - e - n)) with n by lia. fold (fraction n f).
      change (rep 0 (2 - e - n) ++ ?x) with ([] ++ rep 0 (2 - e - n) ++ x).
      rewrite fillWithZeros_spec by (try rewrite zlen_rep; try reflexivity; lia). cbn [bind app]. rewrite Z.sub_0_r, app_nil_r.
      assert (P : 10 ^ n <= 10 ^ (- e)) by (apply Z.pow_le_mono_r; lia).
      rewrite (Z.div_small f) by lia. rewrite numeral_0.
      replace (zeros (2 - e - n)) with (txt "0" ++ ch "0" :: zeros (- e - n)).
      2:{ unfold zeros. replace (2 - e - n) with (- e - n + 1 + 1) by lia. rewrite !rep_succ by lia. reflexivity. }
      rewrite <- app_assoc. change (aset ?x 1 ?y) with (aset x (zlen (txt "0")) y). cbn [app]. 
      change (ch "0" :: ?a ++ ?b) with (ch "0" :: (a ++ b)). rewrite aset_mid. f_equal. f_equal. f_equal.
      replace (- e) with (- e - n + n) at 2 by lia. rewrite fraction_app by lia. f_equal.
      rewrite Z.div_small by lia. symmetry. rewrite <- (Z.mul_0_l (10 ^ (- e - n))). apply fraction_shift; lia.
Qed.

(** ** rounding *)

Definition rnd (f e n pp : Z) : fpd :=
  if n <=? pp then mkFpd f e n
  else
    let r := hup f (n - pp) in
    if r =? 0 then mkFpd 0 0 1
    else if pp =? 0 then mkFpd r (e + n) 1
    else if r =? 10 ^ pp then mkFpd (10 ^ (pp - 1)) (e + n - pp + 1) pp
    else mkFpd r (e + n - pp) pp.

Lemma pow10_value e : 0 <= e <= 17 -> pow10 e = Ok (10 ^ e).
Proof.
  intros H. assert (E : (e = 0 \/ e = 1 \/ e = 2 \/ e = 3 \/ e = 4 \/ e = 5 \/ e = 6 \/ e = 7 \/ e = 8 \/ e = 9 \/ e = 10 \/ e = 11 \/ e = 12 \/ e = 13 \/ e = 14 \/ e = 15 \/ e = 16 \/ e = 17)) by lia.
  repeat destruct E as [->|E]; try reflexivity. rewrite E. reflexivity.
Qed.

Lemma half_pow k : 0 < k -> 10 ^ k / 2 = 5 * 10 ^ (k - 1) /\ 10 ^ k = 10 * 10 ^ (k - 1).
Proof.
  intros H. replace k with (k - 1 + 1) at 1 3 by lia. rewrite Z.pow_add_r, Z.pow_1_r by lia. split; [|lia].
  replace (10 ^ (k - 1) * 10) with (5 * 10 ^ (k - 1) * 2) by lia. apply Z.div_mul. lia.
Qed.

Lemma hup_pos_eq f k : 0 < k -> hup f k = (f + 5 * 10 ^ (k - 1)) / 10 ^ k.
Proof. intros H. unfold hup. replace (k <=? 0) with false by (symmetry; apply Z.leb_gt; lia). rewrite (proj1 (half_pow k H)). reflexivity. Qed.

(** dropping [k] of [n] digits leaves [n - k], or the next power of ten *)
Lemma hup_range f n k : 0 < f -> ndigits f = n -> 0 < k -> k < n -> 10 ^ (n - k - 1) <= hup f k <= 10 ^ (n - k).
Proof.
  intros Hf Hn Hk Hkn. destruct (ndigits_bounds f Hf) as (_ & B1 & B2). rewrite Hn in *. rewrite hup_pos_eq by exact Hk.
  pose proof (pow10_pos k ltac:(lia)) as P. destruct (half_pow k Hk) as [_ E].
  replace (n - 1) with (n - k - 1 + k) in B1 by lia. replace n with (n - k + k) in B2 by lia. rewrite Z.pow_add_r in B1, B2 by lia.
  split.
  - apply Z.div_le_lower_bound; [lia|]. lia.
  - apply Z.lt_succ_r. apply Z.div_lt_upper_bound; [lia|]. lia.
Qed.

Lemma hup_all f n : 0 < f -> ndigits f = n -> 0 <= hup f n <= 1.
Proof.
  intros Hf Hn. destruct (ndigits_bounds f Hf) as (N1 & B1 & B2). rewrite Hn in *. rewrite hup_pos_eq by lia.
  pose proof (pow10_pos n ltac:(lia)) as P. destruct (half_pow n ltac:(lia)) as [_ E]. split; [apply Z.div_pos; lia|].
  apply Z.lt_succ_r. apply Z.div_lt_upper_bound; lia.
Qed.

Lemma hup_beyond f n k : 0 < f -> ndigits f = n -> n < k -> hup f k = 0.
Proof.
  intros Hf Hn Hk. destruct (ndigits_bounds f Hf) as (N1 & B1 & B2). rewrite Hn in *. rewrite hup_pos_eq by lia.
  destruct (half_pow k ltac:(lia)) as [_ E]. assert (10 ^ n <= 10 ^ (k - 1)) by (apply Z.pow_le_mono_r; lia).
  apply Z.div_small. lia.
Qed.

Lemma round_spec f e n pp : 0 < f < 10 ^ 17 -> ndigits f = n -> -400 <= e <= 400 -> -2000000 <= pp <= 2000000 ->
  round (mkFpd f e n) pp = Ok (rnd f e n pp).
Proof.
  intros Hf Hn He Hp. destruct (ndigits_bounds f ltac:(lia)) as (N1 & B1 & B2). rewrite Hn in *.
  assert (N17 : n <= 17). { destruct (Z_le_gt_dec n 17) as [H|H]; [exact H|]. assert (10 ^ 17 <= 10 ^ (n - 1)) by (apply Z.pow_le_mono_r; lia). lia. }
  unfold round, rnd. cbn [d_f d_e d_n]. replace (n =? 0) with false by (symmetry; apply Z.eqb_neq; lia). cbn [orb].
  destruct (pp <? 0) eqn:E1; bools.
  { replace (n <=? pp) with false by (symmetry; apply Z.leb_gt; lia). cbv zeta. rewrite (hup_beyond f n) by lia. reflexivity. }
  destruct (n <=? pp) eqn:E2; bools; [reflexivity|].
  rewrite (wrap32_small pp) by lia. rewrite (wrap32_small (e + (n - pp))) by lia. rewrite pow10_value by lia. cbn [bind].
  rewrite lshr_spec by lia. rewrite Z.pow_1_r. pose proof (pow10_pos (n - pp) ltac:(lia)) as P.
  assert (U : 10 ^ (n - pp) <= 10 ^ 17) by (apply Z.pow_le_mono_r; lia).
  destruct (half_pow (n - pp) ltac:(lia)) as [Hh He10]. rewrite wrap64_small by lia. rewrite Z.quot_div_nonneg by lia.
  replace ((f + 10 ^ (n - pp) / 2) / 10 ^ (n - pp)) with (hup f (n - pp)) by (rewrite hup_pos_eq by lia; rewrite Hh; reflexivity).
  cbv zeta. destruct (pp =? 0) eqn:E3; bools.
  - subst pp. rewrite Z.sub_0_r. destruct (hup f n =? 0) eqn:E4; bools; [rewrite E4|]; reflexivity.
  - rewrite pow10_value by lia. cbn [bind]. pose proof (hup_range f n (n - pp) ltac:(lia) Hn ltac:(lia) ltac:(lia)) as R.
    replace (n - (n - pp) - 1) with (pp - 1) in R by lia. pose proof (pow10_pos (pp - 1) ltac:(lia)).
    replace (hup f (n - pp) =? 0) with false by (symmetry; apply Z.eqb_neq; lia).
    destruct (hup f (n - pp) =? 10 ^ pp) eqn:E4; bools.
    + rewrite E4. rewrite wrap32_small by lia. rewrite (proj2 (half_pow pp ltac:(lia))). rewrite Z.quot_div_nonneg by lia.
      rewrite Z.mul_comm, Z.div_mul by lia. do 2 f_equal. lia.
    + do 2 f_equal. lia.
Qed.

Lemma ndigits_pow k : 1 <= k -> ndigits (10 ^ (k - 1)) = k.
Proof. intros H. pose proof (pow10_pos (k - 1) ltac:(lia)). apply ndigits_unique; try lia. split; [lia|]. apply Z.pow_lt_mono_r; lia. Qed.

(** the rounded decimal is well formed *)
Lemma rnd_ok f e n pp : 0 < f < 10 ^ 17 -> ndigits f = n ->
  let d := rnd f e n pp in 0 <= d_f d < 10 ^ 17 /\ ndigits (d_f d) = d_n d /\ (0 < d_f d \/ d_e d = 0).
Proof.
  intros Hf Hn. unfold rnd. destruct (n <=? pp) eqn:E2; bools; cbv zeta; cbn [d_f d_e d_n]; [split; [lia|split; [exact Hn|left; lia]]|].
  destruct (hup f (n - pp) =? 0) eqn:E0; bools; cbn [d_f d_e d_n]; [split; [lia|split; [reflexivity|right; reflexivity]]|].
  destruct (Z_lt_ge_dec pp 0) as [Hp|Hp]; [rewrite (hup_beyond f n) in E0 by lia; lia|].
  destruct (pp =? 0) eqn:E3; bools; cbn [d_f d_e d_n].
  - subst pp. rewrite Z.sub_0_r in *. pose proof (hup_all f n ltac:(lia) Hn). assert (E : hup f n = 1) by lia. rewrite E.
    split; [lia|]. split; [reflexivity|left; lia].
  - pose proof (hup_range f n (n - pp) ltac:(lia) Hn ltac:(lia) ltac:(lia)) as R. replace (n - (n - pp) - 1) with (pp - 1) in R by lia.
    replace (n - (n - pp)) with pp in R by lia. pose proof (pow10_pos (pp - 1) ltac:(lia)).
    destruct (ndigits_bounds f ltac:(lia)) as (N1 & B1 & B2). rewrite Hn in *.
    assert (P2 : 10 ^ pp <= 10 ^ (n - 1)) by (apply Z.pow_le_mono_r; lia).
    destruct (hup f (n - pp) =? 10 ^ pp) eqn:E4; bools; cbn [d_f d_e d_n].
    + assert (10 ^ (pp - 1) <= 10 ^ pp) by (apply Z.pow_le_mono_r; lia). split; [lia|]. split; [apply ndigits_pow; lia|left; lia].
    + split; [lia|]. split; [apply ndigits_unique; lia|left; lia].
Qed.

(** ** exponents *)

Lemma exp_chars f e n : let x := n + e - 1 in -999 <= x <= 999 ->
  ch "e" :: expChars (mkFpd f e n) = exp_text x.
Proof.
  intros x Hx. unfold expChars, exponentRounded, exp_text. cbn [d_n d_e]. fold x. unfold min_digits.
  assert (G : forall d, 0 <= d < 10 -> toDigit d = digit_char d) by (intros; apply toDigit_char; assumption).
  set (a := Z.abs x). assert (Ha : 0 <= a <= 999) by (unfold a; lia).
  replace (if x <? 0 then ch "-" else ch "+") with (if 0 <=? x then ch "+" else ch "-") by (destruct (0 <=? x) eqn:E1, (x <? 0) eqn:E2; bools; try reflexivity; lia).
  rewrite (Z.quot_div_nonneg a) by lia. rewrite (Z.quot_div_nonneg (a / 10)) by (try lia; apply Z.div_pos; lia).
  pose proof (Z.div_mod a 10 ltac:(lia)) as D. pose proof (Z.mod_pos_bound a 10 ltac:(lia)) as M.
  replace (a - 10 * (a / 10)) with (a mod 10) by lia.
  pose proof (Z.div_mod (a / 10) 10 ltac:(lia)) as D2. pose proof (Z.mod_pos_bound (a / 10) 10 ltac:(lia)) as M2.
  replace (a / 10 - 10 * (a / 10 / 10)) with ((a / 10) mod 10) by lia.
  assert (Nu : forall m, 10 <= m -> numeral 10 m = numeral 10 (m / 10) ++ [digit_char (m mod 10)]).
  { intros m Hm. unfold numeral. rewrite (digits_unfold 10 m) by lia. replace (m <? 10) with false by (symmetry; apply Z.ltb_ge; lia). rewrite map_app. reflexivity. }
  destruct (100 <=? a) eqn:E; bools.
  - rewrite !G by lia. rewrite (Nu a), (Nu (a / 10)) by lia. rewrite (numeral_small (a / 10 / 10)) by lia. reflexivity.
  - rewrite !G by lia. destruct (Z_lt_ge_dec a 10) as [H|H].
    + rewrite numeral_small by lia. rewrite (Z.div_small a 10), (Z.mod_small a 10) by lia. reflexivity.
    + rewrite (Nu a) by lia. rewrite (numeral_small (a / 10)) by lia. reflexivity.
Qed.

(** ** scientific mantissa *)

Lemma mantissa_chars f e n prec : 0 < f < 2 ^ 63 -> ndigits f = n -> (prec = 0 -> n = 1) ->
  scientificMantissa (mkFpd f e n) prec = Ok (if prec =? 0 then decimal_text f 0 else if n =? 1 then alt_text f 0 else decimal_text f (n - 1)).
Proof.
  intros Hf Hn Hp. unfold scientificMantissa. cbn [d_f d_n]. destruct (ndigits_bounds f ltac:(lia)) as (N1 & B1 & B2). rewrite Hn in *.
  assert (D1 : n = 1 -> 0 <= f < 10) by (intros ->; lia).
  destruct (prec =? 0) eqn:E; bools; cbn [negb].
  - rewrite toDigit_char by auto. unfold decimal_text. rewrite Z.pow_0_r, Z.div_1_r. rewrite numeral_small by auto. reflexivity.
  - rewrite newArr_ok by lia. cbn [bind]. replace (rep 0 (1 + n)) with (rep 0 2 ++ rep 0 (n - 1) ++ []) by (rewrite app_nil_r; rewrite <- rep_add by lia; f_equal; lia).
    rewrite fillWithDigits_spec by (try rewrite zlen_rep; lia). cbn [bind]. replace (1 + n - 2) with (n - 1) by lia. fold (fraction (n - 1) f). rewrite app_nil_r.
    change (rep 0 2 ++ fraction (n - 1) f) with ([0] ++ 0 :: fraction (n - 1) f). change (aset ?x 1 ?y) with (aset x (zlen [0]) y). rewrite aset_mid. cbn [bind].
    change ([0] ++ ch "." :: fraction (n - 1) f) with ([] ++ 0 :: ch "." :: fraction (n - 1) f). change (aset ?x 0 ?y) with (aset x (zlen (@nil Z)) y). rewrite aset_mid.
    pose proof (pow10_pos (n - 1) ltac:(lia)) as P.
    assert (Q : 0 <= f / 10 ^ (n - 1) < 10).
    { split; [apply Z.div_pos; lia|]. apply Z.div_lt_upper_bound; [lia|]. replace n with (n - 1 + 1) in B2 at 1 by lia. rewrite Z.pow_add_r, Z.pow_1_r in B2 by lia. lia. }
    rewrite toDigit_char by exact Q. f_equal. unfold alt_text, decimal_text.
    destruct (n =? 1) eqn:E1; bools.
    + rewrite E1. change (1 - 1) with 0. change (fraction 0 f) with (@nil Z). rewrite Z.pow_0_r, Z.div_1_r. cbn [Z.eqb]. rewrite app_nil_r. rewrite numeral_small by lia. reflexivity.
    + replace (n - 1 =? 0) with false by (symmetry; apply Z.eqb_neq; lia). rewrite numeral_small by exact Q. reflexivity.
Qed.
