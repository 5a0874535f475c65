(** Proofs about %a: DoubleWrapper.java:83-153 and SeqFormatter.java:303-338. *)
From Coq Require Import QArith.
From Verif Require Import Base Digits UtilsM SeqM SeqSpec SeqP SeqSubP ContextM IntFormM FormatterM MathM MathP DecimalM FPDecimalM DoubleM FmtSpec FmtP
  DecSpec FloatSpec FPDecP FloatP GCheck CertTable CertCheck IrrCheck SchubM SchubP DoubleP.
Open Scope Z_scope.

(** ** near_even *)

Lemma near_even_scale n d k : 0 < d -> 0 < k -> near_even (n * k) (d * k) = near_even n d.
Proof.
  intros Hd Hk. unfold near_even. rewrite Z.div_mul_cancel_r by lia. rewrite Z.mul_mod_distr_r by lia. set (r := n mod d).
  replace (2 * (r * k) <? d * k) with (2 * r <? d).
  2:{ rewrite Z.mul_assoc. destruct (Z.ltb_spec (2 * r) d), (Z.ltb_spec (2 * r * k) (d * k)); try reflexivity; exfalso; nia. }
  replace (d * k <? 2 * (r * k)) with (d <? 2 * r); [reflexivity|].
  rewrite Z.mul_assoc. destruct (Z.ltb_spec d (2 * r)), (Z.ltb_spec (d * k) (2 * r * k)); try reflexivity; exfalso; nia.
Qed.

Lemma near_even_add a n d : 0 < d -> Z.even a = true -> near_even (a * d + n) d = a + near_even n d.
Proof.
  intros Hd Ha. unfold near_even. rewrite Z.add_comm, Z.div_add by lia. rewrite Z.mod_add by lia. rewrite (Z.add_comm (n / d) a).
  rewrite Z.even_add, Ha. destruct (2 * (n mod d) <? d); [reflexivity|]. destruct (d <? 2 * (n mod d)); [lia|]. destruct (Z.even (n / d)); cbn; lia.
Qed.

Lemma near_even_range n d h : 0 < d -> 0 <= n < h * d -> 0 <= near_even n d <= h.
Proof.
  intros Hd Hn. unfold near_even. assert (0 <= n / d < h) by (split; [apply Z.div_pos; lia|apply Z.div_lt_upper_bound; nia]).
  destruct (2 * (n mod d) <? d); [lia|]. destruct (d <? 2 * (n mod d)); [lia|]. destruct (Z.even (n / d)); lia.
Qed.

(** ** bits *)

Lemma ldiff_sub a b : Z.ldiff a b = a - Z.land a b.
Proof.
  assert (E : Z.land (Z.ldiff a b) (Z.land a b) = 0).
  { apply Z.bits_inj'. intros n _. rewrite Z.land_spec, Z.ldiff_spec, Z.land_spec, Z.bits_0. destruct (Z.testbit a n), (Z.testbit b n); reflexivity. }
  pose proof (Z.lor_ldiff_and a b) as L. rewrite <- Z.lxor_lor in L by exact E. rewrite <- Z.add_nocarry_lxor in L by exact E. lia.
Qed.

Lemma land_pow2 k r : 0 <= k -> Z.land (2 ^ k) r = (r / 2 ^ k) mod 2 * 2 ^ k.
Proof.
  intros Hk. rewrite <- Z.testbit_spec' by exact Hk. apply Z.bits_inj'. intros n Hn. rewrite Z.land_spec, Z.pow2_bits_eqb by exact Hk.
  rewrite Z.mul_pow2_bits by exact Hk. destruct (Z.eqb_spec k n) as [->|N].
  - rewrite Z.sub_diag. destruct (Z.testbit r n); reflexivity.
  - cbn. symmetry. destruct (Z_lt_ge_dec (n - k) 0); [apply Z.testbit_neg_r; lia|]. destruct (Z.testbit r k); [|apply Z.bits_0].
    change (Z.b2z true) with (2 ^ 0). rewrite Z.pow2_bits_eqb by lia. apply Z.eqb_neq. lia.
Qed.

Lemma lor_sign d x : - 2 ^ 63 <= d < 2 ^ 63 -> 0 <= x < 2 ^ 63 -> Z.lor (Z.land d SIGN_BIT_MASK) x = (if d <? 0 then - 2 ^ 63 else 0) + x.
Proof.
  intros Hd Hx. assert (L : forall a, Z.land a SIGN_BIT_MASK = a - a mod 2 ^ 63).
  { intros a. change SIGN_BIT_MASK with (Z.lnot (2 ^ 63 - 1)). rewrite <- Z.ldiff_land, ldiff_sub. rewrite land_mask by lia. reflexivity. }
  assert (E : Z.land d SIGN_BIT_MASK = if d <? 0 then - 2 ^ 63 else 0).
  { rewrite L. destruct (Z.ltb_spec d 0); [|rewrite Z.mod_small by lia; lia].
    assert (M : d mod 2 ^ 63 = d + 2 ^ 63) by (symmetry; apply (Z.mod_unique_pos d (2 ^ 63) (-1)); lia). rewrite M. lia. }
  rewrite E. destruct (d <? 0); [|reflexivity].
  assert (Z0 : Z.land (- 2 ^ 63) x = 0) by (rewrite Z.land_comm; change (- 2 ^ 63) with SIGN_BIT_MASK; rewrite L, Z.mod_small by lia; lia).
  rewrite Z.add_nocarry_lxor by exact Z0. symmetry. apply Z.lxor_lor. exact Z0.
Qed.

(** keeping 52 - s fraction bits is rounding to even *)
Lemma hexRound_spec d P : - 2 ^ 63 <= d < 2 ^ 63 -> 1 <= P <= 12 -> dbl_mag d <= inf_bits ->
  hexRound d P = (if d <? 0 then - 2 ^ 63 else 0) + near_even (dbl_mag d) (2 ^ (52 - 4 * P)) * 2 ^ (52 - 4 * P) /\
  near_even (dbl_mag d) (2 ^ (52 - 4 * P)) * 2 ^ (52 - 4 * P) <= inf_bits.
Proof.
  intros Hd HP Hm. unfold hexRound. cbv zeta. unfold SIGNIFICAND_WIDTH. replace (53 - (1 + P * 4)) with (52 - 4 * P) by lia.
  set (s := 52 - 4 * P). assert (Hs : 4 <= s <= 48) by (unfold s; lia). assert (H2 : 2 ^ s = 2 * 2 ^ (s - 1)) by (rewrite <- Z.pow_succ_r by lia; f_equal; lia).
  pose proof (Z.pow_pos_nonneg 2 (s - 1) ltac:(lia) ltac:(lia)) as Hp. set (h := 2 ^ (s - 1)) in *.
  assert (Hsm : 2 ^ s <= 2 ^ 48) by (apply Z.pow_le_mono_r; lia).
  change EXP_SIGNIF_MASK with (2 ^ 63 - 1). rewrite land_mask by lia. fold (dbl_mag d). set (m := dbl_mag d) in *.
  assert (Em : m = d mod 2 ^ 63) by reflexivity. pose proof (mag_range d) as Rm. fold m in Rm. clearbody m.
  rewrite lshr_spec by lia. rewrite (lshl_small (-1) s), (lshl_small 1 (s - 1)) by lia.
  replace (Z.lnot (-1 * 2 ^ s)) with (2 ^ s - 1) by (unfold Z.lnot; lia). rewrite land_mask by lia.
  assert (Er : d mod 2 ^ s = m mod 2 ^ s).
  { rewrite Em. replace (2 ^ 63) with (2 ^ s * 2 ^ (63 - s)) by (rewrite <- Z.pow_add_r by lia; f_equal; lia). pose proof (Z.pow_pos_nonneg 2 (63 - s) ltac:(lia) ltac:(lia)).
    rewrite Z.rem_mul_r by lia. rewrite (Z.mul_comm (2 ^ s) (_ mod _)), Z.mod_add by lia. rewrite Z.mod_mod by lia. reflexivity. }
  rewrite Er. rewrite !Z.mul_1_l. fold h. pose proof (Z.mod_pos_bound m (2 ^ s) ltac:(lia)) as Rr. set (r := m mod 2 ^ s) in *. set (k := m / 2 ^ s).
  assert (Lh : Z.land h r = if r <? h then 0 else h).
  { unfold h. rewrite land_pow2 by lia. fold h. destruct (Z.ltb_spec r h); [rewrite Z.div_small by lia; reflexivity|].
    replace (r / h) with 1; [change (1 mod 2) with 1; lia|]. apply (Z.div_unique_pos r h 1 (r - h)); lia. }
  assert (Ll : Z.land (Z.lnot h) r = if r <? h then r else r - h).
  { rewrite Z.land_comm, <- Z.ldiff_land, ldiff_sub, (Z.land_comm r h), Lh. destruct (r <? h); lia. }
  rewrite Lh, Ll. replace (1 <? s) with true by (symmetry; apply Z.ltb_lt; lia). cbn [andb].
  assert (Ek : (Z.land k 1 =? 0) = Z.even k).
  { change 1 with (2 ^ 1 - 1). rewrite land_mask by lia. rewrite Zmod_even. destruct (Z.even k); reflexivity. }
  rewrite Ek.
  match goal with |- Z.lor _ (lshl ?x s) = _ + ?y * _ /\ _ => assert (E : x = y) end.
  { unfold near_even. fold k r. destruct (Z.ltb_spec r h) as [L1|L1].
    - rewrite Z.eqb_refl. cbn [negb]. rewrite !andb_false_r. cbn [orb]. replace (2 * r <? 2 ^ s) with true by (symmetry; apply Z.ltb_lt; lia). reflexivity.
    - replace (h =? 0) with false by (symmetry; apply Z.eqb_neq; lia). cbn [negb]. replace (2 * r <? 2 ^ s) with false by (symmetry; apply Z.ltb_ge; lia).
      rewrite !andb_true_r. destruct (Z.ltb_spec (2 ^ s) (2 * r)) as [L2|L2].
      + replace (r - h =? 0) with false by (symmetry; apply Z.eqb_neq; lia). destruct (Z.even k); reflexivity.
      + replace (r - h =? 0) with true by (symmetry; apply Z.eqb_eq; lia). destruct (Z.even k); reflexivity. }
  rewrite E. clear E.
  assert (B : 0 <= near_even m (2 ^ s) * 2 ^ s <= inf_bits).
  { assert (G : near_even m (2 ^ s) <= 2047 * 2 ^ (52 - s)).
    { replace inf_bits with (2047 * 2 ^ (52 - s) * 2 ^ s) in Hm by (rewrite <- Z.mul_assoc, <- Z.pow_add_r by lia; unfold inf_bits; do 2 f_equal; lia).
      set (H := 2047 * 2 ^ (52 - s)) in *. destruct (Z.eq_dec m (H * 2 ^ s)) as [->|N].
      - unfold near_even. rewrite Z.mod_mul, Z.div_mul by lia. replace (2 * 0 <? 2 ^ s) with true by (symmetry; apply Z.ltb_lt; lia). lia.
      - apply (near_even_range m (2 ^ s) H); lia. }
    split; [apply Z.mul_nonneg_nonneg; [apply (near_even_range m (2 ^ s) (m + 1)); nia|lia]|].
    replace inf_bits with (2047 * 2 ^ (52 - s) * 2 ^ s) by (rewrite <- Z.mul_assoc, <- Z.pow_add_r by lia; unfold inf_bits; do 2 f_equal; lia). nia. }
  unfold inf_bits in B. rewrite lshl_small by lia. split; [|unfold inf_bits; lia]. apply lor_sign; lia.
Qed.

(** ** digits *)

Lemma pow16_pos k : 0 <= k -> 0 < 16 ^ k. Proof. intros. apply Z.pow_pos_nonneg; lia. Qed.

Lemma digit_char_zero d : 0 <= d < 16 -> (digit_char d =? ch "0") = (d =? 0).
Proof. intros H. unfold digit_char. change (ch "0") with 48. destruct (Z.ltb_spec d 10); destruct (Z.eqb_spec d 0); [subst; reflexivity| | |]; apply Z.eqb_neq || apply Z.eqb_eq; lia. Qed.

Lemma drop_hex_spec p : forall M, 0 <= M -> let (G, k) := drop_hex (S p) M in 1 <= k <= Z.of_nat (S p) /\ M = G * 16 ^ (Z.of_nat (S p) - k) /\ 0 <= G.
Proof.
  induction p as [|p IH]; intros M HM; [cbn; lia|]. change (drop_hex (S (S p)) M) with (if M mod 16 =? 0 then drop_hex (S p) (M / 16) else (M, Z.of_nat (S (S p)))).
  destruct (M mod 16 =? 0) eqn:E; bools.
  - specialize (IH (M / 16) ltac:(apply Z.div_pos; lia)). destruct (drop_hex (S p) (M / 16)) as [G k]. destruct IH as (K & EM & HG). split; [lia|]. split; [|exact HG].
    replace (Z.of_nat (S (S p)) - k) with (Z.succ (Z.of_nat (S p) - k)) by lia. rewrite Z.pow_succ_r by lia.
    pose proof (Z.div_mod M 16 ltac:(lia)). nia.
  - split; [lia|]. split; [|exact HM]. rewrite Z.sub_diag, Z.pow_0_r. lia.
Qed.

Lemma drop_hex_shift p z : forall M, 0 <= M -> drop_hex (z + S p) (M * 16 ^ Z.of_nat z) = drop_hex (S p) M.
Proof.
  induction z as [|z IH]; intros M HM; [cbn [Nat.add Z.of_nat]; rewrite Z.pow_0_r, Z.mul_1_r; reflexivity|].
  replace (S z + S p)%nat with (S (S (z + p))) by lia.
  change (drop_hex (S (S (z + p))) (M * 16 ^ Z.of_nat (S z))) with
    (if M * 16 ^ Z.of_nat (S z) mod 16 =? 0 then drop_hex (S (z + p)) (M * 16 ^ Z.of_nat (S z) / 16) else (M * 16 ^ Z.of_nat (S z), Z.of_nat (S (S (z + p))))).
  rewrite Nat2Z.inj_succ, Z.pow_succ_r by lia. replace (M * (16 * 16 ^ Z.of_nat z)) with (M * 16 ^ Z.of_nat z * 16) by ring.
  rewrite Z.mod_mul, Z.div_mul by lia. cbn [Z.eqb]. replace (S (z + p)) with (z + S p)%nat by lia. apply IH. exact HM.
Qed.

Lemma strip_hex p : forall M, 0 <= M ->
  (match strip0 (map digit_char (fixdigs 16 (S p) M)) with [] => txt "0" | l => l end) = (let (G, k) := drop_hex (S p) M in hex_fraction k G).
Proof.
  induction p as [|p IH]; intros M HM.
  - cbn [fixdigs app map strip0 drop_hex]. pose proof (Z.mod_pos_bound M 16 ltac:(lia)) as B. rewrite digit_char_zero by exact B.
    unfold hex_fraction. change (Z.to_nat (Z.of_nat 1)) with 1%nat. cbn [fixdigs app map]. destruct (Z.eqb_spec (M mod 16) 0) as [E|E]; [rewrite E|]; reflexivity.
  - change (drop_hex (S (S p)) M) with (if M mod 16 =? 0 then drop_hex (S p) (M / 16) else (M, Z.of_nat (S (S p)))).
    change (fixdigs 16 (S (S p)) M) with (fixdigs 16 (S p) (M / 16) ++ [M mod 16]). rewrite map_app. cbn [map]. rewrite strip0_snoc.
    pose proof (Z.mod_pos_bound M 16 ltac:(lia)) as B. rewrite digit_char_zero by exact B. destruct (M mod 16 =? 0) eqn:E; bools.
    + apply IH. apply Z.div_pos; lia.
    + unfold hex_fraction. rewrite Nat2Z.id. change (fixdigs 16 (S (S p)) M) with (fixdigs 16 (S p) (M / 16) ++ [M mod 16]). rewrite map_app. cbn [map].
      destruct (map digit_char (fixdigs 16 (S p) (M / 16)) ++ [digit_char (M mod 16)]) eqn:El; [destruct (map digit_char (fixdigs 16 (S p) (M / 16))); discriminate|reflexivity].
Qed.

Lemma fixdigs_low b k : forall a n, 2 <= b -> fixdigs b k (a * b ^ Z.of_nat k + n) = fixdigs b k n.
Proof.
  induction k as [|k IH]; intros a n Hb; [reflexivity|]. cbn [fixdigs]. rewrite Nat2Z.inj_succ, Z.pow_succ_r by lia.
  replace (a * (b * b ^ Z.of_nat k) + n) with (n + a * b ^ Z.of_nat k * b) by ring. rewrite Z.div_add, Z.mod_add by lia. f_equal. rewrite Z.add_comm. apply IH. exact Hb.
Qed.

Lemma zlen_hex_fraction k M : 0 <= k -> zlen (hex_fraction k M) = k.
Proof. intros H. unfold hex_fraction. rewrite zlen_map, fixdigs_length. lia. Qed.

(** trailing zeros *)
Lemma hex_text_pad G k P : 0 <= G -> 1 <= k <= P -> hex_text G k ++ zeros (P - k) = hex_text (G * 16 ^ (P - k)) P.
Proof.
  intros HG Hk. unfold hex_text. rewrite <- app_assoc. cbn [app]. pose proof (pow16_pos (P - k) ltac:(lia)) as Hp. f_equal.
  - f_equal. replace P with (k + (P - k)) at 2 by lia. rewrite Z.pow_add_r by lia. rewrite Z.div_mul_cancel_r; [reflexivity|pose proof (pow16_pos k); lia|lia].
  - f_equal. unfold hex_fraction. replace (Z.to_nat P) with (Z.to_nat (P - k) + Z.to_nat k)%nat by lia.
    set (z := Z.to_nat (P - k)). replace (P - k) with (Z.of_nat z) by (unfold z; lia). generalize (Z.to_nat k) as j. clear Hk Hp. clearbody z. intros j.
    induction z as [|z IH]; [cbn [Z.of_nat Nat.add]; rewrite Z.pow_0_r, Z.mul_1_r; apply app_nil_r|].
    cbn [Nat.add fixdigs]. rewrite Nat2Z.inj_succ, Z.pow_succ_r by lia. replace (G * (16 * 16 ^ Z.of_nat z)) with (G * 16 ^ Z.of_nat z * 16) by ring.
    rewrite Z.mod_mul, Z.div_mul by lia. rewrite map_app, <- IH. unfold zeros. unfold Z.succ. rewrite rep_add by lia. rewrite app_assoc. reflexivity.
Qed.

(** ** Double.toHexString *)

Definition hex_mant (c : Z) : list Z := let (M, k) := drop_hex 13 c in hex_text M k.

Lemma hex_mant_text I t : 0 <= I <= 1 -> 0 <= t < 2 ^ 52 -> hex_mant (I * 2 ^ 52 + t) = numeral 16 I ++ ch "." :: hexFraction t.
Proof.
  intros HI Ht. unfold hex_mant. pose proof (drop_hex_spec 12 (I * 2 ^ 52 + t) ltac:(lia)) as D. pose proof (strip_hex 12 (I * 2 ^ 52 + t) ltac:(lia)) as S.
  destruct (drop_hex 13 (I * 2 ^ 52 + t)) as [G k]. destruct D as (K & E & HG). change (Z.of_nat 13) with 13 in *. unfold hex_text. f_equal.
  - f_equal. assert (Hd : (I * 2 ^ 52 + t) / 16 ^ 13 = I) by (change (16 ^ 13) with (2 ^ 52); symmetry; apply (Z.div_unique_pos _ _ I t); lia). rewrite <- Hd, E.
    replace 13 with (k + (13 - k)) at 2 by lia. pose proof (pow16_pos k). pose proof (pow16_pos (13 - k)). rewrite Z.pow_add_r by lia. rewrite Z.div_mul_cancel_r by lia. reflexivity.
  - f_equal. rewrite <- S. unfold hexFraction. change (2 ^ 52) with (16 ^ Z.of_nat 13). rewrite (fixdigs_low 16 13) by lia. reflexivity.
Qed.

Definition sgn_of (b : Z) : list Z := if b <? 0 then txt "-" else [].

Lemma pair_eq {A B} (a a' : A) (b b' : B) : (a, b) = (a', b') -> a = a' /\ b = b'.
Proof. intros E. split; congruence. Qed.

Lemma toHexString_text b c x : dbl_mag b < inf_bits -> bin_parts (dbl_mag b) = (c, x) ->
  toHexString b = sgn_of b ++ txt "0x" ++ hex_mant c ++ ch "p" :: dec_text x.
Proof.
  intros Hb Hp. destruct (finite_tests b Hb) as (T1 & T2 & _). unfold toHexString. rewrite T1, T2. unfold dbl_neg. fold (sgn_of b). f_equal.
  assert (Ef : dbl_frac b = dbl_mag b mod 2 ^ 52) by (unfold dbl_frac, dbl_mag; rewrite mod_mod_pow; reflexivity). rewrite Ef. unfold dbl_getExponent, dbl_bexp, dbl_isZero.
  pose proof (mag_range b) as R. set (m := dbl_mag b) in *. clearbody m. unfold bin_parts in Hp. pose proof (Z.mod_pos_bound m (2 ^ 52) ltac:(lia)) as B.
  pose proof (Z.div_mod m (2 ^ 52) ltac:(lia)) as D. destruct (m =? 0) eqn:E0; bools.
  - subst m. injection Hp as <- <-. reflexivity.
  - destruct (m / 2 ^ 52 =? 0) eqn:E1; bools; apply pair_eq in Hp as [<- <-].
    + pose proof (hex_mant_text 0 m ltac:(lia) ltac:(lia)) as HM. rewrite Z.mul_0_l, Z.add_0_l in HM. rewrite HM. rewrite Z.mod_small by lia. change (numeral 16 0) with (txt "0").
      rewrite <- app_assoc. reflexivity.
    + pose proof (hex_mant_text 1 (m mod 2 ^ 52) ltac:(lia) ltac:(lia)) as HM. rewrite Z.mul_1_l in HM. rewrite HM. change (numeral 16 1) with (txt "1"). rewrite <- app_assoc. reflexivity.
Qed.

(** ** layouts *)

Lemma find_app c A B : ~ In c A -> find c (A ++ c :: B) = Some (zlen A).
Proof.
  induction A as [|a A IH]; intros N; cbn [app find].
  - rewrite Z.eqb_refl. reflexivity.
  - destruct (Z.eqb_spec a c) as [->|Ne]; [exfalso; apply N; left; reflexivity|]. rewrite IH by (intros I; apply N; right; exact I). rewrite zlen_cons. cbn [option_map]. f_equal. lia.
Qed.

Lemma hex_text_no_p M k : 0 <= M -> 0 <= k -> ~ In (ch "p") (hex_text M k).
Proof.
  intros HM Hk I. assert (G : forall l, digits_ok 16 l -> ~ In (ch "p") (map digit_char l)).
  { intros l Hl Il. apply in_map_iff in Il as (d & E & Id). unfold digits_ok in Hl. rewrite Forall_forall in Hl. specialize (Hl d Id). unfold digit_char in E. change (ch "p") with 112 in E. destruct (d <? 10); lia. }
  unfold hex_text in I. apply in_app_or in I as [I|I].
  - revert I. apply G. apply digits_digits_ok; [lia|]. apply Z.div_pos; [lia|]. pose proof (pow16_pos k Hk). lia.
  - destruct I as [I|I]; [discriminate|]. revert I. apply G. apply fixdigs_ok. lia.
Qed.

Lemma hex_mant_ok c : 0 <= c -> ~ In (ch "p") (hex_mant c).
Proof.
  intros Hc. unfold hex_mant. pose proof (drop_hex_spec 12 c Hc) as D. destruct (drop_hex 13 c) as [G k]. apply hex_text_no_p; lia.
Qed.

Lemma startsWithMinus_dec x : startsWithMinus (dec_text x) = (x <? 0).
Proof.
  unfold dec_text. destruct (x <? 0) eqn:E; bools; [reflexivity|].
  assert (H : Forall is_dig (numeral 10 x)) by (apply numeral_dig; lia). destruct (numeral 10 x) as [|d r]; [reflexivity|]. inversion H as [|? ? Hd _]; subst.
  unfold is_dig in Hd. unfold startsWithMinus. destruct d as [|d|d]; try lia. repeat (destruct d as [d|d|]; try reflexivity; try lia).
Qed.

(** the exponent as addPlus writes it *)
Lemma addPlus_den x : -10000 <= x <= 10000 -> exists u, addPlus (dec_text x) = u /\ den u (tl (bin_exp_text x)) /\ zlen (bin_exp_text x) <= 10.
Proof.
  intros Hx. unfold addPlus. rewrite startsWithMinus_dec. unfold bin_exp_text, dec_text. cbn [tl].
  assert (L : zlen (numeral 10 (Z.abs x)) <= 5) by (rewrite zlen_numeral; apply digits_len_le; lia).
  destruct (x <? 0) eqn:E; bools; (eexists; split; [reflexivity|]).
  - rewrite Z.abs_neq in * by lia. split; [|rewrite !zlen_cons; lia]. apply (wrapS_den (45 :: _)). rewrite zlen_cons, int_max_val. lia.
  - rewrite Z.abs_eq in * by lia. split; [|rewrite !zlen_cons; lia]. apply (wrapS_den (txt "+" ++ _)). rewrite zlen_app, int_max_val. change (zlen (txt "+")) with 1. lia.
Qed.

Lemma parse_dec_text x : -10000 <= x <= 10000 -> jParseInt (dec_text x) = Some x.
Proof.
  intros Hx. assert (G : forall neg n, 0 <= n <= 10000 -> parseDigits int_max neg (numeral 10 n) = Some (if neg then - n else n)).
  { intros neg n Hn. unfold parseDigits. pose proof (numeral_dig n ltac:(lia)) as F. pose proof (numeral_nonempty 10 n ltac:(lia) ltac:(lia)) as L. pose proof (of_numeral_numeral 10 n ltac:(lia) ltac:(lia)) as V.
    destruct (numeral 10 n) as [|d r] eqn:E; [change (zlen (@nil Z)) with 0 in L; lia|]. cbv zeta.
    replace (forallb (fun c => (48 <=? c) && (c <=? 57)) (d :: r)) with true.
    2:{ symmetry. apply forallb_forall. intros c I. rewrite Forall_forall in F. apply F in I. unfold is_dig in I. apply andb_true_intro. split; apply Z.leb_le; lia. }
    rewrite V. rewrite int_max_val. destruct neg; [replace (n <=? 2147483647 + 1) with true by (symmetry; apply Z.leb_le; lia)|replace (n <=? 2147483647) with true by (symmetry; apply Z.leb_le; lia)]; reflexivity. }
  unfold jParseInt, parseSigned, dec_text. destruct (x <? 0) eqn:E; bools.
  - change (parseDigits int_max true (numeral 10 (- x)) = Some x). etransitivity; [apply (G true (- x)); lia|]. f_equal. lia.
  - assert (H : Forall is_dig (numeral 10 x)) by (apply numeral_dig; lia). pose proof (G false x ltac:(lia)) as Gx. destruct (numeral 10 x) as [|d r]; [exact Gx|]. inversion H as [|? ? Hd _]; subst.
    unfold is_dig in Hd. destruct d as [|d|d]; try lia. repeat (destruct d as [d|d|]; try exact Gx; try lia).
Qed.

Lemma bin_parts_range b c x : 0 <= b < inf_bits -> bin_parts b = (c, x) -> 0 <= c < 2 ^ 53 /\ -1022 <= x <= 1023 /\ (0 < b -> 0 < c).
Proof.
  intros Hb. unfold bin_parts, inf_bits in *. pose proof (Z.mod_pos_bound b (2 ^ 52) ltac:(lia)) as B. pose proof (Z.div_mod b (2 ^ 52) ltac:(lia)) as D.
  destruct (b / 2 ^ 52 =? 0) eqn:E; bools; intros H; apply pair_eq in H as [<- <-]; [destruct (b =? 0); lia|lia].
Qed.

Lemma zlen_hex_mant c : 0 <= c < 2 ^ 53 -> zlen (hex_mant c) <= 20.
Proof.
  intros Hc. unfold hex_mant. pose proof (drop_hex_spec 12 c ltac:(lia)) as D. destruct (drop_hex 13 c) as [G k]. destruct D as (K & E & HG). unfold hex_text.
  change (Z.of_nat 13) with 13 in *. rewrite zlen_app, zlen_cons, zlen_hex_fraction by lia. pose proof (pow16_pos k ltac:(lia)) as P1. pose proof (pow16_pos (13 - k) ltac:(lia)) as P2.
  assert (G / 16 ^ k < 16).
  { apply Z.div_lt_upper_bound; [lia|]. assert (16 ^ k * 16 ^ (13 - k) = 2 ^ 52) by (rewrite <- Z.pow_add_r by lia; replace (k + (13 - k)) with 13 by lia; reflexivity). nia. }
  assert (zlen (numeral 16 (G / 16 ^ k)) <= 1); [|lia]. rewrite zlen_numeral. apply digits_len_le; try lia. apply Z.div_pos; lia.
Qed.

Lemma layout_parts b c x : dbl_mag b < inf_bits -> bin_parts (dbl_mag b) = (c, x) ->
  let s := toHexString b in let p := strIndexOf s (ch "p") in
  0 <= p /\ skipn (Z.to_nat (p + 1)) s = dec_text x /\
  exists m, s_wrap3 s (if startsWithMinus s then 3 else 2) p = Ok m /\ den (Leaf m) (hex_mant c).
Proof.
  intros Hb Hp. pose proof (mag_range b) as Rm. destruct (bin_parts_range (dbl_mag b) c x ltac:(lia) Hp) as (Rc & Rx & _).
  rewrite (toHexString_text b c x Hb Hp). cbv zeta. set (pre := sgn_of b ++ txt "0x"). set (M := hex_mant c). pose proof (zlen_hex_mant c Rc) as LM. fold M in LM.
  assert (Es : sgn_of b ++ txt "0x" ++ M ++ ch "p" :: dec_text x = (pre ++ M) ++ ch "p" :: dec_text x) by (unfold pre; rewrite <- !app_assoc; reflexivity). rewrite Es.
  assert (Ep : strIndexOf ((pre ++ M) ++ ch "p" :: dec_text x) (ch "p") = zlen (pre ++ M)).
  { unfold strIndexOf. rewrite find_app; [reflexivity|]. intros I. apply in_app_or in I as [I|I]; [|revert I; apply hex_mant_ok; lia].
    unfold pre, sgn_of in I. destruct (b <? 0); cbn in I; intuition discriminate. }
  rewrite Ep. split; [apply zlen_nonneg|]. split.
  { replace (Z.to_nat (zlen (pre ++ M) + 1)) with (List.length ((pre ++ M) ++ [ch "p"])) by (rewrite app_length; unfold zlen; cbn [List.length]; lia).
    change (ch "p" :: dec_text x) with ([ch "p"] ++ dec_text x). rewrite (app_assoc (pre ++ M)). rewrite skipn_app, skipn_all, Nat.sub_diag. reflexivity. }
  assert (Est : (if startsWithMinus ((pre ++ M) ++ ch "p" :: dec_text x) then 3 else 2) = zlen pre) by (unfold pre, sgn_of; destruct (b <? 0); reflexivity).
  rewrite Est. pose proof (zlen_nonneg pre). pose proof (zlen_nonneg M). assert (Lp : zlen pre <= 3) by (unfold pre, sgn_of; destruct (b <? 0); vm_compute; discriminate).
  assert (Ld : zlen (dec_text x) <= 10).
  { destruct (addPlus_den x ltac:(lia)) as (_ & _ & _ & L). unfold bin_exp_text in L. rewrite !zlen_cons in L. unfold dec_text. destruct (x <? 0) eqn:Ex; bools.
    - rewrite zlen_cons. rewrite Z.abs_neq in L by lia. lia.
    - rewrite Z.abs_eq in L by lia. lia. }
  destruct (s_wrap3_den ((pre ++ M) ++ ch "p" :: dec_text x) (zlen pre) (zlen (pre ++ M))) as (m & Em & Dm).
  - rewrite !zlen_app, zlen_cons, int_max_val. lia.
  - lia.
  - rewrite zlen_app. lia.
  - rewrite !zlen_app, zlen_cons. pose proof (zlen_nonneg (dec_text x)). lia.
  - exists m. split; [exact Em|]. constructor. assert (El : slice ((pre ++ M) ++ ch "p" :: dec_text x) (zlen pre) (zlen (pre ++ M)) = M); [|rewrite <- El; exact Dm].
    unfold slice. rewrite zlen_app. replace (zlen pre + zlen M - zlen pre) with (zlen M) by lia. rewrite <- app_assoc. unfold zlen at 2. rewrite Nat2Z.id.
    rewrite skipn_app, skipn_all, Nat.sub_diag. cbn [app skipn]. unfold zlen. rewrite Nat2Z.id. rewrite firstn_app, firstn_all, Nat.sub_diag. apply app_nil_r.
Qed.

Lemma simple_layout b c x : dbl_mag b < inf_bits -> bin_parts (dbl_mag b) = (c, x) ->
  exists m xs, simpleHexLayout b = Ok (mkLayout (Leaf m) (Some xs)) /\ den (Leaf m) (hex_mant c) /\ den xs (tl (bin_exp_text x)).
Proof.
  intros Hb Hp. destruct (layout_parts b c x Hb Hp) as (_ & Es & m & Em & Dm). cbv zeta in *.
  destruct (bin_parts_range (dbl_mag b) c x ltac:(pose proof (mag_range b); lia) Hp) as (Rc & Rx & _).
  destruct (addPlus_den x ltac:(lia)) as (u & Eu & Du & _).
  exists m, u. unfold simpleHexLayout. cbv zeta. rewrite Em. cbn [bind]. rewrite Es, Eu. auto.
Qed.

(** ** rounding *)

Definition carry (P M x : Z) : Z * Z := if M =? 2 * 16 ^ P then (16 ^ P, x + 1) else (M, x).

Lemma near_even_ge n d h : 0 < d -> h * d <= n -> h <= near_even n d.
Proof.
  intros Hd Hn. unfold near_even. assert (h <= n / d) by (apply Z.div_le_lower_bound; lia).
  destruct (2 * (n mod d) <? d); [lia|]. destruct (d <? 2 * (n mod d)); [lia|]. destruct (Z.even (n / d)); lia.
Qed.

Lemma pow16_split P : 1 <= P <= 12 -> 16 ^ P * 2 ^ (52 - 4 * P) = 2 ^ 52 /\ 2 ^ (52 - 4 * P) = 16 ^ (13 - P).
Proof.
  intros HP. change 16 with (2 ^ 4). rewrite <- !Z.pow_mul_r by lia. rewrite <- Z.pow_add_r by lia. split; f_equal; lia.
Qed.

Lemma round_core be c P : 1 <= be <= 2046 -> 2 ^ 52 <= c < 2 ^ 53 -> 1 <= P <= 12 ->
  let s := 52 - 4 * P in
  let m' := near_even ((be - 1) * 2 ^ 52 + c) (2 ^ s) * 2 ^ s in
  let (M, x) := carry P (near_even (c * 16 ^ P) (2 ^ 52)) (be - 1023) in
  16 ^ P <= M < 2 * 16 ^ P /\ -1022 <= x <= 1024 /\
  ((M = 16 ^ P /\ x = 1024 /\ m' = inf_bits) \/ (m' < inf_bits /\ bin_parts m' = (M * 16 ^ (13 - P), x))).
Proof.
  intros Hbe Hc HP. cbv zeta. destruct (pow16_split P HP) as [E1 E2]. set (s := 52 - 4 * P) in *.
  pose proof (pow16_pos P ltac:(lia)) as Q. pose proof (Z.pow_pos_nonneg 2 s ltac:(lia) ltac:(unfold s; lia)) as Qs.
  assert (Ev : Z.even ((be - 1) * 16 ^ P) = true).
  { rewrite Z.even_mul, Z.even_pow by lia. change (Z.even 16) with true. apply orb_true_r. }
  assert (E : near_even ((be - 1) * 2 ^ 52 + c) (2 ^ s) = (be - 1) * 16 ^ P + near_even (c * 16 ^ P) (2 ^ 52)).
  { rewrite <- E1. rewrite Z.mul_assoc, near_even_add by assumption. f_equal. rewrite (Z.mul_comm (16 ^ P) (2 ^ s)). symmetry. apply near_even_scale; assumption. }
  rewrite E. set (M0 := near_even (c * 16 ^ P) (2 ^ 52)).
  assert (R1 : 16 ^ P <= M0) by (apply near_even_ge; [lia|nia]). assert (R2 : M0 <= 2 * 16 ^ P) by (apply (near_even_range _ (2 ^ 52)); [lia|nia]).
  clearbody M0. rewrite Z.mul_add_distr_r, <- Z.mul_assoc, E1. unfold carry. rewrite <- E2. destruct (M0 =? 2 * 16 ^ P) eqn:EM; bools.
  - split; [lia|]. split; [lia|]. rewrite EM. rewrite E1. replace (2 * 16 ^ P * 2 ^ s) with (2 * 2 ^ 52) by (rewrite <- E1; ring).
    replace ((be - 1) * 2 ^ 52 + 2 * 2 ^ 52) with ((be + 1) * 2 ^ 52) by ring. destruct (Z.eq_dec be 2046) as [->|Nb]; [left; unfold inf_bits; lia|right].
    split; [unfold inf_bits; lia|]. unfold bin_parts. rewrite Z.div_mul, Z.mod_mul by lia. replace (be + 1 =? 0) with false by (symmetry; apply Z.eqb_neq; lia). f_equal; lia.
  - split; [lia|]. split; [lia|]. right. set (F := (M0 - 16 ^ P) * 2 ^ s). assert (HF : 0 <= F < 2 ^ 52) by (unfold F; nia).
    replace ((be - 1) * 2 ^ 52 + M0 * 2 ^ s) with (be * 2 ^ 52 + F) by (unfold F; nia). split; [unfold inf_bits; lia|]. unfold bin_parts.
    assert (D : (be * 2 ^ 52 + F) / 2 ^ 52 = be) by (symmetry; apply (Z.div_unique_pos _ _ be F); lia). assert (D2 : (be * 2 ^ 52 + F) mod 2 ^ 52 = F) by (symmetry; apply (Z.mod_unique_pos _ _ be F); lia).
    rewrite D, D2. replace (be =? 0) with false by (symmetry; apply Z.eqb_neq; lia). f_equal. unfold F. nia.
Qed.

(** what is printed before padding *)
Definition hex_layout (l : layout) (P M x : Z) : Prop :=
  exists m xs G k, l = mkLayout (Leaf m) (Some xs) /\ den (Leaf m) (hex_text G k) /\ 1 <= k <= P /\ 0 <= G /\ M = G * 16 ^ (P - k) /\ den xs (tl (bin_exp_text x)).

Lemma hex_mant_layout m xs M P x : 0 <= M -> 1 <= P <= 13 -> den (Leaf m) (hex_mant (M * 16 ^ (13 - P))) -> den xs (tl (bin_exp_text x)) ->
  hex_layout (mkLayout (Leaf m) (Some xs)) P M x.
Proof.
  intros HM HP Dm Dx. unfold hex_mant in Dm. pose proof (drop_hex_shift (Z.to_nat (P - 1)) (Z.to_nat (13 - P)) M HM) as S.
  replace (Z.to_nat (13 - P) + Datatypes.S (Z.to_nat (P - 1)))%nat with 13%nat in S by lia. rewrite Z2Nat.id in S by lia. rewrite S in Dm. clear S.
  pose proof (drop_hex_spec (Z.to_nat (P - 1)) M HM) as D. destruct (drop_hex (Datatypes.S (Z.to_nat (P - 1))) M) as [G k].
  replace (Z.of_nat (Datatypes.S (Z.to_nat (P - 1)))) with P in D by lia. destruct D as (K & E & HG). exists m, xs, G, k. auto 10.
Qed.

Lemma dbl_mag_signed b m : 0 <= m < 2 ^ 63 -> dbl_mag ((if b <? 0 then - 2 ^ 63 else 0) + m) = m.
Proof.
  intros Hm. unfold dbl_mag. destruct (b <? 0).
  - symmetry. apply (Z.mod_unique_pos _ _ (-1) m); lia.
  - apply Z.mod_small. lia.
Qed.

Lemma isInf_mag b : dbl_mag b <= inf_bits -> dbl_isInf b = (dbl_mag b =? inf_bits).
Proof.
  intros H. pose proof (mag_range b) as R. unfold dbl_isInf, dbl_bexp, dbl_frac. rewrite <- mod_mod_pow. fold (dbl_mag b). set (m := dbl_mag b) in *. clearbody m. unfold inf_bits in *.
  pose proof (Z.mod_pos_bound m (2 ^ 52) ltac:(lia)) as B. pose proof (Z.div_mod m (2 ^ 52) ltac:(lia)) as D.
  destruct (Z.eqb_spec (m / 2 ^ 52) 2047), (Z.eqb_spec (m mod 2 ^ 52) 0), (Z.eqb_spec m (2047 * 2 ^ 52)); cbn; try reflexivity; exfalso; lia.
Qed.

Lemma overflow_layout P : 1 <= P -> hex_layout (mkLayout (wrapS (txt "1.0")) (Some (wrapS (txt "+1024")))) P (16 ^ P) 1024.
Proof.
  intros HP. exists (s_wrap (txt "1.0")), (wrapS (txt "+1024")), 16, 1. split; [reflexivity|]. split; [apply (wrapS_den (txt "1.0")); vm_compute; discriminate|]. split; [lia|]. split; [lia|].
  split; [rewrite <- Z.pow_succ_r by lia; f_equal; lia|]. apply (wrapS_den (txt "+1024")). vm_compute. discriminate.
Qed.

Lemma scaleUp_mag b : 0 < dbl_mag b < 2 ^ 52 -> let l := Z.log2 (dbl_mag b) in
  scaleUp b = (if b <? 0 then - 2 ^ 63 else 0) + ((l + 2) * 2 ^ 52 + dbl_mag b * 2 ^ (52 - l)) /\ 2 ^ 52 <= dbl_mag b * 2 ^ (52 - l) < 2 ^ 53 /\ 0 <= l < 52.
Proof.
  intros Hm. cbv zeta. unfold scaleUp. assert (Ef : dbl_frac b = dbl_mag b) by (unfold dbl_frac; rewrite <- mod_mod_pow; fold (dbl_mag b); apply Z.mod_small; lia).
  rewrite Ef. set (m := dbl_mag b) in *. clearbody m. set (l := Z.log2 m). pose proof (Z.log2_spec m ltac:(lia)) as L. fold l in L.
  assert (Hl : 0 <= l < 52) by (split; [apply Z.log2_nonneg|apply Z.log2_lt_pow2; lia]). clearbody l.
  assert (Ep : 2 ^ l * 2 ^ (52 - l) = 2 ^ 52) by (rewrite <- Z.pow_add_r by lia; f_equal; lia). pose proof (Z.pow_pos_nonneg 2 (52 - l) ltac:(lia) ltac:(lia)) as Q.
  assert (R : 2 ^ 52 <= m * 2 ^ (52 - l) < 2 ^ 53) by (unfold Z.succ in L; rewrite Z.pow_add_r in L by lia; nia).
  split; [|split; [exact R|exact Hl]]. unfold dbl_neg. set (v := m * 2 ^ (52 - l)) in *. clearbody v.
  destruct (b <? 0).
  - unfold wrap64, wrapN. change (64 - 1) with 63. match goal with |- (?a mod 2 ^ 64) - _ = _ => replace (a mod 2 ^ 64) with (a - 2 ^ 64) by (apply (Z.mod_unique_pos a (2 ^ 64) 1); lia) end. lia.
  - rewrite wrap64_small by lia. lia.
Qed.

Lemma dbl_hex_rounded b P : - 2 ^ 63 <= b < 2 ^ 63 -> 0 < dbl_mag b < inf_bits -> 1 <= P <= 12 ->
  exists l M x, dbl_hex b P = Ok l /\ hex_digits (dbl_mag b) P = (M, x) /\ hex_layout l P M x /\ 16 ^ P <= M < 2 * 16 ^ P /\ -2000 <= x <= 1024.
Proof.
  intros Hb Hm HP. unfold dbl_hex. destruct (finite_tests b ltac:(change (dbl_mag b < inf_bits); lia)) as (_ & _ & ->). unfold dbl_isZero.
  replace (dbl_mag b =? 0) with false by (symmetry; apply Z.eqb_neq; lia). replace (P =? 0) with false by (symmetry; apply Z.eqb_neq; lia).
  replace (13 <=? P) with false by (symmetry; apply Z.leb_gt; lia). cbn [negb orb]. cbv zeta. unfold dbl_getExponent, dbl_bexp.
  unfold hex_digits, bin_parts. replace (13 <=? P) with false by (symmetry; apply Z.leb_gt; lia). destruct (pow16_split P HP) as [E1 E2].
  pose proof (mag_range b) as Rm. pose proof (Z.mod_pos_bound (dbl_mag b) (2 ^ 52) ltac:(lia)) as B. pose proof (Z.div_mod (dbl_mag b) (2 ^ 52) ltac:(lia)) as D.
  destruct (dbl_mag b / 2 ^ 52 =? 0) eqn:Eb; bools; cbn match; rewrite orb_false_r.
  - rewrite Eb. replace (0 - 1023 =? -1023) with true by reflexivity. cbn [negb].
    destruct (scaleUp_mag b ltac:(lia)) as (Es & Rc & Rl). set (l := Z.log2 (dbl_mag b)) in *. set (c := dbl_mag b * 2 ^ (52 - l)) in *.
    replace (dbl_mag b =? 0) with false by (symmetry; apply Z.eqb_neq; lia).
    assert (Em : dbl_mag (scaleUp b) = (l + 2) * 2 ^ 52 + c) by (rewrite Es; apply dbl_mag_signed; lia).
    destruct (hexRound_spec (scaleUp b) P) as [Eh Hh]; [rewrite Es; destruct (b <? 0); lia|lia|rewrite Em; unfold inf_bits; lia|]. rewrite Em in Eh, Hh.
    pose proof (round_core (l + 3) c P ltac:(lia) Rc HP) as RC. cbv zeta in RC. replace (l + 3 - 1) with (l + 2) in RC by lia.
    assert (En : near_even (c * 16 ^ P) (2 ^ 52) = near_even (dbl_mag b * 16 ^ P) (2 ^ l)).
    { unfold c. replace (2 ^ 52) with (2 ^ l * 2 ^ (52 - l)) by (rewrite <- Z.pow_add_r by lia; f_equal; lia).
      replace (dbl_mag b * 2 ^ (52 - l) * 16 ^ P) with (dbl_mag b * 16 ^ P * 2 ^ (52 - l)) by ring. apply near_even_scale; apply Z.pow_pos_nonneg; lia. }
    rewrite En in RC. set (M0 := near_even (dbl_mag b * 16 ^ P) (2 ^ l)) in *. unfold carry in RC.
    set (m' := near_even ((l + 2) * 2 ^ 52 + c) (2 ^ (52 - 4 * P)) * 2 ^ (52 - 4 * P)) in *.
    assert (Hm' : 0 <= m') by (unfold m'; apply Z.mul_nonneg_nonneg; [apply (near_even_range _ _ ((l + 2) * 2 ^ 52 + c + 1)); [apply Z.pow_pos_nonneg; lia|]; assert (0 < 2 ^ (52 - 4 * P)) by (apply Z.pow_pos_nonneg; lia); nia|apply Z.pow_nonneg; lia]).
    assert (Em' : dbl_mag (hexRound (scaleUp b) P) = m') by (rewrite Eh; apply dbl_mag_signed; unfold inf_bits in Hh; lia).
    rewrite isInf_mag by (rewrite Em'; exact Hh). rewrite Em'.
    assert (Fin : forall M xr, 16 ^ P <= M < 2 * 16 ^ P -> -1022 <= xr <= 1024 -> (M = 16 ^ P /\ xr = 1024 /\ m' = inf_bits \/ m' < inf_bits /\ bin_parts m' = (M * 16 ^ (13 - P), xr)) -> xr < 1024 ->
      exists ly, (if m' =? inf_bits then Ok (mkLayout (wrapS (txt "1.0")) (Some (wrapS (txt "+1024"))))
        else let s := toHexString (hexRound (scaleUp b) P) in let idx := strIndexOf s (ch "p") in
             if 0 <=? idx then match jParseInt (skipn (Z.to_nat (idx + 1)) s) with
               | None => Err (OtherExn 3)
               | Some v => let* m := s_wrap3 s (if startsWithMinus s then 3 else 2) idx in Ok (mkLayout (Leaf m) (Some (addPlus (dec_text (wrap32 (v - 54))))))
               end else Err (OtherExn 0)) = Ok ly /\ hex_layout ly P M (xr - 54)).
    { intros M xr RM Rx [(_ & E & _)|[L BP]] Hx; [lia|]. replace (m' =? inf_bits) with false by (symmetry; apply Z.eqb_neq; lia).
      destruct (layout_parts (hexRound (scaleUp b) P) (M * 16 ^ (13 - P)) xr) as (I0 & I1 & m & Emm & Dm); [rewrite Em'; exact L|rewrite Em'; exact BP|]. cbv zeta in *.
      replace (0 <=? strIndexOf (toHexString (hexRound (scaleUp b) P)) (ch "p")) with true by (symmetry; apply Z.leb_le; exact I0). rewrite I1, parse_dec_text by lia.
      rewrite Emm. cbn [bind]. rewrite FmtP.wrap32_small by lia. destruct (addPlus_den (xr - 54) ltac:(lia)) as (u & -> & Du & _).
      eexists. split; [reflexivity|]. apply hex_mant_layout; [lia|lia|exact Dm|exact Du]. }
    destruct (M0 =? 2 * 16 ^ P) eqn:EM.
    + destruct RC as (RM & Rx & C). destruct (Fin _ _ RM Rx C ltac:(lia)) as (ly & El & Hl). exists ly, (16 ^ P), (-1022 - 52 + l + 1). split; [exact El|]. split; [reflexivity|].
      replace (-1022 - 52 + l + 1) with (l + 3 - 1023 + 1 - 54) by lia. split; [exact Hl|]. lia.
    + destruct RC as (RM & Rx & C). destruct (Fin _ _ RM Rx C ltac:(lia)) as (ly & El & Hl). exists ly, M0, (-1022 - 52 + l). split; [exact El|]. split; [reflexivity|].
      replace (-1022 - 52 + l) with (l + 3 - 1023 - 54) by lia. split; [exact Hl|]. lia.
  - set (be := dbl_mag b / 2 ^ 52) in *. set (t := dbl_mag b mod 2 ^ 52) in *. assert (Rbe : 1 <= be <= 2046) by (unfold inf_bits in Hm; lia).
    replace (be - 1023 =? -1023) with false by (symmetry; apply Z.eqb_neq; lia). cbn [negb].
    replace (2 ^ 52 + t =? 0) with false by (symmetry; apply Z.eqb_neq; lia).
    assert (El : Z.log2 (2 ^ 52 + t) = 52) by (apply Z.log2_unique; lia). rewrite El.
    destruct (hexRound_spec b P Hb HP ltac:(lia)) as [Eh Hh]. pose proof (round_core be (2 ^ 52 + t) P Rbe ltac:(lia) HP) as RC. cbv zeta in RC.
    replace ((be - 1) * 2 ^ 52 + (2 ^ 52 + t)) with (dbl_mag b) in RC by lia.
    set (m' := near_even (dbl_mag b) (2 ^ (52 - 4 * P)) * 2 ^ (52 - 4 * P)) in *. set (M0 := near_even ((2 ^ 52 + t) * 16 ^ P) (2 ^ 52)) in *.
    assert (Hm' : 0 <= m') by (unfold m'; apply Z.mul_nonneg_nonneg; [apply (near_even_range _ _ (dbl_mag b + 1)); [apply Z.pow_pos_nonneg; lia|]; assert (0 < 2 ^ (52 - 4 * P)) by (apply Z.pow_pos_nonneg; lia); nia|apply Z.pow_nonneg; lia]).
    assert (Em' : dbl_mag (hexRound b P) = m') by (rewrite Eh; apply dbl_mag_signed; unfold inf_bits in Hh; lia).
    rewrite isInf_mag by (rewrite Em'; exact Hh). rewrite Em'.
    assert (Fin : forall M xr, 16 ^ P <= M < 2 * 16 ^ P -> -1022 <= xr <= 1024 -> (M = 16 ^ P /\ xr = 1024 /\ m' = inf_bits \/ m' < inf_bits /\ bin_parts m' = (M * 16 ^ (13 - P), xr)) ->
      exists ly, (if m' =? inf_bits then Ok (mkLayout (wrapS (txt "1.0")) (Some (wrapS (txt "+1024")))) else simpleHexLayout (hexRound b P)) = Ok ly /\ hex_layout ly P M xr).
    { intros M xr RM Rx [(-> & -> & ->)|[L BP]].
      - rewrite Z.eqb_refl. eexists. split; [reflexivity|]. apply overflow_layout. lia.
      - replace (m' =? inf_bits) with false by (symmetry; apply Z.eqb_neq; lia).
        destruct (simple_layout (hexRound b P) (M * 16 ^ (13 - P)) xr) as (m & xs & Es & Dm & Dx); [rewrite Em'; exact L|rewrite Em'; exact BP|].
        eexists. split; [exact Es|]. apply hex_mant_layout; [lia|lia|exact Dm|exact Dx]. }
    unfold carry in RC. destruct (M0 =? 2 * 16 ^ P) eqn:EM.
    + destruct RC as (RM & Rx & C). destruct (Fin _ _ RM Rx C) as (ly & Ely & Hl). exists ly, (16 ^ P), (be - 1023 - 52 + 52 + 1). split; [exact Ely|]. split; [reflexivity|].
      replace (be - 1023 - 52 + 52 + 1) with (be - 1023 + 1) by lia. split; [exact Hl|]. lia.
    + destruct RC as (RM & Rx & C). destruct (Fin _ _ RM Rx C) as (ly & Ely & Hl). exists ly, M0, (be - 1023 - 52 + 52). split; [exact Ely|]. split; [reflexivity|].
      replace (be - 1023 - 52 + 52) with (be - 1023) by lia. split; [exact Hl|]. lia.
Qed.

(** ** SeqFormatter.a *)

Lemma hex_text_dot M k : 0 <= M -> 0 <= k -> index_of (ch ".") (hex_text M k) = zlen (numeral 16 (M / 16 ^ k)).
Proof.
  intros HM Hk. unfold hex_text. rewrite index_of_app. assert (E : index_of (ch ".") (numeral 16 (M / 16 ^ k)) = -1).
  { apply index_of_none. intros I. unfold numeral in I. apply in_map_iff in I as (d & E & Id).
    assert (Hl : digits_ok 16 (digits 16 (M / 16 ^ k))) by (apply digits_digits_ok; [lia|apply Z.div_pos; [lia|apply pow16_pos; lia]]).
    unfold digits_ok in Hl. rewrite Forall_forall in Hl. specialize (Hl d Id). unfold digit_char in E. change (ch ".") with 46 in E. destruct (d <? 10); lia. }
  rewrite E. change (-1 =? -1) with true. cbn [index_of]. change (ch "." =? ch ".") with true. cbn match. change (0 =? -1) with false. cbn match. lia.
Qed.

Lemma zlen_hex_text M k : 0 <= k -> zlen (hex_text M k) = zlen (numeral 16 (M / 16 ^ k)) + 1 + k.
Proof. intros Hk. unfold hex_text. rewrite zlen_app, zlen_cons, zlen_hex_fraction by exact Hk. lia. Qed.

Lemma fractionalPart_hex s G k P alt : den s (hex_text G k) -> 0 <= G -> 1 <= k -> 1 <= P <= 65536 -> zlen (hex_text G k) <= 1000 ->
  exists u, formatFractionalPart s P alt = Ok u /\ den u (hex_text G k ++ zeros (P - k)).
Proof.
  intros Hd HG Hk HP Hm. unfold formatFractionalPart. rewrite (s_indexOf_wden _ _ _ (den_wden _ _ Hd) (den_max _ _ Hd)). cbn [bind].
  rewrite hex_text_dot by lia. rewrite (den_len _ _ Hd), zlen_hex_text by lia. pose proof (zlen_nonneg (numeral 16 (G / 16 ^ k))) as Ln. set (n := zlen (numeral 16 (G / 16 ^ k))) in *.
  unfold NOT_FOUND. replace (P =? 0) with false by (symmetry; apply Z.eqb_neq; lia). cbn [andb].
  replace (0 <=? n) with true by (symmetry; apply Z.leb_le; lia). cbv zeta. replace (n + 1 + k - (n + 1)) with k by lia.
  destruct (Z.leb_spec P k) as [L|L].
  - exists s. split; [reflexivity|]. unfold zeros. rewrite rep_nonpos by lia. rewrite app_nil_r. exact Hd.
  - replace (n <? 0) with false by (symmetry; apply Z.ltb_ge; lia). apply append_zeros; [exact Hd|lia|rewrite int_max_val; lia].
Qed.

Lemma fmt_a_tail c s t neg : rt_ok c -> den s t -> zlen t <= 100000 ->
  exists u, (if hasFlag c ZERO_PAD && negb (hasFlag c LEFT_JUSTIFY) then
      let w := wrap32 (c_width c - 2) in
      let w := if hasSign c neg then wrap32 (w - 1) else w in
      let len := s_len s in
      let* v0 := (if len <? w then let* pad := repeated (ch "0") (wrap32 (w - len)) in Ok (s_append pad s) else Ok s) in
      Ok (sign c (s_prepend v0 (wrapS (txt "0x"))) neg)
    else spaceJustify c (sign c (s_prepend s (wrapS (txt "0x"))) neg)) = Ok u /\
    den u (pad_number (q_of c) (q_zero (q_of c)) (sign_text (q_of c) neg ++ txt "0x") t).
Proof.
  intros Hc Hd Hm. assert (D0 : den (wrapS (txt "0x")) (txt "0x")) by (apply wrapS_den; vm_compute; discriminate). pose proof (zlen_nonneg t) as Lt.
  assert (D1 : den (s_prepend s (wrapS (txt "0x"))) (txt "0x" ++ t)) by (apply s_prepend_den; [exact Hd|exact D0|]; rewrite zlen_app, int_max_val; change (zlen (txt "0x")) with 2; lia).
  assert (Sj : exists u, spaceJustify c (sign c (s_prepend s (wrapS (txt "0x"))) neg) = Ok u /\ den u (justify (q_of c) (sign_text (q_of c) neg ++ txt "0x" ++ t))).
  { apply spaceJustify_den; [exact Hc|]. apply sign_den; [exact D1|]. rewrite zlen_app, int_max_val. change (zlen (txt "0x")) with 2. lia. }
  unfold pad_number. change (hasFlag c ZERO_PAD) with (q_zero (q_of c)). change (hasFlag c LEFT_JUSTIFY) with (q_left (q_of c)). rewrite <- !app_assoc.
  destruct (q_zero (q_of c)), (q_left (q_of c)) eqn:El; cbn [negb andb]; try exact Sj.
  assert (Wc : (c_width c = -1 /\ q_width (q_of c) = 0) \/ (0 <= c_width c <= 65536 /\ c_width c = q_width (q_of c))).
  { destruct Hc as [[W|[W|[_ W]]] _]; change (q_left (q_of c)) with (f_left (c_flags c)) in El; change (q_width (q_of c)) with (Z.max 0 (c_width c)); unfold UNSET in *; [left; lia|right; lia|congruence]. }
  set (w := q_width (q_of c)) in *. cbv zeta. set (w' := if hasSign c neg then wrap32 (wrap32 (c_width c - 2) - 1) else wrap32 (c_width c - 2)).
  pose proof (hasSign_text c neg) as HS. pose proof (zlen_sign_text (q_of c) neg) as ZS.
  assert (Ew : w' = c_width c - 2 - zlen (sign_text (q_of c) neg)).
  { unfold w'. rewrite HS. rewrite (wrap32_small (c_width c - 2)) by lia. destruct (hasSign c neg); [rewrite wrap32_small by lia|]; lia. }
  rewrite (den_len _ _ Hd).
  assert (P : exists v0, (if zlen t <? w' then let* pad := repeated (ch "0") (wrap32 (w' - zlen t)) in Ok (s_append pad s) else Ok s) = Ok v0 /\
     den v0 (zeros (w - zlen (sign_text (q_of c) neg ++ txt "0x") - zlen t) ++ t) /\ zlen (zeros (w - zlen (sign_text (q_of c) neg ++ txt "0x") - zlen t) ++ t) <= 200000).
  { rewrite zlen_app. change (zlen (txt "0x")) with 2. set (g := zlen (sign_text (q_of c) neg)) in *. unfold zeros. rewrite zlen_app, zlen_rep.
    destruct (zlen t <? w') eqn:E; bools.
    - rewrite wrap32_small by lia. destruct (repeated_den (ch "0") (w' - zlen t)) as (p & Ep & Dp); [rewrite int_max_val; lia|]. rewrite Ep. cbn [bind]. eexists. split; [reflexivity|]. split; [|lia].
      replace (w - (g + 2) - zlen t) with (w' - zlen t) by lia. apply s_append_den; [exact Dp|exact Hd|]. rewrite zlen_app, zlen_rep, int_max_val. lia.
    - eexists. split; [reflexivity|]. rewrite rep_nonpos by lia. split; [exact Hd|lia]. }
  destruct P as (v0 & Ev & Dv & Lv). rewrite Ev. cbn [bind]. eexists. split; [reflexivity|]. apply sign_den.
  - apply s_prepend_den; [exact Dv|exact D0|]. rewrite zlen_app, int_max_val. change (zlen (txt "0x")) with 2. lia.
  - rewrite zlen_app, int_max_val. change (zlen (txt "0x")) with 2. lia.
Qed.

Lemma bin_exp_append s t x xs : den s t -> zlen t <= 90000 -> den xs (tl (bin_exp_text x)) -> zlen (bin_exp_text x) <= 10 ->
  den (s_append (s_append s (chS (ch "p"))) xs) (t ++ bin_exp_text x).
Proof.
  intros Hd Ht Hx Lx. change (bin_exp_text x) with ([ch "p"] ++ tl (bin_exp_text x)). rewrite app_assoc. assert (L1 : zlen (tl (bin_exp_text x)) <= 10).
  { change (bin_exp_text x) with (ch "p" :: tl (bin_exp_text x)) in Lx. rewrite zlen_cons in Lx. lia. }
  apply s_append_den; [|exact Hx|rewrite !zlen_app, zlen_one, int_max_val; lia]. apply s_append_den; [exact Hd|apply chS_den|]. rewrite zlen_app, zlen_one, int_max_val. lia.
Qed.

Lemma a_prec_spec c : rt_ok c -> let P := (if isPrecisionSet c then (if c_prec c =? 0 then 1 else c_prec c) else 13) in
  (isPrecisionSet c = false /\ P = 13 /\ q_prec (q_of c) = None) \/ (isPrecisionSet c = true /\ exists p, q_prec (q_of c) = Some p /\ P = Z.max 1 p /\ 1 <= P <= 65536).
Proof.
  intros H. cbv zeta. destruct (prec_cases c H) as [(-> & _ & ->)|(-> & B & ->)]; [left; auto|right]. split; [reflexivity|]. exists (c_prec c). split; [reflexivity|].
  destruct (c_prec c =? 0) eqn:E; bools; lia.
Qed.

Lemma fmt_a_double c b : rt_ok c -> - 2 ^ 63 <= b < 2 ^ 63 -> finite b -> exists u, fmt_a c (doubleForm b) = Ok u /\ den u (j_a (q_of c) (b <? 0) (dbl_mag b)).
Proof.
  intros Hc Hb Hfin. destruct (finite_tests b Hfin) as (T1 & T2 & T3). unfold fmt_a. cbn [doubleForm f_isNaN f_isInf f_hex f_signum]. rewrite T1, T2. cbn [orb].
  pose proof (a_prec_spec c Hc) as AP. cbv zeta in AP |- *. set (P := if isPrecisionSet c then if c_prec c =? 0 then 1 else c_prec c else 13) in *.
  rewrite finite_sign by exact Hfin. unfold j_a. pose proof (mag_range b) as Rm. change (dbl_mag b < inf_bits) in Hfin.
  destruct (bin_parts (dbl_mag b)) as [cc x] eqn:Ebp. destruct (bin_parts_range (dbl_mag b) cc x ltac:(lia) Ebp) as (Rc & Rx & Rp). destruct (addPlus_den x ltac:(lia)) as (_ & _ & _ & Lx).
  assert (Simple : dbl_mag b = 0 \/ 13 <= P -> dbl_hex b P = simpleHexLayout b).
  { intros H. unfold dbl_hex. rewrite T3. cbn [negb orb]. unfold dbl_isZero. destruct H as [H|H]; [rewrite H; reflexivity|].
    replace (13 <=? P) with true by (symmetry; apply Z.leb_le; lia). rewrite !orb_true_r. reflexivity. }
  destruct (simple_layout b cc x Hfin Ebp) as (m & xs & Es & Dm & Dx). pose proof (zlen_hex_mant cc Rc) as Lm.
  destruct AP as [(Ei & EP & Eq)|(Ei & p & Eq & EP & RP)]; rewrite Ei.
  - rewrite Simple by lia. rewrite Es. cbn [bind l_mant l_exp nonNull]. apply fmt_a_tail; [exact Hc| |].
    + unfold a_body. rewrite Eq, Ebp. pose proof (bin_exp_append _ _ _ _ Dm (Z.le_trans _ 20 90000 Lm ltac:(lia)) Dx Lx) as DD. unfold hex_mant in DD. destruct (drop_hex 13 cc) as [G k]. exact DD.
    + unfold a_body. rewrite Eq, Ebp. unfold hex_mant in Lm. destruct (drop_hex 13 cc) as [G k]. rewrite zlen_app. lia.
  - assert (L : exists l M x', dbl_hex b P = Ok l /\ a_body (q_of c) (dbl_mag b) = hex_text M P ++ bin_exp_text x' /\ -2000 <= x' <= 1024 /\ exists m xs G k, l = mkLayout (Leaf m) (Some xs) /\ den (Leaf m) (hex_text G k) /\ 0 <= G /\ 1 <= k /\ zlen (hex_text G k) <= 1000 /\
       hex_text G k ++ zeros (P - k) = hex_text M P /\ zlen (hex_text M P) <= 70000 /\ den xs (tl (bin_exp_text x'))).
    { unfold a_body. rewrite Eq, <- EP. destruct (Z.eq_dec (dbl_mag b) 0) as [E0|E0].
      - rewrite Simple by (left; exact E0). rewrite E0 in Ebp |- *. injection Ebp as <- <-. exists (mkLayout (Leaf m) (Some xs)), 0, 0. split; [exact Es|]. split; [reflexivity|]. split; [lia|].
        exists m, xs, 0, 1. split; [reflexivity|]. split; [exact Dm|]. split; [lia|]. split; [lia|]. split; [vm_compute; discriminate|]. split; [|split; [|exact Dx]].
        + rewrite hex_text_pad by lia. rewrite Z.mul_0_l. reflexivity.
        + rewrite zlen_hex_text by lia. rewrite Z.div_0_l by (pose proof (pow16_pos P); lia). change (zlen (numeral 16 0)) with 1. lia.
      - replace (dbl_mag b =? 0) with false by (symmetry; apply Z.eqb_neq; exact E0). destruct (Z_le_gt_dec 13 P) as [HP|HP].
        + rewrite Simple by (right; exact HP). unfold hex_digits. rewrite Ebp. replace (13 <=? P) with true by (symmetry; apply Z.leb_le; lia). rewrite orb_true_r.
          exists (mkLayout (Leaf m) (Some xs)), (cc * 16 ^ (P - 13)), x. split; [exact Es|]. split; [reflexivity|]. split; [lia|].
          unfold hex_mant in *. pose proof (drop_hex_spec 12 cc ltac:(lia)) as D. destruct (drop_hex 13 cc) as [G k]. change (Z.of_nat 13) with 13 in D. destruct D as (K & E & HG).
          assert (Ecc : cc * 16 ^ (P - 13) = G * 16 ^ (P - k)) by (rewrite E, <- Z.mul_assoc, <- Z.pow_add_r by lia; do 2 f_equal; lia).
          exists m, xs, G, k. split; [reflexivity|]. split; [exact Dm|]. split; [exact HG|]. split; [lia|]. split; [lia|]. rewrite Ecc.
          rewrite <- hex_text_pad by lia. split; [reflexivity|]. split; [|exact Dx]. rewrite zlen_app. unfold zeros. rewrite zlen_rep. lia.
        + destruct (dbl_hex_rounded b P Hb ltac:(lia) ltac:(lia)) as (l & M & x' & El & Eh & (m' & xs' & G & k & -> & Dm' & K & HG & EM & Dx') & RM & Rx').
          exists (mkLayout (Leaf m') (Some xs')), M, x'. split; [exact El|]. rewrite Eh. split; [reflexivity|]. split; [exact Rx'|]. exists m', xs', G, k. split; [reflexivity|]. split; [exact Dm'|].
          split; [exact HG|]. split; [lia|]. pose proof (pow16_pos P ltac:(lia)) as Q1. pose proof (pow16_pos k ltac:(lia)) as Q2. pose proof (pow16_pos (P - k) ltac:(lia)) as Q3.
          assert (ED : G / 16 ^ k = 1).
          { symmetry. apply (Z.div_unique_pos G (16 ^ k) 1 (G - 16 ^ k)); [|lia]. assert (E16 : 16 ^ P = 16 ^ k * 16 ^ (P - k)) by (rewrite <- Z.pow_add_r by lia; f_equal; lia). nia. }
          assert (LG : zlen (hex_text G k) = 2 + k) by (rewrite zlen_hex_text, ED by lia; change (zlen (numeral 16 1)) with 1; lia).
          split; [lia|]. rewrite EM. rewrite <- hex_text_pad by lia. split; [reflexivity|]. split; [|exact Dx']. rewrite zlen_app, LG. unfold zeros. rewrite zlen_rep. lia. }
    destruct L as (l & M & x' & El & Eb & Rx' & m' & xs' & G & k & -> & Dm' & HG & K & LG & EM & LM & Dx'). rewrite El. cbn [bind l_mant l_exp nonNull].
    destruct (fractionalPart_hex _ G k P (hasFlag c ALTERNATE) Dm' HG K RP LG) as (u & Eu & Du). rewrite Eu. cbn [bind]. rewrite EM in Du. rewrite Eb.
    destruct (addPlus_den x' ltac:(lia)) as (_ & _ & _ & Lx'). apply fmt_a_tail; [exact Hc| |].
    + apply bin_exp_append; [exact Du|lia|exact Dx'|exact Lx'].
    + rewrite zlen_app. lia.
Qed.
