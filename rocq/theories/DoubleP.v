(** DoubleWrapper.java and the conversions %f, %e, %g of a double, as texts of its decimal. *)
From Verif Require Import Base Digits UtilsM SeqM SeqSpec SeqP SeqSubP ContextM IntFormM FormatterM MathM MathP DecimalM FPDecimalM DoubleM DecSpec RoundP
  GCheck CertTable CertCheck IrrCheck SchubM SchubP FmtSpec FmtP FloatSpec FPDecP FloatP.
Open Scope Z_scope.

(** ** the decimal of a double has at most 17 digits *)

Lemma ideal_bound c A B cbl cbr k dk :
  let (f, e) := ideal c A B cbl cbr k dk in f <= c * A / B + 10 /\ (e = k \/ e = k + dk).
Proof.
  unfold ideal. cbv zeta. set (s := c * A / B). pose proof (Z.div_mod s 10 ltac:(lia)). pose proof (Z.mod_pos_bound s 10 ltac:(lia)).
  destruct ((100 <=? s) && _); [destruct (above_left _ _ _ _ _); lia|].
  destruct (xorb _ _); [destruct (above_left _ _ _ _ _); lia|].
  destruct (_ ?= _); [destruct (Z.even s)| |]; lia.
Qed.

Lemma toDecimal4_bound q c dk f e : -1074 <= q <= 971 -> 0 < c < 2 ^ 53 -> -1 <= dk <= 0 ->
  toDecimal4 q c dk = Ok (f, e) -> f < 10 ^ 17 /\ -325 <= e <= 292.
Proof.
  intros Hq Hc Hd E. rewrite toDecimal4_ideal in E by assumption.
  destruct (exact_products q c Hq Hc) as (Hk & _ & (A1 & A2) & A3 & _). unfold K_MIN, K_MAX in Hk. set (k := scale q c) in *.
  pose proof (aden_pos q k) as P. set (A := anum q k) in *. set (B := aden q k) in *.
  assert (Ei : ideal c A B (left_end q c) (4 * c + 2) k dk = (f, e)) by congruence. pose proof (ideal_bound c A B (left_end q c) (4 * c + 2) k dk) as I. rewrite Ei in I. destruct I as [I1 I2]. split; [|lia].
  assert (S : c * A / B < 10 ^ 17 - 10); [|lia].
  apply Z.div_lt_upper_bound; [lia|]. destruct (regular q c) eqn:R; [nia|].
  unfold regular in R. apply orb_false_elim in R as [R1 _]. apply negb_false_iff, Z.eqb_eq in R1. unfold C_MIN in R1. subst c. nia.
Qed.

Lemma nonspecial_inj s f e s' f' e' : Ok (NonSpecial s f e) = Ok (NonSpecial s' f' e') -> f = f' /\ e = e'.
Proof. intros E. split; congruence. Qed.

Lemma toDecimal_bound bits s f e : is_long bits -> 0 < bits mod 2 ^ 63 < inf_bits -> toDecimal bits = Ok (NonSpecial s f e) ->
  f < 10 ^ 17 /\ -325 <= e <= 292.
Proof.
  intros Hl Hb. unfold toDecimal. cbv zeta. rewrite land_TMASK, exponent_field. rewrite <- (mod_mod_pow bits).
  set (b := bits mod 2 ^ 63) in *. destruct (sig_expo_range b Hb) as [Hq Hc].
  pose proof (Z.div_mod b (2 ^ 52) ltac:(lia)) as D. pose proof (Z.mod_pos_bound b (2 ^ 52) ltac:(lia)) as M.
  unfold RoundP.sig, expo in *. set (bq := b / 2 ^ 52) in *. set (t := b mod 2 ^ 52) in *.
  assert (Bq : 0 <= bq < 2047) by (unfold inf_bits in Hb; lia).
  replace (bq <? BQ_MASK) with true by (symmetry; apply Z.ltb_lt; exact (proj2 Bq)).
  change (- Q_MIN + 1 - bq) with (1075 - bq).
  assert (G : forall q c dk, -1074 <= q <= 971 -> 0 < c < 2 ^ 53 -> -1 <= dk <= 0 ->
    (let* fe := toDecimal4 q c dk in Ok (NonSpecial (bits <? 0) (fst fe) (snd fe))) = Ok (NonSpecial s f e) -> f < 10 ^ 17 /\ -325 <= e <= 292).
  { intros q c dk G1 G2 G3 E. destruct (toDecimal4 q c dk) as [[f' e']|] eqn:E4; [|discriminate]. cbn [bind fst snd] in E. apply nonspecial_inj in E as [<- <-]. eapply toDecimal4_bound; eauto. }
  destruct (Z.eqb_spec bq 0) as [E0|E0]; cbn [negb].
  - destruct (Z.eqb_spec t 0) as [Et|Et]; [lia|]. cbn [negb]. destruct (t <? C_TINY) eqn:T3.
    + apply Z.ltb_lt in T3. unfold C_TINY in T3. rewrite wrap64_small by lia. apply G; unfold Q_MIN; lia.
    + apply G; unfold Q_MIN; lia.
  - rewrite lor_CMIN by exact M. rewrite (SchubM.wrap32_small (1075 - bq)) by lia. rewrite (SchubM.wrap32_small (- (1075 - bq))) by lia.
    assert (Slow : (let* fe := toDecimal4 (- (1075 - bq)) (2 ^ 52 + t) 0 in Ok (NonSpecial (bits <? 0) (fst fe) (snd fe))) = Ok (NonSpecial s f e) ->
      f < 10 ^ 17 /\ -325 <= e <= 292) by (apply G; lia).
    destruct ((0 <? 1075 - bq) && (1075 - bq <? P53)) eqn:F; [|exact Slow].
    apply andb_prop in F as [F1 F2]. apply Z.ltb_lt in F1, F2. unfold P53 in F2. destruct (_ =? _); [|exact Slow].
    intros E. apply nonspecial_inj in E as [<- <-]. rewrite lshr_spec by lia. cbn [fst snd]. split; [|lia].
    pose proof (Z.pow_pos_nonneg 2 (1075 - bq) ltac:(lia) ltac:(lia)). apply Z.div_lt_upper_bound; [lia|]. set (P := 2 ^ (1075 - bq)) in *. assert (1 <= P) by lia. clearbody P. assert (10 ^ 17 <= P * 10 ^ 17) by nia. lia.
Qed.

(** ** decLen *)

Lemma flog10_int L : 1 <= L <= 57 -> let n := flog10pow2 L in 0 <= n <= 17 /\ 10 ^ n <= 2 ^ L < 10 ^ (n + 1).
Proof.
  intros H. assert (C : forallb (fun i => let L := Z.of_nat i in let n := flog10pow2 L in
    (0 <=? n) && (n <=? 17) && (10 ^ n <=? 2 ^ L) && (2 ^ L <? 10 ^ (n + 1))) (List.seq 1 57) = true) by (vm_compute; reflexivity).
  rewrite forallb_forall in C. specialize (C (Z.to_nat L)). rewrite in_seq in C. specialize (C ltac:(lia)). rewrite Z2Nat.id in C by lia. cbv zeta in *.
  apply andb_prop in C as [C C4]. apply andb_prop in C as [C C3]. apply andb_prop in C as [C1 C2]. bools. lia.
Qed.

Lemma decLen_spec f : 0 < f < 10 ^ 17 -> decLen f = Ok (ndigits f).
Proof.
  intros H. unfold decLen, nlz64. replace (f <? 0) with false by (symmetry; apply Z.ltb_ge; lia). replace (f =? 0) with false by (symmetry; apply Z.eqb_neq; lia).
  replace (64 - (63 - Z.log2 f)) with (Z.log2 f + 1) by lia. pose proof (Z.log2_nonneg f). pose proof (Z.log2_spec f ltac:(lia)) as L.
  assert (L57 : Z.log2 f < 57) by (apply Z.log2_lt_pow2; lia).
  destruct (flog10_int (Z.log2 f + 1) ltac:(lia)) as (B0 & B1 & B2). set (len := flog10pow2 (Z.log2 f + 1)) in *.
  unfold Z.succ in L. rewrite (Z.pow_add_r 2 _ 1) in * by lia. rewrite Z.pow_1_r in *.
  rewrite pow10_value by lia. cbn [bind]. f_equal. symmetry. destruct (10 ^ len <=? f) eqn:E; bools.
  - apply ndigits_unique; try lia. rewrite Z.add_simpl_r. lia.
  - destruct (Z.eq_dec len 0) as [E0|E0]; [rewrite E0 in E; cbn in E; lia|]. apply ndigits_unique; try lia. split; [|lia].
    pose proof (proj2 (half_pow len ltac:(lia))). lia.
Qed.

(** the decimal [f * 10^e] of the magnitude [b], as FormattedFPDecimal receives it *)
Record decimal_of (b f e : Z) : Prop := {
  do_split : split b = Ok (mkFpd f e (ndigits f));
  do_dec : toDecimal b = Ok (NonSpecial false f e);
  do_right : right_decimal b f e;
  do_f : 0 < f < 10 ^ 17;
  do_e : -325 <= e <= 292 }.

Lemma decimal_of_exists b : 0 < b < inf_bits -> exists f e, decimal_of b f e.
Proof.
  intros Hb. assert (I : inf_bits < 2 ^ 63) by reflexivity. assert (Hl : is_long b) by (unfold is_long, long_min, long_max; lia).
  assert (Em : b mod 2 ^ 63 = b) by (apply Z.mod_small; lia).
  destruct (toDecimal_right b Hl) as (f & e & E & R); [rewrite Em; exact Hb|]. rewrite Em in R.
  replace (b <? 0) with false in E by (symmetry; apply Z.ltb_ge; lia).
  destruct (toDecimal_bound b _ _ _ Hl ltac:(rewrite Em; exact Hb) E) as [F1 F2]. pose proof (proj1 R) as Pf.
  exists f, e. constructor; try assumption; [|lia]. unfold split. rewrite E. cbn [bind]. rewrite decLen_spec by lia. reflexivity.
Qed.

Lemma split_zero : split 0 = Ok (mkFpd 0 0 0). Proof. reflexivity. Qed.

(** ** the rounded decimal and the required digits *)

(** what plainChars lays out: N * 10^-j *)
Definition pl_N (d : fpd) : Z := d_f d * 10 ^ Z.max 0 (d_e d).
Definition pl_j (d : fpd) : Z := Z.max 0 (- d_e d).

Lemma plainChars_text d : 0 <= d_f d < 10 ^ 17 -> ndigits (d_f d) = d_n d -> (0 < d_f d \/ d_e d = 0) ->
  plainChars d = Ok (decimal_text (pl_N d) (pl_j d)).
Proof.
  destruct d as [f e n]. cbn [d_f d_e d_n]. intros Hf Hn He. rewrite plainChars_spec by (auto; lia). unfold pl_N, pl_j. cbn [d_f d_e]. f_equal.
  destruct (0 <=? e) eqn:E; bools.
  - rewrite (Z.max_r 0 e), (Z.max_l 0 (- e)) by lia. unfold decimal_text. cbn [Z.eqb]. rewrite app_nil_r, Z.pow_0_r, Z.div_1_r. reflexivity.
  - rewrite (Z.max_l 0 e), (Z.max_r 0 (- e)) by lia. rewrite Z.mul_1_r. reflexivity.
Qed.

Lemma rnd_plain f e n p : 0 < f < 10 ^ 17 -> ndigits f = n -> 0 <= p ->
  let d := rnd f e n (n + e + p) in pl_j d <= p /\ pl_N d * 10 ^ (p - pl_j d) = hup f (- (e + p)).
Proof.
  intros Hf Hn Hp. cbv zeta. unfold rnd. replace (n - (n + e + p)) with (- (e + p)) by lia.
  destruct (n <=? n + e + p) eqn:E; bools.
  - unfold pl_j, pl_N. cbn [d_f d_e]. unfold hup. replace (- (e + p) <=? 0) with true by (symmetry; apply Z.leb_le; lia).
    split; [lia|]. rewrite Z.opp_involutive, <- Z.mul_assoc, <- Z.pow_add_r by lia. do 2 f_equal. lia.
  - cbv zeta. set (r := hup f (- (e + p))). destruct (r =? 0) eqn:E0; bools.
    { rewrite E0. unfold pl_j, pl_N. cbn [d_f d_e]. split; lia. }
    destruct (n + e + p =? 0) eqn:E1; bools.
    { unfold pl_j, pl_N. cbn [d_f d_e]. split; [lia|]. rewrite (Z.max_l 0 (e + n)), Z.mul_1_r by lia. replace (p - Z.max 0 (- (e + n))) with 0 by lia. apply Z.mul_1_r. }
    destruct (Z_lt_ge_dec (n + e + p) 0) as [H|H]; [unfold r in E0; rewrite (hup_beyond f n) in E0 by lia; lia|].
    destruct (r =? 10 ^ (n + e + p)) eqn:E2; bools.
    + rewrite E2. unfold pl_j, pl_N. cbn [d_f d_e]. split; [lia|]. rewrite <- !Z.pow_add_r by lia. f_equal. lia.
    + unfold pl_j, pl_N. cbn [d_f d_e]. split; [lia|]. rewrite <- Z.mul_assoc, <- !Z.pow_add_r by lia.
      replace (Z.max 0 (e + n - (n + e + p)) + (p - Z.max 0 (- (e + n - (n + e + p))))) with 0 by lia. apply Z.mul_1_r.
Qed.

Lemma rnd_sig f e n P : 0 < f < 10 ^ 17 -> ndigits f = n -> 1 <= P ->
  let d := rnd f e n P in 0 < d_f d < 10 ^ 17 /\ ndigits (d_f d) = d_n d /\ 1 <= d_n d <= P /\
    sig f e P = (d_f d * 10 ^ (P - d_n d), d_n d + d_e d - 1).
Proof.
  intros Hf Hn HP. cbv zeta. destruct (ndigits_bounds f ltac:(lia)) as (N1 & B1 & B2).
  pose proof (rnd_ok f e n P Hf Hn) as (R1 & R2 & _). unfold sig. rewrite Hn in *.
  destruct (n <=? P) eqn:E; bools.
  - assert (Er : rnd f e n P = mkFpd f e n) by (unfold rnd; replace (n <=? P) with true by (symmetry; apply Z.leb_le; lia); reflexivity).
    rewrite Er in *. cbn [d_f d_e d_n] in *. split; [lia|]. split; [exact Hn|]. split; [lia|].
    unfold hup. replace (n - P <=? 0) with true by (symmetry; apply Z.leb_le; lia). replace (- (n - P)) with (P - n) by lia.
    assert (Ep : 10 ^ P = 10 ^ n * 10 ^ (P - n)) by (rewrite <- Z.pow_add_r by lia; f_equal; lia). pose proof (pow10_pos (P - n) ltac:(lia)).
    replace (f * 10 ^ (P - n) =? 10 ^ P) with false by (symmetry; apply Z.eqb_neq; nia). reflexivity.
  - pose proof (hup_range f n (n - P) ltac:(lia) Hn ltac:(lia) ltac:(lia)) as R. replace (n - (n - P) - 1) with (P - 1) in R by lia. replace (n - (n - P)) with P in R by lia.
    pose proof (pow10_pos (P - 1) ltac:(lia)) as Pp.
    unfold rnd in *. replace (n <=? P) with false in * by (symmetry; apply Z.leb_gt; lia). cbv zeta in *.
    replace (hup f (n - P) =? 0) with false in * by (symmetry; apply Z.eqb_neq; lia). replace (P =? 0) with false in * by (symmetry; apply Z.eqb_neq; lia).
    destruct (hup f (n - P) =? 10 ^ P); cbn [d_f d_e d_n] in *.
    + split; [lia|]. split; [exact R2|]. split; [lia|]. rewrite Z.sub_diag, Z.mul_1_r. f_equal. lia.
    + split; [lia|]. split; [exact R2|]. split; [lia|]. rewrite Z.sub_diag, Z.mul_1_r. f_equal. lia.
Qed.

Lemma rnd_exp f e n pp : -325 <= e <= 292 -> 1 <= n <= 17 -> ndigits f = n -> 0 < f -> -325 <= d_e (rnd f e n pp) <= 310.
Proof.
  intros He Hn Hd Hf. unfold rnd. destruct (n <=? pp) eqn:E; bools; [cbn; lia|]. cbv zeta.
  destruct (hup f (n - pp) =? 0) eqn:E0; bools; [cbn; lia|].
  destruct (Z_lt_ge_dec pp 0) as [H|H]; [rewrite (hup_beyond f n) in E0 by lia; lia|].
  destruct (pp =? 0) eqn:E1; bools; [cbn; lia|]. destruct (_ =? _); cbn; lia.
Qed.

Lemma ndigits_17 f : 0 < f < 10 ^ 17 -> 1 <= ndigits f <= 17.
Proof.
  intros H. destruct (ndigits_bounds f ltac:(lia)) as (N1 & B1 & B2). split; [exact N1|].
  destruct (Z_le_gt_dec (ndigits f) 17) as [G|G]; [exact G|]. assert (10 ^ 17 <= 10 ^ (ndigits f - 1)) by (apply Z.pow_le_mono_r; lia). lia.
Qed.

Lemma zlen_plain d : 0 <= d_f d < 10 ^ 17 -> -325 <= d_e d <= 310 -> zlen (decimal_text (pl_N d) (pl_j d)) <= 1000.
Proof.
  intros Hf He. rewrite zlen_decimal_text by (unfold pl_j; lia). rewrite zlen_numeral.
  assert (HN : 0 <= pl_N d < 10 ^ 327).
  { unfold pl_N. pose proof (pow10_gt0 (d_e d)). assert (10 ^ Z.max 0 (d_e d) <= 10 ^ 310) by (apply Z.pow_le_mono_r; lia).
    replace 327 with (17 + 310) by lia. rewrite Z.pow_add_r by lia. split; [nia|]. apply Z.lt_le_trans with (10 ^ 17 * 10 ^ Z.max 0 (d_e d)); nia. }
  assert (Hj : 0 <= pl_j d <= 325) by (unfold pl_j; lia). pose proof (pow10_pos (pl_j d) ltac:(lia)).
  assert (zlen (digits 10 (pl_N d / 10 ^ pl_j d)) <= 327).
  { apply digits_len_le; try lia; [apply Z.div_pos; lia|]. apply Z.le_lt_trans with (pl_N d); [|lia].
    apply Z.div_le_upper_bound; nia. }
  destruct (pl_j d =? 0); lia.
Qed.

(** ** the double as a number to print *)

Lemma mag_range b : 0 <= dbl_mag b < 2 ^ 63. Proof. apply Z.mod_pos_bound. lia. Qed.


Lemma finite_tests b : finite b -> dbl_isNaN b = false /\ dbl_isInf b = false /\ dbl_isFinite b = true.
Proof.
  intros H. change (dbl_mag b < inf_bits) in H; unfold inf_bits in H. pose proof (mag_range b). unfold dbl_isNaN, dbl_isInf, dbl_isFinite, dbl_bexp.
  assert (E : dbl_mag b / 2 ^ 52 < 2047) by (apply Z.div_lt_upper_bound; lia).
  replace (dbl_mag b / 2 ^ 52 =? 2047) with false by (symmetry; apply Z.eqb_neq; lia). auto.
Qed.

Lemma finite_sign b : finite b -> (dbl_compare0 b <? 0) = (b <? 0).
Proof.
  intros H. destruct (finite_tests b H) as (E & _). unfold dbl_compare0, dbl_neg. rewrite E. destruct (dbl_isZero b), (b <? 0); reflexivity.
Qed.

(** the decimal printed for a finite double *)
Definition printed (b f e : Z) : Prop := (dbl_mag b = 0 /\ f = 0 /\ e = 0) \/ (0 < dbl_mag b < inf_bits /\ decimal_of (dbl_mag b) f e).

Lemma printed_exists b : finite b -> exists f e, printed b f e.
Proof.
  intros H. pose proof (mag_range b). destruct (Z.eq_dec (dbl_mag b) 0) as [E|E].
  - exists 0, 0. left. auto.
  - destruct (decimal_of_exists (dbl_mag b)) as (f & e & D); [change (dbl_mag b < inf_bits) in H; lia|]. exists f, e. right. split; [change (dbl_mag b < inf_bits) in H; lia|exact D].
Qed.

Lemma printed_finite b f e : printed b f e -> finite b.
Proof. change (finite b) with (dbl_mag b < inf_bits). intros [(E & _)|(H & _)]; [rewrite E; reflexivity|lia]. Qed.

Lemma precOr6_spec c : rt_ok c -> precOr6 c = prec_or 6 (q_of c) /\ 0 <= prec_or 6 (q_of c) <= 65536.
Proof. intros H. unfold precOr6, prec_or. destruct (prec_cases c H) as [(-> & _ & ->)|(-> & B & ->)]; lia. Qed.

Lemma seqOfArr_den t : zlen t <= int_max -> den (seqOfArr t) t.
Proof. intros H. constructor. apply s_forArray_den. exact H. Qed.

Lemma zlen_numeral_lt N k : 1 <= k -> 0 <= N < 10 ^ k -> zlen (numeral 10 N) <= k.
Proof. intros Hk HN. rewrite zlen_numeral. apply digits_len_le; lia. Qed.

Lemma zlen_with_alt alt N p : 0 <= p -> zlen (with_alt alt N p) <= zlen (numeral 10 (N / 10 ^ p)) + 1 + p.
Proof.
  intros Hp. unfold with_alt. destruct alt; [rewrite zlen_alt_text by exact Hp; lia|]. rewrite zlen_decimal_text by exact Hp. destruct (p =? 0); lia.
Qed.

(** ** %f *)

Lemma dbl_decimal_text b f e p : printed b f e -> 0 <= p <= 65536 ->
  exists d, dbl_decimal b p = Ok (mkLayout (seqOfArr (decimal_text (pl_N d) (pl_j d))) None) /\
    zlen (decimal_text (pl_N d) (pl_j d)) <= 1000 /\ 0 <= pl_N d /\ pl_j d <= p /\ pl_N d * 10 ^ (p - pl_j d) = hup f (- (e + p)).
Proof.
  intros H Hp. unfold dbl_decimal, dbl_abs. destruct H as [(E & -> & ->)|(Hb & D)].
  - exists (mkFpd 0 0 1). rewrite E. rewrite split_zero. cbn [bind plain d_n d_e]. unfold plain, round. cbn [d_n Z.eqb orb bind].
    split; [reflexivity|]. unfold pl_N, pl_j. cbn [d_f d_e]. split; [vm_compute; discriminate|]. split; [lia|]. split; [lia|].
    unfold hup. replace (- (0 + p) <=? 0) with true by (symmetry; apply Z.leb_le; lia). reflexivity.
  - destruct D as [Ds _ _ Df De]. rewrite Ds. cbn [bind]. unfold plain. cbn [d_n d_e]. pose proof (ndigits_17 f Df) as N17.
    rewrite round_spec by (try assumption; try reflexivity; lia). cbn [bind]. set (d := rnd f e (ndigits f) (ndigits f + e + p)).
    destruct (rnd_ok f e (ndigits f) (ndigits f + e + p) Df eq_refl) as (R1 & R2 & R3). fold d in R1, R2, R3.
    rewrite plainChars_text by assumption. cbn [bind layoutOf option_map]. exists d. split; [reflexivity|].
    split; [apply zlen_plain; [lia|apply rnd_exp; auto; lia]|].
    split; [unfold pl_N; pose proof (pow10_gt0 (d_e d)); nia|]. apply rnd_plain; auto; lia.
Qed.

Lemma fmt_f_double c b f e : rt_ok c -> printed b f e -> exists u, fmt_f c (doubleForm b) = Ok u /\ den u (c_f (q_of c) (b <? 0) f e).
Proof.
  intros Hc Hb. pose proof (printed_finite b f e Hb) as Hfin. destruct (finite_tests b Hfin) as (T1 & T2 & _).
  unfold fmt_f. cbn [doubleForm f_isNaN f_isInf f_decimal]. rewrite T1, T2. cbn [orb].
  destruct (precOr6_spec c Hc) as [Ep Hp]. rewrite Ep. unfold f_isNegative. cbn [doubleForm f_signum]. rewrite finite_sign by exact Hfin.
  unfold c_f, finite_text, f_body. set (p := prec_or 6 (q_of c)) in *.
  destruct (dbl_decimal_text b f e p Hb Hp) as (d & E & L & N0 & Hj & EN). rewrite E. cbn [bind l_mant].
  destruct (fractionalPart_den _ (pl_N d) (pl_j d) p (hasFlag c ALTERNATE) (seqOfArr_den (decimal_text (pl_N d) (pl_j d)) ltac:(rewrite int_max_val; lia)) N0) as (u & Eu & Du);
    [unfold pl_j in *; lia|rewrite int_max_val; lia|].
  rewrite Eu. cbn [bind]. rewrite EN in Du.
  change (hasFlag c ALTERNATE) with (q_alt (q_of c)) in Du. apply signAndJustify_den; [exact Hc|exact Du|].
  assert (Hj0 : 0 <= pl_j d) by (unfold pl_j; lia).
  rewrite <- EN. pose proof (zlen_with_alt (q_alt (q_of c)) (pl_N d * 10 ^ (p - pl_j d)) p ltac:(lia)) as Z1.
  replace p with (pl_j d + (p - pl_j d)) in Z1 at 4 by lia. rewrite div_shift in Z1 by lia.
  rewrite zlen_decimal_text in L by lia. rewrite int_max_val. fold (with_alt (q_alt (q_of c)) (pl_N d * 10 ^ (p - pl_j d)) p). destruct (pl_j d =? 0); lia.
Qed.

(** ** %e *)

(** the mantissa laid out by scientificMantissa *)
Definition mant (d : fpd) (prec : Z) : list Z :=
  if prec =? 0 then decimal_text (d_f d) 0 else alt_text (d_f d) (d_n d - 1).

Lemma scientificChars_text d prec : 0 < d_f d < 10 ^ 17 -> ndigits (d_f d) = d_n d -> (prec = 0 -> d_n d = 1) -> -400 <= d_e d <= 400 ->
  scientificChars d prec = Ok (mant d prec, Some (expChars d)).
Proof.
  destruct d as [f e n]. cbn [d_f d_e d_n]. intros Hf Hn Hp He. unfold scientificChars. rewrite mantissa_chars by (auto; lia). cbn [bind]. unfold mant. cbn [d_f d_n].
  do 2 f_equal. destruct (prec =? 0); [reflexivity|]. destruct (n =? 1) eqn:E; bools; [subst n; rewrite E; reflexivity|].
  rewrite alt_text_pos; [reflexivity|]. pose proof (ndigits_17 f Hf). lia.
Qed.

Lemma exp_text_chars d : -400 <= d_e d <= 400 -> 1 <= d_n d <= 17 -> exp_text (d_n d + d_e d - 1) = ch "e" :: expChars d.
Proof. destruct d as [f e n]. cbn [d_f d_e d_n]. intros. symmetry. apply (exp_chars f e n). lia. Qed.

Lemma zlen_mant d prec : 0 < d_f d < 10 ^ 17 -> ndigits (d_f d) = d_n d -> zlen (mant d prec) <= 100.
Proof.
  intros Hf Hn. pose proof (ndigits_17 _ Hf) as N17. unfold mant. destruct (prec =? 0).
  - rewrite zlen_decimal_text by lia. rewrite Z.pow_0_r, Z.div_1_r. pose proof (zlen_numeral_lt (d_f d) 17 ltac:(lia) ltac:(lia)). cbn. lia.
  - rewrite zlen_alt_text by lia. pose proof (pow10_pos (d_n d - 1) ltac:(lia)).
    pose proof (zlen_numeral_lt (d_f d / 10 ^ (d_n d - 1)) 17 ltac:(lia)) as Z1. assert (0 <= d_f d / 10 ^ (d_n d - 1) < 10 ^ 17); [|lia].
    split; [apply Z.div_pos; lia|]. apply Z.div_lt_upper_bound; nia.
Qed.

Lemma zlen_exp_text x : -999 <= x <= 999 -> zlen (exp_text x) <= 5.
Proof. intros H. unfold exp_text. rewrite !zlen_cons, zlen_min_digits. pose proof (zlen_numeral_lt (Z.abs x) 3 ltac:(lia) ltac:(lia)). lia. Qed.

Lemma append_exp s t x xs : den s t -> zlen t <= 1000000 -> zlen xs <= 1000 -> ch "e" :: xs = exp_text x ->
  den (s_append (s_append s (chS (ch "e"))) (seqOfArr xs)) (t ++ exp_text x).
Proof.
  intros Hd Ht Hx <-. change (t ++ ch "e" :: xs) with (t ++ [ch "e"] ++ xs). rewrite app_assoc. apply s_append_den.
  - apply s_append_den; [exact Hd|apply chS_den|]. rewrite zlen_app, zlen_one, int_max_val. lia.
  - apply seqOfArr_den. rewrite int_max_val. lia.
  - rewrite !zlen_app, zlen_one, int_max_val. lia.
Qed.

Lemma rnd_n f e P : 0 < f < 10 ^ 17 -> 1 <= P -> d_n (rnd f e (ndigits f) P) = Z.min (ndigits f) P.
Proof.
  intros Hf HP. pose proof (ndigits_17 f Hf). unfold rnd. destruct (ndigits f <=? P) eqn:E; bools; [cbn; lia|]. cbv zeta.
  pose proof (hup_range f _ (ndigits f - P) ltac:(lia) eq_refl ltac:(lia) ltac:(lia)) as R. pose proof (pow10_pos (ndigits f - (ndigits f - P) - 1) ltac:(lia)).
  replace (hup f (ndigits f - P) =? 0) with false by (symmetry; apply Z.eqb_neq; lia). replace (P =? 0) with false by (symmetry; apply Z.eqb_neq; lia).
  destruct (_ =? _); cbn; lia.
Qed.

Lemma fmt_e_double c b f e : rt_ok c -> printed b f e -> exists u, fmt_e c (doubleForm b) = Ok u /\ den u (c_e (q_of c) (b <? 0) f e).
Proof.
  intros Hc Hb. pose proof (printed_finite b f e Hb) as Hfin. destruct (finite_tests b Hfin) as (T1 & T2 & _).
  unfold fmt_e. cbn [doubleForm f_isNaN f_isInf f_scientific]. rewrite T1, T2. cbn [orb].
  destruct (precOr6_spec c Hc) as [Ep Hp]. rewrite Ep. unfold f_isNegative. cbn [doubleForm f_signum]. rewrite finite_sign by exact Hfin.
  unfold c_e, finite_text, e_body, sig0. set (p := prec_or 6 (q_of c)) in *. unfold dbl_scientific, dbl_isZero, dbl_abs.
  destruct Hb as [(E & -> & ->)|(Hb & D)].
  - rewrite E. cbn [Z.eqb bind l_mant l_exp nonNull].
    destruct (fractionalPart_den (chS (ch "0")) 0 0 p (hasFlag c ALTERNATE) (chS_den (ch "0"))) as (u & Eu & Du); [lia|lia|change (zlen (decimal_text 0 0)) with 1; rewrite int_max_val; lia|].
    rewrite Eu. cbn [bind]. rewrite Z.mul_0_l in Du. change (hasFlag c ALTERNATE) with (q_alt (q_of c)) in Du.
    assert (Z1 : zlen (with_alt (q_alt (q_of c)) 0 p) <= p + 2).
    { pose proof (zlen_with_alt (q_alt (q_of c)) 0 p ltac:(lia)) as Z1. rewrite Z.div_0_l in Z1 by (pose proof (pow10_pos p); lia). change (zlen (numeral 10 0)) with 1 in Z1. lia. }
    apply signAndJustify_den; [exact Hc| |].
    + change (exp_text 0) with ([ch "e"] ++ txt "+00"). fold (with_alt (q_alt (q_of c)) 0 p). rewrite app_assoc. apply s_append_den.
      * apply s_append_den; [exact Du|apply chS_den|]. rewrite zlen_app, zlen_one, int_max_val. lia.
      * apply wrapS_den. vm_compute. discriminate.
      * rewrite !zlen_app, int_max_val. change (zlen [ch "e"]) with 1. change (zlen (txt "+00")) with 3. lia.
    + fold (with_alt (q_alt (q_of c)) 0 p). rewrite zlen_app, int_max_val. change (zlen (exp_text 0)) with 4. lia.
  - replace (dbl_mag b =? 0) with false by (symmetry; apply Z.eqb_neq; lia). destruct D as [Ds _ _ Df De].
    replace (f =? 0) with false by (symmetry; apply Z.eqb_neq; lia). rewrite Ds. cbn [bind]. unfold scientific. pose proof (ndigits_17 f Df) as N17.
    rewrite round_spec by (try assumption; try reflexivity; lia). cbn [bind].
    destruct (rnd_sig f e (ndigits f) (p + 1) Df eq_refl ltac:(lia)) as (R1 & R2 & R3 & R4).
    pose proof (rnd_exp f e (ndigits f) (p + 1) De N17 eq_refl ltac:(lia)) as Rx. set (d := rnd f e (ndigits f) (p + 1)) in *.
    pose proof (ndigits_17 _ R1) as D17. rewrite R2 in D17.
    rewrite scientificChars_text by (try assumption; lia). cbn [bind layoutOf option_map l_mant l_exp nonNull]. rewrite R4.
    assert (F : exists u, formatFractionalPart (seqOfArr (mant d p)) p (hasFlag c ALTERNATE) = Ok u /\ den u (with_alt (q_alt (q_of c)) (d_f d * 10 ^ (p + 1 - d_n d)) p)).
    { change (q_alt (q_of c)) with (hasFlag c ALTERNATE). pose proof (zlen_mant d p R1 R2) as Zm.
      assert (Dm : den (seqOfArr (mant d p)) (mant d p)) by (apply seqOfArr_den; rewrite int_max_val; lia). unfold mant in *.
      destruct (p =? 0) eqn:Ep0; bools.
      - replace (p + 1 - d_n d) with (p - 0) by lia. apply fractionalPart_den; [exact Dm|lia|lia|rewrite int_max_val; lia].
      - destruct (Z.eq_dec (d_n d) 1) as [En|En].
        + rewrite En in *. replace (p + 1 - 1) with p by lia. change (1 - 1) with 0 in *. apply fractionalPart_dot_den; [exact Dm|lia|lia|rewrite int_max_val; lia].
        + replace (p + 1 - d_n d) with (p - (d_n d - 1)) by lia. rewrite alt_text_pos in * by lia. apply fractionalPart_den; [exact Dm|lia|lia|rewrite int_max_val; lia]. }
    destruct F as (u & Eu & Du). rewrite Eu. cbn [bind].
    assert (Z1 : zlen (with_alt (q_alt (q_of c)) (d_f d * 10 ^ (p + 1 - d_n d)) p) <= p + 18).
    { pose proof (zlen_with_alt (q_alt (q_of c)) (d_f d * 10 ^ (p + 1 - d_n d)) p ltac:(lia)) as Z1.
      replace p with (d_n d - 1 + (p + 1 - d_n d)) in Z1 at 4 by lia. rewrite div_shift in Z1 by lia. pose proof (pow10_pos (d_n d - 1) ltac:(lia)).
      pose proof (zlen_numeral_lt (d_f d / 10 ^ (d_n d - 1)) 17 ltac:(lia)) as Z2. assert (0 <= d_f d / 10 ^ (d_n d - 1) < 10 ^ 17); [|lia].
      split; [apply Z.div_pos; lia|]. apply Z.div_lt_upper_bound; nia. }
    fold (with_alt (q_alt (q_of c)) (d_f d * 10 ^ (p + 1 - d_n d)) p).
    pose proof (zlen_exp_text (d_n d + d_e d - 1) ltac:(lia)) as Zx. pose proof (exp_text_chars d ltac:(lia) ltac:(lia)) as Ex.
    apply signAndJustify_den; [exact Hc| |rewrite zlen_app, int_max_val; lia].
    apply append_exp; [exact Du|lia| |symmetry; exact Ex]. rewrite Ex, zlen_cons in Zx. lia.
Qed.

(** ** %g *)

Lemma ndigits_shift N z : 0 < N -> 0 <= z -> ndigits (N * 10 ^ z) = ndigits N + z.
Proof.
  intros HN Hz. destruct (ndigits_bounds N HN) as (N1 & B1 & B2). pose proof (pow10_pos z Hz).
  apply ndigits_unique; [lia|nia|]. replace (ndigits N + z - 1) with (ndigits N - 1 + z) by lia. rewrite !Z.pow_add_r by lia. nia.
Qed.

Lemma g_prec_spec c : rt_ok c -> (if isPrecisionSet c then (if c_prec c =? 0 then 1 else c_prec c) else 6) = g_prec (q_of c) /\ 1 <= g_prec (q_of c) <= 65536.
Proof.
  intros H. unfold g_prec, prec_or. destruct (prec_cases c H) as [(-> & _ & ->)|(-> & B & ->)]; [cbn; lia|]. destruct (c_prec c =? 0) eqn:E; bools; lia.
Qed.

Lemma zlen_short_text N p : 0 <= N -> 0 <= p -> zlen (short_text N p) <= zlen (decimal_text N p).
Proof.
  intros HN Hp. unfold short_text. assert (G : forall n N, 0 <= N -> let (M, r) := drop_zeros n N in 0 <= r <= Z.of_nat n /\ M / 10 ^ r = N / 10 ^ Z.of_nat n).
  { induction n as [|n IH]; intros M HM; cbn [drop_zeros]; [lia|]. destruct (M mod 10 =? 0) eqn:E; [|lia].
    specialize (IH (M / 10) ltac:(apply Z.div_pos; lia)). destruct (drop_zeros n (M / 10)) as [M' r]. destruct IH as [I1 I2]. split; [lia|].
    rewrite I2. pose proof (pow10_pos (Z.of_nat n)). rewrite Z.div_div by lia. f_equal. rewrite Nat2Z.inj_succ, Z.pow_succ_r by lia. reflexivity. }
  specialize (G (Z.to_nat p) N HN). destruct (drop_zeros _ N) as [M r]. destruct G as [G1 G2]. rewrite Z2Nat.id in * by lia.
  rewrite !zlen_decimal_text by lia. rewrite G2. destruct (r =? 0) eqn:E1, (p =? 0) eqn:E2; bools; lia.
Qed.

Lemma fmt_g_double c b f e : rt_ok c -> printed b f e -> exists u, fmt_g c (doubleForm b) = Ok u /\ den u (j_g (q_of c) (b <? 0) f e).
Proof.
  intros Hc Hb. pose proof (printed_finite b f e Hb) as Hfin. destruct (finite_tests b Hfin) as (T1 & T2 & _).
  unfold fmt_g. cbn [doubleForm f_isNaN f_isInf f_general]. rewrite T1, T2. cbn [orb]. cbv zeta.
  destruct (g_prec_spec c Hc) as [Ep Hp]. rewrite Ep. unfold f_isNegative. cbn [doubleForm f_signum]. rewrite finite_sign by exact Hfin.
  unfold j_g, g_irregular, g_unpadded, c_g, finite_text, g_body, g_text, sig0. set (P := g_prec (q_of c)) in *. unfold dbl_general, dbl_isZero, dbl_abs.
  destruct Hb as [(E & -> & ->)|(Hb & D)].
  - rewrite E. cbn [Z.eqb bind l_mant l_exp]. change (-4 <=? 0) with true. replace (0 <? P) with true by (symmetry; apply Z.ltb_lt; lia). cbn [andb negb]. rewrite andb_false_r.
    unfold formatGDecimal. cbn [l_mant]. change (hasFlag c ALTERNATE) with (q_alt (q_of c)). rewrite Z.sub_0_r. destruct (q_alt (q_of c)).
    + destruct (padToPrecision_zero _ P (chS_den (ch "0")) ltac:(lia)) as (u & Eu & Du). rewrite Eu. cbn [bind]. apply signAndJustify_den; [exact Hc|exact Du|].
      rewrite zlen_alt_text by lia. rewrite Z.div_0_l by (pose proof (pow10_pos (P - 1)); lia). change (zlen (numeral 10 0)) with 1. rewrite int_max_val. lia.
    + destruct (strip_decimal_wden (chS (ch "0")) 0 0 (chS_den (ch "0")) ltac:(lia) ltac:(lia)) as (u & Eu & _ & Du). rewrite Eu. cbn [bind].
      specialize (Du _ eq_refl). pose proof (short_text_shift 0 0 (P - 1) ltac:(lia) ltac:(lia) ltac:(lia)) as S0. rewrite Z.mul_0_l, Z.add_0_l in S0.
      rewrite S0. apply signAndJustify_den; [exact Hc|exact Du|]. reflexivity.
  - replace (dbl_mag b =? 0) with false by (symmetry; apply Z.eqb_neq; lia). destruct D as [Ds _ _ Df De].
    replace (f =? 0) with false by (symmetry; apply Z.eqb_neq; lia). rewrite Ds. cbn [bind]. unfold general. pose proof (ndigits_17 f Df) as N17.
    rewrite round_spec by (try assumption; try reflexivity; lia). cbn [bind]. rewrite <- (rnd_n f e P Df ltac:(lia)).
    destruct (rnd_sig f e (ndigits f) P Df eq_refl ltac:(lia)) as (R1 & R2 & R3 & R4).
    pose proof (rnd_exp f e (ndigits f) P De N17 eq_refl ltac:(lia)) as Rx. set (d := rnd f e (ndigits f) P) in *.
    pose proof (ndigits_17 _ R1) as D17. rewrite R2 in D17. rewrite R4. cbv zeta. unfold exponentRounded.
    set (X := d_n d + d_e d - 1). assert (EX : d_n d + d_e d - 1 = X) by reflexivity. clearbody X.
    destruct ((-4 <=? X) && (X <? P)) eqn:ES.
    + apply andb_prop in ES as [ES1 ES2]. bools. cbn [negb]. rewrite andb_false_r.
      rewrite plainChars_text by (try assumption; lia). cbn [bind layoutOf option_map l_mant l_exp]. unfold formatGDecimal. cbn [l_mant].
      pose proof (zlen_plain d ltac:(lia) ltac:(lia)) as Zp. assert (HN : 0 < pl_N d) by (unfold pl_N; pose proof (pow10_gt0 (d_e d)); nia).
      assert (Hj : 0 <= pl_j d) by (unfold pl_j; lia). set (z := P - d_n d - Z.max 0 (d_e d)). assert (Hz : 0 <= z) by (unfold z; lia).
      assert (E1 : d_f d * 10 ^ (P - d_n d) = pl_N d * 10 ^ z).
      { unfold pl_N, z. rewrite <- Z.mul_assoc, <- Z.pow_add_r by lia. f_equal. f_equal. lia. }
      assert (E2 : P - 1 - X = pl_j d + z) by (unfold pl_j, z; lia). rewrite E1, E2.
      pose proof (seqOfArr_den (decimal_text (pl_N d) (pl_j d)) ltac:(rewrite int_max_val; lia)) as Dm.
      assert (Zn : zlen (numeral 10 (pl_N d / 10 ^ pl_j d)) <= 1000) by (rewrite zlen_decimal_text in Zp by lia; destruct (pl_j d =? 0); lia).
      change (hasFlag c ALTERNATE) with (q_alt (q_of c)). destruct (q_alt (q_of c)).
      * destruct (padToPrecision_den _ _ _ P Dm HN Hj ltac:(lia) ltac:(rewrite int_max_val; lia)) as (u & Eu & Du). rewrite Eu. cbn [bind].
        assert (En : P - ndigits (pl_N d) = z) by (unfold pl_N, z; rewrite ndigits_shift by lia; lia). rewrite En, (Z.max_r 0 z) in Du by lia.
        apply signAndJustify_den; [exact Hc|exact Du|]. rewrite zlen_alt_text by lia. rewrite div_shift by lia. rewrite int_max_val.
        assert (pl_j d <= 325) by (unfold pl_j; lia). assert (z <= 65536) by (unfold z; lia). lia.
      * destruct (strip_decimal_wden _ _ _ Dm ltac:(lia) Hj) as (u & Eu & _ & Du). rewrite Eu. cbn [bind]. specialize (Du _ eq_refl).
        rewrite short_text_shift by lia. apply signAndJustify_den; [exact Hc|exact Du|]. pose proof (zlen_short_text (pl_N d) (pl_j d) ltac:(lia) Hj). rewrite int_max_val. lia.
    + clear ES. rewrite scientificChars_text by (try assumption; lia). cbn [bind layoutOf option_map l_mant l_exp negb]. rewrite andb_true_r. unfold formatGScientific. cbn [l_mant].
      pose proof (zlen_mant d (P - 1) R1 R2) as Zm. pose proof (seqOfArr_den (mant d (P - 1)) ltac:(rewrite int_max_val; lia)) as Dm.
      pose proof (zlen_exp_text X ltac:(lia)) as Zx. pose proof (exp_text_chars d ltac:(lia) ltac:(lia)) as Ex. rewrite EX in Ex.
      assert (Zxs : zlen (expChars d) <= 1000) by (rewrite Ex, zlen_cons in Zx; lia). symmetry in Ex.
      change (hasFlag c ALTERNATE) with (q_alt (q_of c)). destruct (q_alt (q_of c)); cbn [negb].
      * cbn [bind]. assert (Em : mant d (P - 1) = if P =? 1 then decimal_text (d_f d * 10 ^ (P - d_n d)) 0 else alt_text (d_f d * 10 ^ (P - d_n d) / 10 ^ (P - d_n d)) (d_n d - 1)).
        { unfold mant. destruct (P =? 1) eqn:E1; bools.
          - replace (P - 1 =? 0) with true by (symmetry; apply Z.eqb_eq; lia). replace (P - d_n d) with 0 by lia. rewrite Z.mul_1_r. reflexivity.
          - replace (P - 1 =? 0) with false by (symmetry; apply Z.eqb_neq; lia). rewrite Z.div_mul by (pose proof (pow10_pos (P - d_n d)); lia). reflexivity. }
        rewrite <- Em. apply signAndJustify_den; [exact Hc|apply append_exp; [exact Dm|lia|exact Zxs|exact Ex]|]. rewrite zlen_app, int_max_val. lia.
      * assert (F : exists u, stripTrailingZeros (seqOfArr (mant d (P - 1))) = Ok u /\ den u (short_text (d_f d * 10 ^ (P - d_n d)) (P - 1)) /\ zlen (short_text (d_f d * 10 ^ (P - d_n d)) (P - 1)) <= 100).
        { pose proof (short_text_shift (d_f d) (d_n d - 1) (P - d_n d) ltac:(lia) ltac:(lia) ltac:(lia)) as Es. replace (d_n d - 1 + (P - d_n d)) with (P - 1) in Es by lia. rewrite Es. unfold mant in *. destruct (P - 1 =? 0) eqn:E1; bools.
          - replace (d_n d - 1) with 0 by lia. destruct (strip_decimal_wden _ _ _ Dm ltac:(lia) ltac:(lia)) as (u & Eu & _ & Du). exists u. split; [exact Eu|]. split; [exact (Du _ eq_refl)|exact Zm].
          - destruct (Z.eq_dec (d_n d) 1) as [En|En].
            + rewrite En in *. change (1 - 1) with 0 in *. destruct (strip_dot_wden _ _ Dm ltac:(lia)) as (u & Eu & _ & Du). exists u. split; [exact Eu|]. split; [exact (Du _ eq_refl)|].
              rewrite short_text_0. rewrite zlen_alt_text in Zm by lia. rewrite zlen_decimal_text by lia. change (0 =? 0) with true. cbn match. lia.
            + rewrite alt_text_pos in * by lia. destruct (strip_decimal_wden _ _ _ Dm ltac:(lia) ltac:(lia)) as (u & Eu & _ & Du). exists u. split; [exact Eu|]. split; [exact (Du _ eq_refl)|].
              pose proof (zlen_short_text (d_f d) (d_n d - 1) ltac:(lia) ltac:(lia)). lia. }
        destruct F as (u & Eu & Du & Zu). rewrite Eu. cbn [bind].
        apply signAndJustify_den; [exact Hc|apply append_exp; [exact Du|lia|exact Zxs|exact Ex]|]. rewrite zlen_app, int_max_val. lia.
Qed.
