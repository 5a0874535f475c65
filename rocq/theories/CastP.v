(** Doubles and floats as rationals, and their conversion to integers: casts, Math.round. *)
From Coq Require Import QArith Qabs Qpower Lqa.
From Verif Require Import Base MathM DecimalM FPDecimalM SeqM SeqSpec FormatterM DoubleM BigDecM RoundM TraitsM DecSpec RoundP ShortP FloatSpec DirSpec.
Open Scope Q_scope.

Lemma two_Z n : (0 <= n)%Z -> inject_Z (2 ^ n) == 2 ^ n.
Proof. intros H. apply Zpower_Qpower. exact H. Qed.
Lemma two_opp n : 2 ^ (- n) * 2 ^ n == 1.
Proof. rewrite <- Qpower_plus by discriminate. replace (- n + n)%Z with 0%Z by lia. reflexivity. Qed.
Lemma two_le a b : (a <= b)%Z -> 2 ^ a <= 2 ^ b.
Proof.
  intros H. replace b with (b - a + a)%Z by lia. rewrite (Qpower_plus 2 (b - a) a) by discriminate. rewrite <- (two_Z (b - a)) by lia.
  pose proof (two_pos a) as P.
  assert (O : inject_Z 1 <= inject_Z (2 ^ (b - a))) by (apply inject_le; pose proof (Z.pow_pos_nonneg 2 (b - a) ltac:(lia) ltac:(lia)); lia).
  change (inject_Z 1) with (1 # 1) in O. assert (1 * 2 ^ a <= inject_Z (2 ^ (b - a)) * 2 ^ a) by (apply Qmult_le_r; assumption). lra.
Qed.
Lemma two_add a b : 2 ^ (a + b) == 2 ^ a * 2 ^ b.
Proof. apply Qpower_plus. discriminate. Qed.

Lemma mag_neg m : (0 <= m < 2 ^ 63)%Z -> magnitude (m - 2 ^ 63) = m.
Proof. intros H. unfold magnitude. symmetry. apply (Z.mod_unique_pos _ _ (-1)); lia. Qed.
Lemma mag_pos m : (0 <= m < 2 ^ 63)%Z -> magnitude m = m.
Proof. intros H. apply Z.mod_small. exact H. Qed.

Lemma inject_pos n : (0 < n)%Z -> 0 < inject_Z n.
Proof. intros H. change 0 with (inject_Z 0). apply inject_lt. exact H. Qed.

Lemma mag_bound b : (0 <= magnitude b < 2 ^ 63)%Z.
Proof. apply Z.mod_pos_bound. lia. Qed.

Lemma mag_sign b : (- 2 ^ 63 <= b < 2 ^ 63)%Z -> b = (if (b <? 0)%Z then magnitude b - 2 ^ 63 else magnitude b)%Z.
Proof.
  intros H. unfold magnitude. destruct (Z.ltb_spec b 0) as [L|L].
  - assert (E : (b mod 2 ^ 63 = b + 2 ^ 63)%Z) by (symmetry; apply (Z.mod_unique_pos _ _ (-1)); lia). lia.
  - rewrite Z.mod_small; lia.
Qed.

Lemma sval_pos b : (0 <= b < 2 ^ 63)%Z -> sval b = dval b.
Proof. intros H. unfold sval. replace (b <? 0)%Z with false by (symmetry; apply Z.ltb_ge; lia). rewrite mag_pos by exact H. reflexivity. Qed.
Lemma sval_neg b : (0 <= b < 2 ^ 63)%Z -> sval (b - 2 ^ 63) = - dval b.
Proof. intros H. unfold sval. replace (b - 2 ^ 63 <? 0)%Z with true by (symmetry; apply Z.ltb_lt; lia). rewrite mag_neg by exact H. reflexivity. Qed.

Lemma dval_nonneg b : (0 <= b)%Z -> 0 <= dval b.
Proof. intros H. pose proof (dval_le 0 b ltac:(lia)) as L. change (dval 0) with (0 * 2 ^ (-1074)) in L. rewrite Qmult_0_l in L. exact L. Qed.

Lemma frac_mag x : ((x mod 2 ^ 63) mod 2 ^ 52 = x mod 2 ^ 52)%Z.
Proof.
  change (2 ^ 63)%Z with (2 ^ 52 * 2 ^ 11)%Z. rewrite Z.rem_mul_r by lia.
  rewrite (Z.mul_comm (2 ^ 52)), Z.mod_add by lia. apply Z.mod_mod. lia.
Qed.

Lemma dbl_num_val b : inject_Z (dbl_num b) == sval b * 2 ^ 1074.
Proof.
  assert (E : inject_Z (dbl_c b * 2 ^ (dbl_q b + 1074)) == dval (magnitude b) * 2 ^ 1074).
  { pose proof (mag_bound b) as R. rewrite dval_sig by lia.
    assert (Ec : dbl_c b = RoundP.sig (magnitude b)).
    { unfold dbl_c, RoundP.sig, dbl_bexp, dbl_frac, dbl_mag, magnitude. rewrite frac_mag. reflexivity. }
    assert (Eq : dbl_q b = expo (magnitude b)) by reflexivity. rewrite Ec, Eq.
    assert (Q0 : (0 <= expo (magnitude b) + 1074)%Z) by (unfold expo; lia).
    rewrite inject_Z_mult, two_Z by exact Q0. rewrite two_add. ring. }
  unfold dbl_num, sval, dbl_neg. cbv zeta. destruct (b <? 0)%Z; [rewrite inject_Z_opp, E; ring|exact E].
Qed.

(** ** float to double *)

Lemma dval_inj a b : (0 <= a)%Z -> (0 <= b)%Z -> dval a == dval b -> a = b.
Proof.
  intros Ha Hb E. destruct (Z.lt_trichotomy a b) as [L|[L|L]]; [|exact L|].
  - pose proof (dval_lt a b ltac:(lia)). lra.
  - pose proof (dval_lt b a ltac:(lia)). lra.
Qed.

Lemma widened_unique f b b' : widened f b -> widened f b' -> b = b'.
Proof.
  intros (_ & R1 & _ & S1 & V1) (_ & R2 & _ & S2 & V2). pose proof (mag_bound b). pose proof (mag_bound b').
  assert (E : magnitude b = magnitude b') by (apply dval_inj; [lia|lia|rewrite V1, V2; reflexivity]).
  rewrite (mag_sign b), (mag_sign b') by assumption. rewrite E.
  destruct (Z.ltb_spec b 0), (Z.ltb_spec b' 0); try reflexivity; exfalso; lia.
Qed.

Lemma dval_fields E t : (0 < E)%Z -> (0 <= t < 2 ^ 52)%Z -> dval (E * 2 ^ 52 + t) == inject_Z (2 ^ 52 + t) * 2 ^ (E - 1075).
Proof.
  intros HE Ht. unfold dval.
  assert (D : ((E * 2 ^ 52 + t) / 2 ^ 52 = E)%Z) by (symmetry; apply (Z.div_unique_pos _ _ _ t); lia).
  assert (M : ((E * 2 ^ 52 + t) mod 2 ^ 52 = t)%Z) by (symmetry; apply (Z.mod_unique_pos _ _ E); lia).
  rewrite D, M. replace (E =? 0)%Z with false by (symmetry; apply Z.eqb_neq; lia). reflexivity.
Qed.

Lemma f2d_widens f : (f mod 2 ^ 31 < 255 * 2 ^ 23)%Z -> widened f (f2d f).
Proof.
  intros Hf. pose proof (Z.mod_pos_bound f (2 ^ 31) ltac:(lia)) as R. set (g := (f mod 2 ^ 31)%Z) in *.
  assert (Em : (f mod 2 ^ 23 = g mod 2 ^ 23)%Z).
  { unfold g. change (2 ^ 31)%Z with (2 ^ 23 * 2 ^ 8)%Z. rewrite Z.rem_mul_r by lia. rewrite (Z.mul_comm (2 ^ 23)), Z.mod_add by lia. rewrite Z.mod_mod by lia. reflexivity. }
  pose proof (Z.mod_pos_bound g (2 ^ 23) ltac:(lia)) as Rm. pose proof (Z.div_mod g (2 ^ 23) ltac:(lia)) as D.
  assert (Re : (0 <= g / 2 ^ 23 < 255)%Z) by (split; [apply Z.div_pos|apply Z.div_lt_upper_bound]; lia).
  unfold f2d. cbv zeta. rewrite Em. fold g. set (m := (g mod 2 ^ 23)%Z) in *. set (e := (g / 2 ^ 23)%Z) in *.
  replace (e =? 255)%Z with false by (symmetry; apply Z.eqb_neq; lia).
  set (mag := if negb (e =? 0)%Z then _ else _).
  assert (G : (0 <= mag < inf_bits)%Z /\ dval mag == fval g).
  { unfold fval. fold m e. unfold mag, inf_bits. destruct (Z.eqb_spec e 0) as [E0|E0]; cbn [negb].
    - destruct (Z.eqb_spec m 0) as [M0|M0]; [rewrite M0; split; [lia|vm_compute; reflexivity]|].
      pose proof (Z.log2_spec m ltac:(lia)) as L. pose proof (Z.log2_nonneg m) as L0.
      assert (L1 : (Z.log2 m < 23)%Z) by (apply Z.log2_lt_pow2; lia). set (l := Z.log2 m) in *. clearbody l.
      assert (F : (0 <= m * 2 ^ (52 - l) - 2 ^ 52 < 2 ^ 52)%Z).
      { assert (P2 : (2 ^ 52 = 2 ^ l * 2 ^ (52 - l))%Z) by (rewrite <- Z.pow_add_r by lia; f_equal; lia).
        unfold Z.succ in L. rewrite Z.pow_add_r in L by lia. change (2 ^ 1)%Z with 2%Z in L. pose proof (Z.pow_pos_nonneg 2 (52 - l) ltac:(lia) ltac:(lia)). nia. }
      split; [nia|]. rewrite dval_fields by lia. replace (2 ^ 52 + (m * 2 ^ (52 - l) - 2 ^ 52))%Z with (m * 2 ^ (52 - l))%Z by lia.
      rewrite inject_Z_mult, two_Z by lia. rewrite <- Qmult_assoc, <- two_add. replace (52 - l + (l + 874 - 1075))%Z with (-149)%Z by lia. reflexivity.
    - split; [lia|]. rewrite dval_fields by lia. replace (2 ^ 52 + m * 2 ^ 29)%Z with ((2 ^ 23 + m) * 2 ^ 29)%Z by lia.
      rewrite inject_Z_mult, two_Z by lia. rewrite <- Qmult_assoc, <- two_add. replace (29 + (e + 896 - 1075))%Z with (e - 150)%Z by lia. reflexivity. }
  destruct G as [G1 G2]. assert (I : (inf_bits < 2 ^ 63)%Z) by reflexivity. clearbody mag.
  destruct (Z.ltb_spec f 0) as [S|S].
  - assert (E : magnitude (mag - 2 ^ 63) = mag) by (apply mag_neg; lia). unfold widened, finite. rewrite E. fold g.
    split; [exact Hf|]. split; [lia|]. split; [lia|]. split; [lia|exact G2].
  - assert (E : magnitude mag = mag) by (apply mag_pos; lia). unfold widened, finite. rewrite E. fold g.
    split; [exact Hf|]. split; [lia|]. split; [lia|]. split; [lia|exact G2].
Qed.

Open Scope Z_scope.

Lemma float_inf f : f mod 2 ^ 31 = 255 * 2 ^ 23 -> f2d f = if f <? 0 then inf_bits - 2 ^ 63 else inf_bits.
Proof.
  intros H. unfold f2d. cbv zeta. rewrite H.
  assert (Em : f mod 2 ^ 23 = 0).
  { replace (f mod 2 ^ 23) with ((f mod 2 ^ 31) mod 2 ^ 23); [rewrite H; reflexivity|].
    change (2 ^ 31) with (2 ^ 23 * 2 ^ 8). rewrite Z.rem_mul_r by lia. rewrite (Z.mul_comm (2 ^ 23)), Z.mod_add by lia. rewrite Z.mod_mod by lia. reflexivity. }
  rewrite Em. reflexivity.
Qed.

Lemma double_class b : dbl_isNaN b = (inf_bits <? magnitude b) /\ dbl_isInf b = (magnitude b =? inf_bits).
Proof.
  pose proof (mag_bound b) as R. unfold dbl_isNaN, dbl_isInf, dbl_bexp, dbl_frac, inf_bits. change (dbl_mag b) with (magnitude b).
  rewrite <- (frac_mag b). change (b mod 2 ^ 63) with (magnitude b). set (g := magnitude b) in *.
  pose proof (Z.div_mod g (2 ^ 52) ltac:(lia)) as D. pose proof (Z.mod_pos_bound g (2 ^ 52) ltac:(lia)) as M.
  assert (R2 : g / 2 ^ 52 < 2048) by (apply Z.div_lt_upper_bound; lia). set (x := g / 2 ^ 52) in *. set (t := g mod 2 ^ 52) in *. clearbody x t.
  split; destruct (Z.eqb_spec x 2047) as [E|E]; cbn [andb].
  - destruct (Z.eqb_spec t 0) as [E2|E2], (Z.ltb_spec (2047 * 2 ^ 52) g) as [L|L]; try reflexivity; exfalso; lia.
  - symmetry. apply Z.ltb_ge. lia.
  - destruct (Z.eqb_spec t 0) as [E2|E2], (Z.eqb_spec g (2047 * 2 ^ 52)) as [L|L]; try reflexivity; exfalso; lia.
  - symmetry. apply Z.eqb_neq. lia.
Qed.

Lemma float_nan f : 255 * 2 ^ 23 < f mod 2 ^ 31 -> inf_bits < magnitude (f2d f).
Proof.
  intros H. unfold f2d. cbv zeta.
  assert (Em : f mod 2 ^ 23 = (f mod 2 ^ 31) mod 2 ^ 23).
  { change (2 ^ 31) with (2 ^ 23 * 2 ^ 8). rewrite Z.rem_mul_r by lia. rewrite (Z.mul_comm (2 ^ 23)), Z.mod_add by lia. rewrite Z.mod_mod by lia. reflexivity. }
  rewrite Em. pose proof (Z.mod_pos_bound f (2 ^ 31) ltac:(lia)) as B. set (g := f mod 2 ^ 31) in *. clearbody g.
  pose proof (Z.div_mod g (2 ^ 23) ltac:(lia)) as D. pose proof (Z.mod_pos_bound g (2 ^ 23) ltac:(lia)) as M.
  set (x := g / 2 ^ 23) in *. set (t := g mod 2 ^ 23) in *. clearbody x t. assert (x = 255) as -> by lia. change (255 =? 255) with true. cbv iota.
  unfold magnitude, inf_bits. destruct (f <? 0).
  + rewrite <- (Z.mod_add _ 1) by lia. rewrite Z.mod_small; lia.
  + rewrite Z.mod_small; lia.
Qed.

(** ** rounding a quotient *)

Lemma truncated_unique x a b : truncated x a -> truncated x b -> a = b.
Proof.
  intros [A1 A2] [B1 B2]. destruct (Qlt_le_dec x 0) as [L|L].
  - destruct (A2 ltac:(lra)) as [P1 P2]. destruct (B2 ltac:(lra)) as [P3 P4].
    assert (U1 : (inject_Z (a - 1) < inject_Z b)%Q) by (rewrite inject_sub; change (inject_Z 1) with (1 # 1)%Q; lra).
    assert (U2 : (inject_Z (b - 1) < inject_Z a)%Q) by (rewrite inject_sub; change (inject_Z 1) with (1 # 1)%Q; lra).
    apply inject_lt_inv in U1, U2. lia.
  - destruct (A1 L) as [P1 P2]. destruct (B1 L) as [P3 P4].
    assert (U1 : (inject_Z (a - 1) < inject_Z b)%Q) by (rewrite inject_sub; change (inject_Z 1) with (1 # 1)%Q; lra).
    assert (U2 : (inject_Z (b - 1) < inject_Z a)%Q) by (rewrite inject_sub; change (inject_Z 1) with (1 # 1)%Q; lra).
    apply inject_lt_inv in U1, U2. lia.
Qed.

Lemma rounded_unique x a b : rounded x a -> rounded x b -> a = b.
Proof.
  intros [P1 P2] [P3 P4].
  assert (U1 : (inject_Z (a - 1) < inject_Z b)%Q) by (rewrite inject_sub; change (inject_Z 1) with (1 # 1)%Q; lra).
  assert (U2 : (inject_Z (b - 1) < inject_Z a)%Q) by (rewrite inject_sub; change (inject_Z 1) with (1 # 1)%Q; lra).
  apply inject_lt_inv in U1, U2. lia.
Qed.

(** comparisons of [x = n / d] *)
Section Quotient.
  Variables (x : Q) (n d : Z).
  Hypothesis Hd : 0 < d.
  Hypothesis Hx : (x * inject_Z d == inject_Z n)%Q.
  Local Open Scope Q_scope.

  Lemma qle a : (a * d <= n)%Z -> inject_Z a <= x.
  Proof. intros H. apply (Qmult_le_r _ _ _ (inject_pos d Hd)). rewrite Hx, <- inject_Z_mult. apply inject_le. exact H. Qed.
  Lemma qge a : (n <= a * d)%Z -> x <= inject_Z a.
  Proof. intros H. apply (Qmult_le_r _ _ _ (inject_pos d Hd)). rewrite Hx, <- inject_Z_mult. apply inject_le. exact H. Qed.
  Lemma qlt a : (a * d < n)%Z -> inject_Z a < x.
  Proof. intros H. apply (Qmult_lt_r _ _ _ (inject_pos d Hd)). rewrite Hx, <- inject_Z_mult. apply inject_lt. exact H. Qed.
  Lemma qgt a : (n < a * d)%Z -> x < inject_Z a.
  Proof. intros H. apply (Qmult_lt_r _ _ _ (inject_pos d Hd)). rewrite Hx, <- inject_Z_mult. apply inject_lt. exact H. Qed.

  Lemma qnonneg : 0 <= x -> (0 <= n)%Z.
  Proof.
    intros H. apply inject_le_inv. rewrite <- Hx. change (inject_Z 0) with 0. pose proof (inject_pos d Hd) as P.
    apply Qmult_le_0_compat; lra.
  Qed.
  Lemma qnonpos : x <= 0 -> (n <= 0)%Z.
  Proof.
    intros H. apply inject_le_inv. rewrite <- Hx. change (inject_Z 0) with 0. pose proof (inject_pos d Hd) as P.
    assert (x * inject_Z d <= 0 * inject_Z d) by (apply Qmult_le_compat_r; lra). lra.
  Qed.

  Lemma truncated_quot : truncated x (Z.quot n d).
  Proof.
    pose proof (Z.quot_rem' n d) as D. split; intros H.
    - apply qnonneg in H. pose proof (Z.rem_bound_pos n d H Hd) as B. split; [apply qle; lia|].
      apply Qlt_le_trans with (inject_Z (Z.quot n d + 1)); [apply qgt; lia|]. rewrite inject_Z_plus. apply Qle_refl.
    - apply qnonpos in H. pose proof (Z.rem_bound_pos (- n) d ltac:(lia) Hd) as B. rewrite Z.rem_opp_l in B by lia. split; [|apply qge; lia].
      apply Qle_lt_trans with (inject_Z (Z.quot n d - 1)); [|apply qlt; lia]. rewrite inject_sub. apply Qle_refl.
  Qed.
End Quotient.

Lemma rounded_div x n d : 0 < d -> (x * inject_Z d == inject_Z n)%Q -> rounded x ((2 * n + d) / (2 * d)).
Proof.
  intros Hd Hx. set (t := (2 * n + d) / (2 * d)).
  pose proof (Z.div_mod (2 * n + d) (2 * d) ltac:(lia)) as D. pose proof (Z.mod_pos_bound (2 * n + d) (2 * d) ltac:(lia)) as M. fold t in D.
  assert (H2 : ((2 * x) * inject_Z d == inject_Z (2 * n))%Q) by (rewrite inject_Z_mult; change (inject_Z 2) with 2%Q; rewrite <- Hx; ring).
  assert (A : (inject_Z (2 * t - 1) <= 2 * x)%Q) by (apply (qle _ _ _ Hd H2); lia).
  assert (B : (2 * x < inject_Z (2 * t + 1))%Q) by (apply (qgt _ _ _ Hd H2); lia).
  rewrite inject_sub, inject_Z_mult in A. rewrite inject_Z_plus, inject_Z_mult in B. change (inject_Z 2) with 2%Q in *. change (inject_Z 1) with (1 # 1)%Q in *.
  split; lra.
Qed.

(** ** doubles to integers *)

Lemma dbl_parts b : (sval b == inject_Z (if (b <? 0)%Z then - dbl_c b else dbl_c b) * 2 ^ dbl_q b)%Q /\ 0 <= dbl_c b.
Proof.
  pose proof (mag_bound b) as R.
  assert (Ec : dbl_c b = RoundP.sig (magnitude b)).
  { unfold dbl_c, RoundP.sig, dbl_bexp, dbl_frac, dbl_mag, magnitude. rewrite frac_mag. reflexivity. }
  assert (Eq : dbl_q b = expo (magnitude b)) by reflexivity.
  split.
  - unfold sval. destruct (b <? 0); rewrite dval_sig, Ec, Eq by lia; [rewrite inject_Z_opp; ring|reflexivity].
  - unfold dbl_c, dbl_frac. pose proof (Z.mod_pos_bound b (2 ^ 52) ltac:(lia)). destruct (_ =? 0); lia.
Qed.

Lemma dbl_ratio b n : n = (if b <? 0 then - dbl_c b else dbl_c b) ->
  (0 <= dbl_q b -> (sval b * inject_Z 1 == inject_Z (n * 2 ^ dbl_q b))%Q) /\
  (dbl_q b < 0 -> (sval b * inject_Z (2 ^ (- dbl_q b)) == inject_Z n)%Q).
Proof.
  intros ->. destruct (dbl_parts b) as [V _]. split; intros H.
  - rewrite V, inject_Z_mult, two_Z by lia. change (inject_Z 1) with (1 # 1)%Q. ring.
  - rewrite V, two_Z by lia. rewrite <- Qmult_assoc, (Qmult_comm (2 ^ dbl_q b)), two_opp. ring.
Qed.

Lemma dbl_trunc_spec b : truncated (sval b) (dbl_trunc b).
Proof.
  destruct (dbl_ratio b _ eq_refl) as [R1 R2]. destruct (dbl_parts b) as [_ P]. unfold dbl_trunc, dbl_neg. cbv zeta.
  destruct (Z.leb_spec 0 (dbl_q b)) as [L|L].
  - specialize (R1 L). pose proof (truncated_quot _ _ _ Z.lt_0_1 R1) as T. rewrite Z.quot_1_r in T.
    destruct (b <? 0); [rewrite <- Z.mul_opp_l|]; exact T.
  - specialize (R2 L). pose proof (Z.pow_pos_nonneg 2 (- dbl_q b) ltac:(lia) ltac:(lia)) as P2.
    pose proof (truncated_quot _ _ _ P2 R2) as T.
    destruct (b <? 0); [rewrite Z.quot_opp_l, Z.quot_div_nonneg in T by lia|rewrite Z.quot_div_nonneg in T by lia]; exact T.
Qed.

Lemma dbl_floorHalf_spec b : rounded (sval b) (dbl_floorHalf b).
Proof.
  destruct (dbl_ratio b _ eq_refl) as [R1 R2]. unfold dbl_floorHalf, dbl_neg. cbv zeta.
  set (c := if b <? 0 then _ else _) in *.
  destruct (Z.leb_spec 0 (dbl_q b)) as [L|L].
  - specialize (R1 L). pose proof (rounded_div _ _ _ Z.lt_0_1 R1) as T.
    replace ((2 * (c * 2 ^ dbl_q b) + 1) / (2 * 1)) with (c * 2 ^ dbl_q b) in T by (apply (Z.div_unique_pos _ _ _ 1); lia). exact T.
  - specialize (R2 L). pose proof (Z.pow_pos_nonneg 2 (- dbl_q b) ltac:(lia) ltac:(lia)) as P2.
    pose proof (rounded_div _ _ _ P2 R2) as T. replace (1 - dbl_q b) with (Z.succ (- dbl_q b)) by lia. rewrite Z.pow_succ_r by lia. exact T.
Qed.

Lemma inf_num b : magnitude b = inf_bits -> dbl_c b = 2 ^ 52 /\ dbl_q b = 972.
Proof.
  intros H. unfold dbl_c, dbl_q, dbl_bexp, dbl_frac. change (dbl_mag b) with (magnitude b). rewrite <- frac_mag.
  change (b mod 2 ^ 63) with (magnitude b). rewrite H. vm_compute. auto.
Qed.

Lemma sat_unfold : long_min = - 2 ^ (64 - 1) /\ long_max = 2 ^ (64 - 1) - 1 /\ int_min = - 2 ^ (32 - 1) /\ int_max = 2 ^ (32 - 1) - 1.
Proof. repeat split. Qed.

Section Narrow.
  Variables (R : Q -> Z -> Prop) (f : Z -> Z) (bits b z lo hi : Z).
  Hypothesis Hlo : lo = - 2 ^ (bits - 1).
  Hypothesis Hhi : hi = 2 ^ (bits - 1) - 1.
  Hypothesis Hbits : 1 <= 2 ^ (bits - 1) <= 2 ^ 63.
  Hypothesis Hf : R (sval b) (f b).
  Hypothesis Hu : forall x a c, R x a -> R x c -> a = c.
  Hypothesis Hinf : magnitude b = inf_bits -> f b = (if b <? 0 then - 2 ^ 1024 else 2 ^ 1024).

  Lemma narrow_eq : narrowed R bits b z -> (if dbl_isNaN b then 0 else clamp lo hi (f b)) = z.
  Proof.
    destruct (double_class b) as [N _]. rewrite N. intros H. destruct H as [H|H|t H Ht].
    - replace (inf_bits <? magnitude b) with true by (symmetry; apply Z.ltb_lt; exact H). reflexivity.
    - replace (inf_bits <? magnitude b) with false by (symmetry; apply Z.ltb_ge; lia).
      rewrite (Hinf H). unfold clamp. assert (B : 2 ^ 63 < 2 ^ 1024) by (apply Z.pow_lt_mono_r; lia).
      set (u := 2 ^ 1024) in *. clearbody u. destruct (b <? 0).
      + rewrite Hlo, Hhi. rewrite Z.min_r by lia. rewrite Z.max_l by lia. reflexivity.
      + rewrite Hlo, Hhi. rewrite Z.min_l by lia. rewrite Z.max_r by lia. reflexivity.
    - replace (inf_bits <? magnitude b) with false by (symmetry; apply Z.ltb_ge; unfold finite in H; lia).
      rewrite (Hu _ _ _ Hf Ht). unfold clamp, saturated. rewrite Hlo, Hhi. reflexivity.
  Qed.
End Narrow.

Lemma trunc_inf b : magnitude b = inf_bits -> dbl_trunc b = (if b <? 0 then - 2 ^ 1024 else 2 ^ 1024).
Proof. intros H. destruct (inf_num b H) as [E1 E2]. unfold dbl_trunc, dbl_neg. rewrite E1, E2. reflexivity. Qed.
Lemma half_inf b : magnitude b = inf_bits -> dbl_floorHalf b = (if b <? 0 then - 2 ^ 1024 else 2 ^ 1024).
Proof. intros H. destruct (inf_num b H) as [E1 E2]. unfold dbl_floorHalf, dbl_neg. rewrite E1, E2. destruct (b <? 0); reflexivity. Qed.

Lemma d2l_is b z : narrowed truncated 64 b z -> d2l b = z.
Proof. apply (narrow_eq truncated dbl_trunc 64); eauto using dbl_trunc_spec, truncated_unique, trunc_inf. change (2 ^ (64 - 1)) with (2 ^ 63). lia. Qed.
Lemma d2i_is b z : narrowed truncated 32 b z -> d2i b = z.
Proof. apply (narrow_eq truncated dbl_trunc 32); eauto using dbl_trunc_spec, truncated_unique, trunc_inf. change (2 ^ (32 - 1)) with (2 ^ 31). lia. Qed.
Lemma roundD_is b z : narrowed rounded 64 b z -> mathRoundD b = z.
Proof. apply (narrow_eq rounded dbl_floorHalf 64); eauto using dbl_floorHalf_spec, rounded_unique, half_inf. change (2 ^ (64 - 1)) with (2 ^ 63). lia. Qed.
Lemma roundF_is b z : narrowed rounded 32 b z -> mathRoundF b = z.
Proof. apply (narrow_eq rounded dbl_floorHalf 32); eauto using dbl_floorHalf_spec, rounded_unique, half_inf. change (2 ^ (32 - 1)) with (2 ^ 31). lia. Qed.

Lemma narrowed_range R bits b z : 1 <= bits -> narrowed R bits b z -> in_range bits z.
Proof.
  intros Hb H. pose proof (Z.pow_pos_nonneg 2 (bits - 1) ltac:(lia) ltac:(lia)) as P. unfold in_range.
  destruct H as [H|H|t H Ht]; [lia|destruct (b <? 0); lia|unfold saturated; lia].
Qed.

(** the same for floats *)
Lemma same_narrowed R bits f b z : same_value f b -> narrowed R bits b z -> narrowed R bits (f2d f) z.
Proof.
  intros S N. destruct S as [W|I E ->|I E M].
  - rewrite (widened_unique _ _ _ (f2d_widens f (proj1 W)) W). exact N.
  - rewrite (float_inf f E). exact N.
  - pose proof (float_nan f E) as M'. destruct N as [_|N|t N _]; [apply nw_nan; exact M'|exfalso; lia|exfalso; unfold finite in N; lia].
Qed.

(** ** numbers read from texts *)

Lemma digitsValue_app dig s : forall acc c, digitsValue dig acc (s ++ [c]) =
  match digitsValue dig acc s with Some n => match dig c with Some d => Some (10 * n + d) | None => None end | None => None end.
Proof.
  induction s as [|x s IH]; intros acc c; cbn [app digitsValue]; [destruct (dig c); reflexivity|].
  destruct (dig x); [apply IH|reflexivity].
Qed.

Lemma digits_text_nonnil dig s n : digits_text dig s n -> s <> [].
Proof. intros H. destruct H; [discriminate|]. intros E. apply app_eq_nil in E as [_ E]. discriminate. Qed.

Lemma digitsValue_is dig s : s <> [] -> forall n, digitsValue dig 0 s = Some n <-> digits_text dig s n.
Proof.
  induction s as [|c s IH] using rev_ind; [congruence|]. intros _ n. destruct s as [|x s].
  - cbn [app digitsValue]. split.
    + destruct (dig c) as [d|] eqn:E; [|discriminate]. intros H. inversion H; subst. apply dt_one. exact E.
    + intros H. inversion H as [c0 d E Ec|s0 n0 c0 d H1 H2 Es]; subst; [rewrite E; f_equal|].
      apply digits_text_nonnil in H1. destruct s0 as [|? [|]]; [congruence|discriminate|discriminate].
  - rewrite digitsValue_app. specialize (IH ltac:(discriminate)). split.
    + destruct (digitsValue dig 0 (x :: s)) as [m|] eqn:E; [|discriminate]. destruct (dig c) as [d|] eqn:E2; [|discriminate].
      intros H. inversion H; subst. apply dt_more; [apply IH; reflexivity|exact E2].
    + intros H. inversion H as [c0 d E Ec|s0 n0 c0 d H1 H2 Es]; subst.
      * destruct s; discriminate.
      * change (x :: s ++ [c]) with ((x :: s) ++ [c]) in Es. apply app_inj_tail in Es as [-> ->]. apply IH in H1. rewrite H1, H2. reflexivity.
Qed.

Lemma parseNat_is dig s n : parseNat dig s = Some n <-> digits_text dig s n.
Proof.
  destruct s as [|c s]; [split; [discriminate|intros H; apply digits_text_nonnil in H; congruence]|].
  apply digitsValue_is. discriminate.
Qed.

Lemma inBits_is bits v z : inBits bits v = Some z <-> z = v /\ in_range bits z.
Proof.
  unfold inBits, in_range. destruct (Z.leb_spec (- 2 ^ (bits - 1)) v), (Z.ltb_spec v (2 ^ (bits - 1))); cbn [andb];
    (split; [intros E; inversion E; subst|intros [E1 E2]; subst]); try lia; reflexivity.
Qed.

Lemma parseJava_is dig bits s z : parseJava dig bits s = Some z <-> integer_text dig s z /\ in_range bits z.
Proof.
  assert (G : forall s', match parseNat dig s' with Some v => inBits bits v | None => None end = Some z <-> digits_text dig s' z /\ in_range bits z).
  { intros s'. destruct (parseNat dig s') as [v|] eqn:E.
    - apply parseNat_is in E as E'. rewrite inBits_is. split; [intros [-> H]; auto|]. intros [H1 H2]. apply parseNat_is in H1. rewrite E in H1. inversion H1. auto.
    - split; [discriminate|]. intros [H _]. apply parseNat_is in H. congruence. }
  assert (G2 : forall s', match parseNat dig s' with Some v => inBits bits (- v) | None => None end = Some z <-> digits_text dig s' (- z) /\ in_range bits z).
  { intros s'. destruct (parseNat dig s') as [v|] eqn:E.
    - apply parseNat_is in E as E'. rewrite inBits_is. split; [intros [-> H]; rewrite Z.opp_involutive; auto|]. intros [H1 H2]. apply parseNat_is in H1. rewrite E in H1. inversion H1. split; [lia|assumption].
    - split; [discriminate|]. intros [H _]. apply parseNat_is in H. congruence. }
  destruct (list_eq_dec Z.eq_dec s []) as [->|N].
  { cbn. split; [discriminate|]. intros [H _]. inversion H as [s0 n H1 H2 H3| |]; subst. apply digits_text_nonnil in H3. congruence. }
  destruct s as [|c s]; [congruence|]. clear N.
  destruct (Z.eq_dec c 45) as [->|N1]; [|destruct (Z.eq_dec c 43) as [->|N2]].
  - cbn [parseJava]. rewrite G2. split.
    + intros [H1 H2]. split; [|exact H2]. rewrite <- (Z.opp_involutive z). apply nt_minus. exact H1.
    + intros [H1 H2]. split; [|exact H2]. inversion H1 as [s0 n A B C|s0 n A|s0 n A]; subst; [exfalso; apply A; reflexivity|rewrite Z.opp_involutive; assumption].
  - cbn [parseJava]. rewrite G. split.
    + intros [H1 H2]. split; [|exact H2]. apply nt_plus. exact H1.
    + intros [H1 H2]. split; [|exact H2]. inversion H1 as [s0 n A B C|s0 n A|s0 n A]; subst; [exfalso; apply B; reflexivity|assumption].
  - assert (E : parseJava dig bits (c :: s) = match parseNat dig (c :: s) with Some v => inBits bits v | None => None end).
    { unfold parseJava. repeat (let p := fresh in match goal with |- context [match ?x with _ => _ end] => is_var x; destruct x; try reflexivity; try congruence end). }
    rewrite E, G. split.
    + intros [H1 H2]. split; [|exact H2]. apply nt_plain; [cbn; congruence|cbn; congruence|exact H1].
    + intros [H1 H2]. split; [|exact H2]. inversion H1 as [s0 n A B C|s0 n A|s0 n A]; subst; [assumption|exfalso; apply N2; reflexivity|exfalso; apply N1; reflexivity].
Qed.

(** ** decimals to integers *)

Lemma dec_trunc u s : truncated (dec u (- s)) (bd_toBigInteger (mkBD u s)).
Proof.
  unfold bd_toBigInteger. cbn [bd_u bd_s]. destruct (Z.leb_spec s 0) as [L|L].
  - rewrite <- (Z.quot_1_r (u * 10 ^ (- s))). apply truncated_quot; [lia|]. rewrite dec_int by lia. change (inject_Z 1) with (1 # 1)%Q. ring.
  - apply truncated_quot; [apply Z.pow_pos_nonneg; lia|]. unfold dec. rewrite <- Qmult_assoc.
    assert (E : (10 ^ (- s) * inject_Z (10 ^ s) == 1)%Q).
    { rewrite Zpower_Qpower by lia. rewrite <- Qpower_plus by discriminate. replace (- s + s) with 0 by lia. reflexivity. }
    rewrite E. ring.
Qed.

Lemma dec_trunc_is u s z : truncated (dec u (- s)) z -> bd_toBigInteger (mkBD u s) = z.
Proof. intros H. exact (truncated_unique _ _ _ (dec_trunc u s) H). Qed.

Lemma millis_seconds m z : truncated (inject_Z m / 1000) z -> Z.quot m 1000 = z.
Proof.
  intros H. apply (truncated_unique (inject_Z m / 1000)); [|exact H]. apply truncated_quot; [lia|]. change (inject_Z 1000) with 1000%Q. field.
Qed.

