From Coq Require Import QArith Qabs Qpower Lqa.
From Verif Require Import Base Digits UtilsM SeqM SeqSpec SeqP SeqSubP ContextM IntFormM FormatterM MathM MathP DecimalM FPDecimalM DoubleM DecSpec RoundP
  GCheck CertTable CertCheck IrrCheck SchubM SchubP FmtSpec FmtP FloatSpec FPDecP FloatP DoubleP FloatQ PropsDouble PropsFloat ReadFP2 ScaleSpec.
Open Scope Z_scope.

Lemma dval_step m : 0 < m -> (dval (m - 1) == dval m - 2 ^ expo (m - 1))%Q.
Proof. intros H. pose proof (dval_succ (m - 1) ltac:(lia)) as E. replace (m - 1 + 1) with m in E by ring. lra. Qed.

Lemma interval_val m : 0 < m -> (interval m == if regular (expo m) (RoundP.sig m) then 2 ^ expo m else (3 # 4) * 2 ^ expo m)%Q.
Proof.
  intros H. unfold interval. rewrite dval_succ by lia. rewrite dval_step by lia.
  pose proof (Z.div_mod m (2 ^ 52) ltac:(lia)) as D. pose proof (Z.mod_pos_bound m (2 ^ 52) ltac:(lia)) as M.
  unfold regular, RoundP.sig, Q_MIN, C_MIN.
  assert (He : 0 <= m / 2 ^ 52) by (apply Z.div_pos; lia).
  assert (Ex : expo m = Z.max 1 (m / 2 ^ 52) - 1075) by reflexivity.
  assert (E0 : expo (m - 1) = expo m \/ m mod 2 ^ 52 = 0 /\ 2 <= m / 2 ^ 52 /\ expo m = expo (m - 1) + 1).
  { unfold expo. destruct (Z.eq_dec (m mod 2 ^ 52) 0) as [E|E].
    - assert (A : (m - 1) / 2 ^ 52 = m / 2 ^ 52 - 1) by (symmetry; apply (Z.div_unique_pos _ _ _ (2 ^ 52 - 1)); lia). rewrite A. lia.
    - assert (A : (m - 1) / 2 ^ 52 = m / 2 ^ 52) by (symmetry; apply (Z.div_unique_pos _ _ _ (m mod 2 ^ 52 - 1)); lia). rewrite A. lia. }
  destruct (Z.eqb_spec (m / 2 ^ 52) 0) as [Z0|Z0].
  - replace (m mod 2 ^ 52 =? 4503599627370496) with false by (symmetry; apply Z.eqb_neq; lia). cbn [negb orb].
    destruct E0 as [-> | (E0 & E1 & _)]; [ring|lia].
  - destruct E0 as [E0|(E0 & E1 & E2)].
    + rewrite E0. destruct (negb (2 ^ 52 + m mod 2 ^ 52 =? 4503599627370496) || (expo m =? -1074)) eqn:R; [ring|].
      exfalso. apply orb_false_elim in R as [R1 R2]. apply negb_false_iff, Z.eqb_eq in R1. apply Z.eqb_neq in R2.
      assert (m mod 2 ^ 52 = 0) by lia. revert E0. unfold expo.
      assert (A : (m - 1) / 2 ^ 52 = m / 2 ^ 52 - 1) by (symmetry; apply (Z.div_unique_pos _ _ _ (2 ^ 52 - 1)); lia). rewrite A. lia.
    + rewrite E0. change (negb (2 ^ 52 + 0 =? 4503599627370496)) with false. replace (expo m =? -1074) with false by (symmetry; apply Z.eqb_neq; lia).
      cbn [orb]. rewrite E2, two_succ. ring.
Qed.

Lemma scale_val m k : 0 < m < inf_bits -> k = scale (expo m) (RoundP.sig m) -> (10 ^ k <= interval m < 10 ^ (k + 1))%Q.
Proof.
  intros H ->. rewrite interval_val by lia. destruct (sig_expo_range m H) as [Hq Hc]. unfold scale.
  destruct (regular (expo m) (RoundP.sig m)) eqn:R.
  - apply C26_flog10pow2. exact Hq.
  - apply C26_flog10threeQuartersPow2. unfold regular, Q_MIN in R. apply orb_false_elim in R as [_ R]. apply Z.eqb_neq in R. lia.
Qed.

Lemma toDecimal4_scale q c f e : -1074 <= q <= 971 -> 0 < c < 2 ^ 53 -> toDecimal4 q c 0 = Ok (f, e) -> e = scale q c.
Proof.
  intros Hq Hc E. rewrite toDecimal4_ideal in E by lia.
  pose proof (ideal_bound c (anum q (scale q c)) (aden q (scale q c)) (left_end q c) (4 * c + 2) (scale q c) 0) as I.
  destruct (ideal _ _ _ _ _ _ _) as [f' e']. assert (e' = e) by congruence. lia.
Qed.

Lemma whole_fast m q c : 0 < m -> q = expo m -> c = RoundP.sig m -> 0 < c < 2 ^ 53 -> (whole m <-> -53 < q < 0 /\ (2 ^ (- q) | c)).
Proof.
  intros H -> -> Hc. unfold whole. pose proof (dval_sig m ltac:(lia)) as D. set (q := expo m) in *. set (c := RoundP.sig m) in *. split.
  - intros (n & Hn & E). rewrite D in E. assert (C : q < 0 \/ 0 <= q) by lia. destruct C as [C|C].
    + assert (Q1 : (inject_Z c == inject_Z (n * 2 ^ (- q)))%Q).
      { rewrite inject_Z_mult, <- E. rewrite Zpower_Qpower by lia. change (inject_Z 2) with 2%Q. rewrite <- Qmult_assoc, <- Qpower_plus by discriminate.
        replace (q + - q) with 0 by ring. change (2 ^ 0)%Q with 1%Q. ring. }
      rewrite inject_Z_injective in Q1. assert (P : 0 < 2 ^ (- q)) by (apply Z.pow_pos_nonneg; lia). split; [|exists n; exact Q1].
      split; [|exact C]. assert (2 ^ (- q) < 2 ^ 53) by nia. apply Z.pow_lt_mono_r_iff in H0; lia.
    + exfalso. assert (Q1 : (inject_Z (c * 2 ^ q) == inject_Z n)%Q) by (rewrite inject_Z_mult, Zpower_Qpower by lia; exact E).
      rewrite inject_Z_injective in Q1. assert (P : 0 < 2 ^ q) by (apply Z.pow_pos_nonneg; lia).
      assert (2 ^ 52 <= c); [|nia]. unfold c, RoundP.sig. unfold q, expo in C. destruct (Z.eqb_spec (m / 2 ^ 52) 0) as [E0|E0]; [lia|].
      pose proof (Z.mod_pos_bound m (2 ^ 52) ltac:(lia)). lia.
  - intros (Hq & n & Hn). exists n. assert (P : 0 < 2 ^ (- q)) by (apply Z.pow_pos_nonneg; lia).
    assert (P2 : 2 <= 2 ^ (- q)) by (change 2 with (2 ^ 1) at 1; apply Z.pow_le_mono_r; lia). split; [nia|].
    rewrite D, Hn, inject_Z_mult, Zpower_Qpower by lia. change (inject_Z 2) with 2%Q. rewrite <- Qmult_assoc, <- Qpower_plus by discriminate.
    replace (- q + q) with 0 by ring. change (2 ^ 0)%Q with 1%Q. ring.
Qed.

Lemma toDecimal_scale m s f e : 0 < m < inf_bits -> toDecimal m = Ok (NonSpecial s f e) -> scale_of m e.
Proof.
  intros Hb E. assert (Small : m < 3 \/ 3 <= m) by lia. destruct Small as [Sm|Sm].
  { assert (C : m = 1 \/ m = 2) by lia. destruct C as [-> | ->].
    - vm_compute in E. injection E as <- <- <-. apply sc_tiny; [reflexivity|]. vm_compute. split; [discriminate|reflexivity].
    - vm_compute in E. injection E as <- <- <-. apply sc_tiny; [reflexivity|]. vm_compute. split; [discriminate|reflexivity]. }
  destruct (sig_expo_range m Hb) as [Hq Hc]. pose proof (whole_fast m _ _ ltac:(lia) eq_refl eq_refl Hc) as Wh.
  assert (I : inf_bits < 2 ^ 63) by reflexivity. assert (Em : m mod 2 ^ 63 = m) by (apply Z.mod_small; lia).
  revert E. unfold toDecimal. cbv zeta. rewrite land_TMASK, exponent_field. rewrite <- (mod_mod_pow m). rewrite Em.
  pose proof (Z.div_mod m (2 ^ 52) ltac:(lia)) as D. pose proof (Z.mod_pos_bound m (2 ^ 52) ltac:(lia)) as M.
  assert (Slow : forall q c, q = expo m -> c = RoundP.sig m -> ~ whole m -> (let* fe := toDecimal4 q c 0 in Ok (NonSpecial (m <? 0) (fst fe) (snd fe))) = Ok (NonSpecial s f e) -> scale_of m e).
  { intros q c -> -> Nw E. destruct (toDecimal4 (expo m) (RoundP.sig m) 0) as [[f' e']|] eqn:E4; [|discriminate]. cbn [bind fst snd] in E.
    apply nonspecial_inj in E as [<- <-]. apply sc_other; [exact Sm|exact Nw|]. apply scale_val; [exact Hb|]. eapply toDecimal4_scale; eauto. }
  assert (Bq : 0 <= m / 2 ^ 52 < 2047) by (unfold inf_bits in Hb; split; [apply Z.div_pos; lia|apply Z.div_lt_upper_bound; lia]).
  replace (m / 2 ^ 52 <? BQ_MASK) with true by (symmetry; apply Z.ltb_lt; exact (proj2 Bq)).
  change (- Q_MIN + 1 - m / 2 ^ 52) with (1075 - m / 2 ^ 52).
  assert (Ex : expo m = Z.max 1 (m / 2 ^ 52) - 1075) by reflexivity.
  assert (Es : RoundP.sig m = if m / 2 ^ 52 =? 0 then m mod 2 ^ 52 else 2 ^ 52 + m mod 2 ^ 52) by reflexivity.
  set (bq := m / 2 ^ 52) in *. set (t := m mod 2 ^ 52) in *. destruct (Z.eqb_spec bq 0) as [E0|E0] in Es |- *; cbn [negb].
  - destruct (Z.eqb_spec t 0) as [Et|Et]; [lia|]. cbn [negb]. replace (t <? C_TINY) with false by (symmetry; apply Z.ltb_ge; unfold C_TINY; lia).
    apply Slow; [unfold Q_MIN; lia|lia|]. intros W. apply Wh in W. lia.
  - rewrite lor_CMIN by exact M. rewrite (SchubM.wrap32_small (1075 - bq)) by lia. rewrite (SchubM.wrap32_small (- (1075 - bq))) by lia.
    assert (Eq : - (1075 - bq) = expo m) by lia. unfold P53.
    destruct ((0 <? 1075 - bq) && (1075 - bq <? 53)) eqn:F.
    + apply andb_prop in F as [F1 F2]. apply Z.ltb_lt in F1, F2. rewrite lshr_spec by lia. set (mq := 1075 - bq) in *.
      assert (P : 0 < 2 ^ mq) by (apply Z.pow_pos_nonneg; lia). pose proof (Z.div_mod (2 ^ 52 + t) (2 ^ mq) ltac:(lia)) as Dm. pose proof (Z.mod_pos_bound (2 ^ 52 + t) (2 ^ mq) P) as Mm.
      assert (Rg : 0 <= (2 ^ 52 + t) / 2 ^ mq * 2 ^ mq <= 2 ^ 52 + t) by (split; [apply Z.mul_nonneg_nonneg; [apply Z.div_pos; lia|lia]|lia]).
      rewrite lshl_small by lia. destruct (Z.eqb_spec ((2 ^ 52 + t) / 2 ^ mq * 2 ^ mq) (2 ^ 52 + t)) as [Ed|Ed].
      * intros E. apply nonspecial_inj in E as [_ <-]. apply sc_whole. apply Wh. split; [lia|]. exists ((2 ^ 52 + t) / 2 ^ mq). rewrite Es. replace (- expo m) with mq by lia. lia.
      * apply Slow; [lia|lia|]. intros W. apply Wh in W as (_ & n & Hn). apply Ed. rewrite Es in Hn. rewrite Hn. replace (- expo m) with mq by lia. rewrite Z.div_mul by lia. reflexivity.
    + apply Slow; [lia|lia|]. intros W. apply Wh in W as (W & _). apply andb_false_iff in F as [F|F]; apply Z.ltb_ge in F; lia.
Qed.

Lemma ten_between (x : Q) e e' : (10 ^ e <= x < 10 ^ (e + 1))%Q -> (10 ^ e' <= x < 10 ^ (e' + 1))%Q -> e = e'.
Proof.
  intros [A B] [A' B']. assert (G : forall a b, (10 ^ a < 10 ^ (b + 1))%Q -> a <= b).
  { intros a b L. destruct (Z_le_gt_dec a b) as [K|K]; [exact K|exfalso]. assert ((10 ^ (b + 1) <= 10 ^ a)%Q); [|lra].
    apply Qpower_le_compat_l; [lia|discriminate]. }
  assert (e <= e') by (apply G; lra). assert (e' <= e) by (apply G; lra). lia.
Qed.

Lemma scale_unique m e e' : 0 < m -> scale_of m e -> scale_of m e' -> e = e'.
Proof.
  intros H. assert (Tiny : m < 3 -> ~ whole m).
  { intros L (n & Hn & E). assert (C : m = 1 \/ m = 2) by lia.
    assert (X : (dval m < 1)%Q) by (destruct C as [-> | ->]; reflexivity). rewrite E in X. change 1%Q with (inject_Z 1) in X. rewrite <- Zlt_Qlt in X. lia. }
  intros [W|e1 L1 I1|e1 L1 N1 I1] [W'|e2 L2 I2|e2 L2 N2 I2]; try lia; try (exfalso; tauto); try reflexivity.
  - replace (e1 + 2) with (e1 + 1 + 1) in I1 by ring. replace (e2 + 2) with (e2 + 1 + 1) in I2 by ring. pose proof (ten_between _ _ _ I1 I2). lia.
  - eapply ten_between; eauto.
Qed.

Lemma dec_inj f f' e : (dec f e == dec f' e)%Q -> f = f'.
Proof.
  unfold dec. intros E. apply Qmult_inj_r in E; [apply inject_Z_injective; exact E|]. apply ten_nz.
Qed.

(** the digits and the exponent of the model are the ones specified *)
Lemma digits_printed b f e : its_digits b f e <-> printed b f e.
Proof.
  split.
  - intros [(H & -> & ->)|(H & R & S)]; [left; auto|right]. split; [exact H|].
    destruct (decimal_of_exists (magnitude b) H) as (f0 & e0 & D0).
    assert (e0 = e) as -> by (eapply scale_unique; [apply H|eapply toDecimal_scale; [exact H|apply (do_dec _ _ _ D0)]|exact S]).
    assert (f0 = f) as ->; [|exact D0]. eapply dec_inj. eapply right_unique; [apply (do_right _ _ _ D0)|exact R].
  - intros [(H & -> & ->)|(H & D)]; [left; auto|right]. split; [exact H|]. split; [apply (do_right _ _ _ D)|].
    eapply toDecimal_scale; [exact H|apply (do_dec _ _ _ D)].
Qed.

Lemma digits_decimal b f e : its_digits b f e -> its_decimal b f e.
Proof. intros [(H & -> & ->)|(H & R & _)]; [left; auto|right; auto]. Qed.
Lemma digits_exist b : finite b -> exists f e, its_digits b f e.
Proof. intros H. destruct (printed_exists b H) as (f & e & P). exists f, e. apply digits_printed, P. Qed.
Lemma digits_unique b f e f' e' : its_digits b f e -> its_digits b f' e' -> f = f' /\ e = e'.
Proof.
  intros [(H & -> & ->)|(H & R & S)] [(H' & -> & ->)|(H' & R' & S')]; try lia.
  assert (e' = e) as -> by (eapply scale_unique; [apply H|exact S'|exact S]). split; [|reflexivity]. eapply dec_inj. eapply right_unique; eassumption.
Qed.
