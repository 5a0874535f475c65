(** Logarithms of 2, 10 and 3/4 between powers, without real numbers: comparing very large powers by their leading digits. *)
From Coq Require Import QArith Qpower Lqa.
From Verif Require Import Base MathM MathP RoundP CastP NearP FloatQ.
Open Scope Z_scope.

(** ** leading digits of a power *)

(** after squaring, keep some 200 bits: [lo * 2^s <= x <= hi * 2^s] *)
Definition squared (a : Z * Z * Z) : Z * Z * Z :=
  let '(lo, hi, s) := a in
  let j := Z.max 0 (Z.log2 (hi * hi) - 200) in (lo * lo / 2 ^ j, - (- (hi * hi) / 2 ^ j), 2 * s + j).
Definition times (b : Z) (a : Z * Z * Z) : Z * Z * Z := let '(lo, hi, s) := a in (b * lo, b * hi, s).
Fixpoint leading (b : Z) (p : positive) : Z * Z * Z :=
  match p with
  | xH => (b, b, 0)
  | xO p => squared (leading b p)
  | xI p => times b (squared (leading b p))
  end.

Definition around (a : Z * Z * Z) (x : Z) : Prop := let '(lo, hi, s) := a in 0 <= lo /\ 0 <= s /\ lo * 2 ^ s <= x <= hi * 2 ^ s.
Lemma squared_around a x : around a x -> around (squared a) (x * x).
Proof.
  destruct a as [[lo hi] s]. cbn [around squared]. intros (L & S & A & B). set (j := Z.max 0 (Z.log2 (hi * hi) - 200)). assert (J : 0 <= j) by (unfold j; lia). clearbody j.
  assert (P : 0 < 2 ^ s) by (apply Z.pow_pos_nonneg; lia). assert (Q : 0 < 2 ^ j) by (apply Z.pow_pos_nonneg; lia).
  assert (E : forall y, y * 2 ^ (2 * s + j) = y * 2 ^ j * (2 ^ s * 2 ^ s)) by (intros y; rewrite Z.pow_add_r by lia; replace (2 * s) with (s + s) by lia; rewrite Z.pow_add_r by lia; ring).
  split; [apply Z.div_pos; nia|]. split; [lia|]. rewrite !E. set (m := 2 ^ s) in *. set (k := 2 ^ j) in *. clearbody m k.
  pose proof (Z.div_mod (lo * lo) k ltac:(lia)) as D1. pose proof (Z.mod_pos_bound (lo * lo) k Q). pose proof (Z.div_mod (- (hi * hi)) k ltac:(lia)) as D2. pose proof (Z.mod_pos_bound (- (hi * hi)) k Q).
  assert (X0 : 0 <= lo * m) by nia. assert (M2 : 0 < m * m) by nia. split.
  - apply Z.le_trans with (lo * lo * (m * m)); [apply Z.mul_le_mono_nonneg_r; [lia|nia]|]. replace (lo * lo * (m * m)) with ((lo * m) * (lo * m)) by ring. apply Z.mul_le_mono_nonneg; lia.
  - apply Z.le_trans with (hi * hi * (m * m)); [|apply Z.mul_le_mono_nonneg_r; [lia|nia]]. replace (hi * hi * (m * m)) with ((hi * m) * (hi * m)) by ring. apply Z.mul_le_mono_nonneg; lia.
Qed.
Lemma times_around b a x : 0 <= b -> around a x -> around (times b a) (b * x).
Proof. destruct a as [[lo hi] s]. cbn [around times]. intros Hb (L & S & A & B). split; [nia|]. split; [exact S|]. split; nia. Qed.
Lemma leading_around b p : 0 <= b -> around (leading b p) (b ^ Zpos p).
Proof.
  intros Hb. induction p as [p IH|p IH|].
  - cbn [leading]. replace (b ^ Zpos p~1) with (b * (b ^ Zpos p * b ^ Zpos p)).
    + apply times_around; [exact Hb|]. apply squared_around. exact IH.
    + rewrite Pos2Z.inj_xI. replace (2 * Zpos p + 1) with (1 + (Zpos p + Zpos p)) by lia. rewrite !Z.pow_add_r by lia. rewrite Z.pow_1_r. reflexivity.
  - cbn [leading]. replace (b ^ Zpos p~0) with (b ^ Zpos p * b ^ Zpos p); [apply squared_around; exact IH|].
    rewrite Pos2Z.inj_xO. replace (2 * Zpos p) with (Zpos p + Zpos p) by lia. rewrite Z.pow_add_r by lia. reflexivity.
  - cbn [leading around]. rewrite Z.pow_1_r, Z.pow_0_r. lia.
Qed.

(** 2^n < b^p and b^p < 2^n *)
Definition over (a : Z * Z * Z) (n : Z) : bool := let '(lo, hi, s) := a in (s <=? n) && (n <=? s + 1000) && (2 ^ (n - s) <? lo).
Definition under (a : Z * Z * Z) (n : Z) : bool := let '(lo, hi, s) := a in (s <=? n) && (n <=? s + 1000) && (hi <? 2 ^ (n - s)).
Lemma over_right a x n : around a x -> over a n = true -> 2 ^ n < x.
Proof.
  destruct a as [[lo hi] s]. cbn [around over]. intros (L & S & A & B) H. apply andb_prop in H as [H H3]. apply andb_prop in H as [H1 _]. apply Z.leb_le in H1. apply Z.ltb_lt in H3.
  replace n with (n - s + s) by lia. rewrite Z.pow_add_r by lia. assert (0 < 2 ^ s) by (apply Z.pow_pos_nonneg; lia). nia.
Qed.
Lemma under_right a x n : around a x -> under a n = true -> x < 2 ^ n.
Proof.
  destruct a as [[lo hi] s]. cbn [around under]. intros (L & S & A & B) H. apply andb_prop in H as [H H3]. apply andb_prop in H as [H1 _]. apply Z.leb_le in H1. apply Z.ltb_lt in H3.
  replace n with (n - s + s) by lia. rewrite Z.pow_add_r by lia. assert (0 < 2 ^ s) by (apply Z.pow_pos_nonneg; lia). nia.
Qed.
(** the product of two powers *)
Definition product (a b : Z * Z * Z) : Z * Z * Z := let '(lo, hi, s) := a in let '(lo', hi', s') := b in (lo * lo', hi * hi', s + s').
Lemma product_around a b x y : around a x -> around b y -> around (product a b) (x * y).
Proof.
  destruct a as [[lo hi] s]. destruct b as [[lo' hi'] s']. cbn [around product]. intros (L & S & A & B) (L' & S' & A' & B'). split; [nia|]. split; [lia|]. rewrite Z.pow_add_r by lia.
  assert (0 < 2 ^ s) by (apply Z.pow_pos_nonneg; lia). assert (0 < 2 ^ s') by (apply Z.pow_pos_nonneg; lia).
  replace (lo * lo' * (2 ^ s * 2 ^ s')) with ((lo * 2 ^ s) * (lo' * 2 ^ s')) by ring. replace (hi * hi' * (2 ^ s * 2 ^ s')) with ((hi * 2 ^ s) * (hi' * 2 ^ s')) by ring.
  assert (0 <= lo * 2 ^ s) by nia. assert (0 <= lo' * 2 ^ s') by nia. split; apply Z.mul_le_mono_nonneg; lia.
Qed.

(** ** the logarithms, in units of 2^-64 *)

Definition Dp : positive := 18446744073709551616.
Definition Tp : positive := 5553023288523357132.
Definition Bp : positive := 2304712899105915766.

(** 10^T < 2^D < 10^(T+1) *)
Lemma ten_checked : under (leading 5 Tp) (Zpos Dp - Zpos Tp) && over (leading 5 (Tp + 1)) (Zpos Dp - Zpos (Tp + 1)) = true.
Proof. vm_compute. reflexivity. Qed.
(** 4^D < 3^D * 10^B and 3^D * 10^(B-1) < 4^D *)
Lemma quarters_checked : over (product (leading 3 Dp) (leading 5 Bp)) (2 * Zpos Dp - Zpos Bp) && under (product (leading 3 Dp) (leading 5 (Bp - 1))) (2 * Zpos Dp - Zpos (Bp - 1)) = true.
Proof. vm_compute. reflexivity. Qed.

(** ** powers of rationals *)

Open Scope Q_scope.
Lemma nat_pow_le (x y : Q) n : 0 <= x -> x <= y -> x ^ Z.of_nat n <= y ^ Z.of_nat n.
Proof.
  intros Hx Hy. induction n as [|n IH]; [apply Qle_refl|]. rewrite Nat2Z.inj_succ, <- Z.add_1_l. rewrite !Qpower_plus' by lia.
  change (x ^ 1) with x. change (y ^ 1) with y. assert (P : 0 <= x ^ Z.of_nat n) by (apply Qpower_0_le; exact Hx).
  apply (Qle_trans _ (x * y ^ Z.of_nat n)); [rewrite !(Qmult_comm x)|]; apply Qmult_le_compat_r; try assumption. apply (Qle_trans _ (x ^ Z.of_nat n)); assumption.
Qed.
Lemma pow_le (x y : Q) d : 0 <= x -> x <= y -> (0 <= d)%Z -> x ^ d <= y ^ d.
Proof. intros Hx Hy Hd. rewrite <- (Z2Nat.id d Hd). apply nat_pow_le; assumption. Qed.
Lemma pow_pos (x : Q) d : 0 < x -> 0 < x ^ d. Proof. intros H. apply Qpower_0_lt. exact H. Qed.
Lemma pow_mul (x : Q) a b : x ^ (a * b) == (x ^ a) ^ b. Proof. apply Qpower_mult. Qed.
Lemma pow_opp_le (x y : Q) d : 0 < x -> x <= y -> (d <= 0)%Z -> y ^ d <= x ^ d.
Proof.
  intros Hx Hy Hd. replace d with (- - d)%Z by lia. rewrite !(Qpower_opp _ (- d)). set (n := (- d)%Z). assert (Hn : (0 <= n)%Z) by (unfold n; lia). clearbody n.
  pose proof (pow_le x y n ltac:(lra) Hy Hn) as L. pose proof (pow_pos x n Hx) as P. assert (Py : 0 < y ^ n) by lra.
  apply (Qmult_le_r _ _ (x ^ n * y ^ n)); [rewrite <- (Qmult_0_l (y ^ n)); apply Qmult_lt_r; assumption|].
  assert (E1 : / y ^ n * (x ^ n * y ^ n) == x ^ n) by (field; lra). assert (E2 : / x ^ n * (x ^ n * y ^ n) == y ^ n) by (field; lra). rewrite E1, E2. exact L.
Qed.
Lemma pow_lt_inv (x y : Q) d : 0 <= y -> (0 <= d)%Z -> x ^ d < y ^ d -> x < y.
Proof. intros Hy Hd H. apply Qnot_le_lt. intros L. pose proof (pow_le y x d Hy L Hd). lra. Qed.

(** ** ordering powers of 2, 10 and 3/4 *)

Lemma ten_strict a b : (a < b)%Z -> 10 ^ a < 10 ^ b.
Proof. intros H. apply (Qlt_le_trans _ (10 ^ (a + 1))); [|apply ten_le; lia]. rewrite ten_add. change (10 ^ 1) with 10. pose proof (ten_pos a). lra. Qed.

Section Order.
  Variables D T B : Z.
  Hypothesis HD : (0 < D)%Z.
  Hypothesis T1 : 10 ^ T <= 2 ^ D.
  Hypothesis T2 : 2 ^ D <= 10 ^ (T + 1).
  Hypothesis B1 : 10 ^ B <= (3 # 4) ^ D.
  Hypothesis B2 : (3 # 4) ^ D <= 10 ^ (B + 1).

  Lemma two_below e n : (0 <= e)%Z -> (e * (T + 1) < n * D)%Z -> 2 ^ e < 10 ^ n.
  Proof.
    intros He H. apply (pow_lt_inv _ _ D); [pose proof (ten_pos n); lra|lia|]. rewrite <- !pow_mul, (Z.mul_comm e D), pow_mul.
    apply (Qle_lt_trans _ ((10 ^ (T + 1)) ^ e)); [apply pow_le; [pose proof (two_pos D); lra|exact T2|exact He]|]. rewrite <- pow_mul. apply ten_strict. lia.
  Qed.
  Lemma two_above e n : (0 <= e)%Z -> (n * D < e * T)%Z -> 10 ^ n < 2 ^ e.
  Proof.
    intros He H. apply (pow_lt_inv _ _ D); [pose proof (two_pos e); lra|lia|]. rewrite <- !pow_mul, (Z.mul_comm e D), (pow_mul 2).
    apply (Qlt_le_trans _ ((10 ^ T) ^ e)); [|apply pow_le; [pose proof (ten_pos T); lra|exact T1|exact He]]. rewrite <- pow_mul. apply ten_strict. lia.
  Qed.

  Lemma quarters_pow e : ((3 # 4) * 2 ^ e) ^ D == (3 # 4) ^ D * (2 ^ D) ^ e.
  Proof. rewrite Qmult_power. rewrite <- !pow_mul, (Z.mul_comm e). reflexivity. Qed.
  Lemma two_e_le e : (2 ^ D) ^ e <= 10 ^ (if (0 <=? e)%Z then (T + 1) * e else T * e).
  Proof.
    destruct (Z.leb_spec 0 e); rewrite pow_mul; [apply pow_le|apply pow_opp_le]; try assumption; try lia; [pose proof (two_pos D); lra|apply ten_pos].
  Qed.
  Lemma two_e_ge e : 10 ^ (if (0 <=? e)%Z then T * e else (T + 1) * e) <= (2 ^ D) ^ e.
  Proof.
    destruct (Z.leb_spec 0 e); rewrite pow_mul; [apply pow_le|apply pow_opp_le]; try assumption; try lia; [pose proof (ten_pos T); lra|apply two_pos].
  Qed.
  Lemma quarters_below e n : (e * (if 0 <=? e then T + 1 else T) + B + 1 < n * D)%Z -> (3 # 4) * 2 ^ e < 10 ^ n.
  Proof.
    intros H. apply (pow_lt_inv _ _ D); [pose proof (ten_pos n); lra|lia|]. rewrite quarters_pow, <- (pow_mul 10). pose proof (two_e_le e) as L.
    pose proof (pow_pos (2 ^ D) e (two_pos D)) as P. pose proof (ten_pos (B + 1)) as P'.
    apply (Qle_lt_trans _ (10 ^ (B + 1) * (2 ^ D) ^ e)); [apply Qmult_le_compat_r; [exact B2|lra]|].
    apply (Qle_lt_trans _ (10 ^ (B + 1) * 10 ^ (if (0 <=? e)%Z then (T + 1) * e else T * e))); [rewrite !(Qmult_comm (10 ^ (B + 1))); apply Qmult_le_compat_r; [exact L|lra]|].
    rewrite <- ten_add. apply ten_strict. destruct (Z.leb_spec 0 e); lia.
  Qed.
  Lemma quarters_above e n : (n * D < e * (if 0 <=? e then T else T + 1) + B)%Z -> 10 ^ n < (3 # 4) * 2 ^ e.
  Proof.
    intros H. apply (pow_lt_inv _ _ D); [pose proof (two_pos e); lra|lia|]. rewrite quarters_pow, <- (pow_mul 10). pose proof (two_e_ge e) as L.
    pose proof (pow_pos (2 ^ D) e (two_pos D)) as P. pose proof (ten_pos B) as P'.
    apply (Qlt_le_trans _ (10 ^ B * (2 ^ D) ^ e)); [|apply Qmult_le_compat_r; [exact B1|lra]].
    apply (Qlt_le_trans _ (10 ^ B * 10 ^ (if (0 <=? e)%Z then T * e else (T + 1) * e))); [|rewrite !(Qmult_comm (10 ^ B)); apply Qmult_le_compat_r; [exact L|lra]].
    rewrite <- ten_add. apply ten_strict. destruct (Z.leb_spec 0 e); lia.
  Qed.
End Order.

(** the facts checked above, for rationals *)
Lemma ten_five n : (0 <= n)%Z -> inject_Z (10 ^ n) == inject_Z (2 ^ n * 5 ^ n).
Proof. intros H. rewrite <- Z.pow_mul_l. reflexivity. Qed.
Lemma ten_less T D : (0 <= T <= D)%Z -> (5 ^ T < 2 ^ (D - T))%Z -> 10 ^ T <= 2 ^ D.
Proof.
  intros H L. rewrite <- ten_Z, <- two_Z, ten_five by lia. rewrite <- Zle_Qle. replace D with (T + (D - T))%Z at 1 by lia. rewrite Z.pow_add_r by lia.
  assert (0 < 2 ^ T)%Z by (apply Z.pow_pos_nonneg; lia). nia.
Qed.
Lemma ten_more T D : (0 <= T <= D)%Z -> (2 ^ (D - T) < 5 ^ T)%Z -> 2 ^ D <= 10 ^ T.
Proof.
  intros H L. rewrite <- ten_Z, <- two_Z, ten_five by lia. rewrite <- Zle_Qle. replace D with (T + (D - T))%Z at 1 by lia. rewrite Z.pow_add_r by lia.
  assert (0 < 2 ^ T)%Z by (apply Z.pow_pos_nonneg; lia). nia.
Qed.
Lemma quarter_pow D : (0 <= D)%Z -> (3 # 4) ^ D * inject_Z (2 ^ (2 * D)) == inject_Z (3 ^ D).
Proof.
  intros H. rewrite Z.pow_mul_r by lia. change (2 ^ 2)%Z with 4%Z. rewrite !Zpower_Qpower by lia. rewrite <- Qmult_power. change (inject_Z 4) with (4 # 1). change (inject_Z 3) with (3 # 1). 
  assert (E : (3 # 4) * (4 # 1) == (3 # 1)) by reflexivity. rewrite E. reflexivity.
Qed.
Lemma quarter_more D b : (0 <= b <= 2 * D)%Z -> (2 ^ (2 * D - b) < 3 ^ D * 5 ^ b)%Z -> 10 ^ (- b) <= (3 # 4) ^ D.
Proof.
  intros H L. pose proof (quarter_pow D ltac:(lia)) as Q. assert (P : (0 < 2 ^ (2 * D))%Z) by (apply Z.pow_pos_nonneg; lia). assert (P2 : (0 < 2 ^ b)%Z) by (apply Z.pow_pos_nonneg; lia).
  assert (P1 : 0 < inject_Z (2 ^ (2 * D))) by (change 0 with (inject_Z 0); rewrite <- Zlt_Qlt; exact P). apply (Qmult_le_r _ _ _ P1). rewrite Q.
  apply (Qmult_le_r _ _ _ (ten_pos b)). rewrite (Qmult_comm (10 ^ (- b))), <- Qmult_assoc, <- ten_add. replace (- b + b)%Z with 0%Z by lia. change (10 ^ 0) with 1. rewrite Qmult_1_r.
  rewrite <- ten_Z, ten_five by lia. rewrite <- inject_Z_mult, <- Zle_Qle. replace (2 * D)%Z with (b + (2 * D - b))%Z at 1 by lia. rewrite Z.pow_add_r by lia. nia.
Qed.
Lemma quarter_less D b : (0 <= b <= 2 * D)%Z -> (3 ^ D * 5 ^ b < 2 ^ (2 * D - b))%Z -> (3 # 4) ^ D <= 10 ^ (- b).
Proof.
  intros H L. pose proof (quarter_pow D ltac:(lia)) as Q. assert (P : (0 < 2 ^ (2 * D))%Z) by (apply Z.pow_pos_nonneg; lia). assert (P2 : (0 < 2 ^ b)%Z) by (apply Z.pow_pos_nonneg; lia).
  assert (P1 : 0 < inject_Z (2 ^ (2 * D))) by (change 0 with (inject_Z 0); rewrite <- Zlt_Qlt; exact P). apply (Qmult_le_r _ _ _ P1). rewrite Q.
  apply (Qmult_le_r _ _ _ (ten_pos b)). rewrite (Qmult_comm (10 ^ (- b))), <- (Qmult_assoc _ (10 ^ (- b))), <- ten_add. replace (- b + b)%Z with 0%Z by lia. change (10 ^ 0) with 1. rewrite Qmult_1_r.
  rewrite <- ten_Z, ten_five by lia. rewrite <- inject_Z_mult, <- Zle_Qle. replace (2 * D)%Z with (b + (2 * D - b))%Z at 1 by lia. rewrite Z.pow_add_r by lia. nia.
Qed.

Definition LD : Z := Zpos Dp.
Definition LT : Z := Zpos Tp.
Definition LB : Z := (- Zpos Bp)%Z.
Lemma log_two : 10 ^ LT <= 2 ^ LD /\ 2 ^ LD <= 10 ^ (LT + 1).
Proof.
  pose proof ten_checked as C. apply andb_prop in C as [C1 C2]. split.
  - apply ten_less; [vm_compute; split; discriminate|]. exact (under_right _ _ _ (leading_around 5 Tp ltac:(lia)) C1).
  - apply ten_more; [vm_compute; split; discriminate|]. exact (over_right _ _ _ (leading_around 5 (Tp + 1) ltac:(lia)) C2).
Qed.
Lemma log_quarters : 10 ^ LB <= (3 # 4) ^ LD /\ (3 # 4) ^ LD <= 10 ^ (LB + 1).
Proof.
  pose proof quarters_checked as C. apply andb_prop in C as [C1 C2]. split.
  - apply quarter_more; [vm_compute; split; discriminate|]. exact (over_right _ _ _ (product_around _ _ _ _ (leading_around 3 Dp ltac:(lia)) (leading_around 5 Bp ltac:(lia))) C1).
  - replace (LB + 1)%Z with (- Zpos (Bp - 1))%Z by reflexivity. apply quarter_less; [vm_compute; split; discriminate|].
    exact (under_right _ _ _ (product_around _ _ _ _ (leading_around 3 Dp ltac:(lia)) (leading_around 5 (Bp - 1) ltac:(lia))) C2).
Qed.

Section Signed.
  Variables D T B : Z.
  Hypothesis HD : (0 < D)%Z.
  Hypothesis T1 : 10 ^ T <= 2 ^ D.
  Hypothesis T2 : 2 ^ D <= 10 ^ (T + 1).
  Hypothesis B1 : 10 ^ B <= (3 # 4) ^ D.
  Hypothesis B2 : (3 # 4) ^ D <= 10 ^ (B + 1).

  Lemma two_less e n : (e * (if 0 <=? e then T + 1 else T) < n * D)%Z -> 2 ^ e < 10 ^ n.
  Proof.
    intros H. apply (pow_lt_inv _ _ D); [pose proof (ten_pos n); lra|lia|]. rewrite <- !pow_mul, (Z.mul_comm e D), (pow_mul 2).
    apply (Qle_lt_trans _ _ _ (two_e_le D T T1 T2 e)). apply ten_strict. destruct (Z.leb_spec 0 e); lia.
  Qed.
  Lemma two_greater e n : (n * D < e * (if 0 <=? e then T else T + 1))%Z -> 10 ^ n < 2 ^ e.
  Proof.
    intros H. apply (pow_lt_inv _ _ D); [pose proof (two_pos e); lra|lia|]. rewrite <- !pow_mul, (Z.mul_comm e D), (pow_mul 2).
    apply (Qlt_le_trans _ (10 ^ (if (0 <=? e)%Z then T * e else (T + 1) * e))); [|apply two_e_ge; assumption]. apply ten_strict. destruct (Z.leb_spec 0 e); lia.
  Qed.
  Lemma quarter_below e n : (0 <= e)%Z -> (e * (B + 1) < n * D)%Z -> (3 # 4) ^ e < 10 ^ n.
  Proof.
    intros He H. apply (pow_lt_inv _ _ D); [pose proof (ten_pos n); lra|lia|]. rewrite <- !pow_mul, (Z.mul_comm e D), (pow_mul (3 # 4)).
    apply (Qle_lt_trans _ ((10 ^ (B + 1)) ^ e)); [apply pow_le; [pose proof (pow_pos (3 # 4) D ltac:(lra)); lra|exact B2|exact He]|]. rewrite <- pow_mul. apply ten_strict. lia.
  Qed.
  Lemma quarter_above e n : (0 <= e)%Z -> (n * D < e * B)%Z -> 10 ^ n < (3 # 4) ^ e.
  Proof.
    intros He H. apply (pow_lt_inv _ _ D); [pose proof (pow_pos (3 # 4) e ltac:(lra)); lra|lia|]. rewrite <- !pow_mul, (Z.mul_comm e D), (pow_mul (3 # 4)).
    apply (Qlt_le_trans _ ((10 ^ B) ^ e)); [|apply pow_le; [pose proof (ten_pos B); lra|exact B1|exact He]]. rewrite <- pow_mul. apply ten_strict. lia.
  Qed.
End Signed.

Definition less_two e n := two_less LD LT eq_refl (proj1 log_two) (proj2 log_two) e n.
Definition more_two e n := two_greater LD LT eq_refl (proj1 log_two) (proj2 log_two) e n.
Definition less_quarters e n := quarters_below LD LT LB eq_refl (proj1 log_two) (proj2 log_two) (proj2 log_quarters) e n.
Definition more_quarters e n := quarters_above LD LT LB eq_refl (proj1 log_two) (proj2 log_two) (proj1 log_quarters) e n.
Definition less_quarter e n := quarter_below LD LB eq_refl (proj2 log_quarters) e n.
Definition more_quarter e n := quarter_above LD LB eq_refl (proj1 log_quarters) e n.

(** ** no integers between the quotient the code uses and the logarithm, as long as the numbers are small *)
Open Scope Z_scope.

Lemma between_two e n : 0 < e -> e * 661971961083 <= n * 2199023255552 -> n * 18446744073709551616 <= e * 5553023288523357133 -> 6432163 <= e.
Proof.
  intros H1 H2 H3.
  assert (1 <= 325147 * n - 97879 * e) by lia.
  assert (1 <= 1838395 * e - 6107016 * n) by lia. lia.
Qed.
Lemma between_ten e n : 0 < e -> e * 913124641741 <= n * 274877906944 -> n * 5553023288523357132 <= e * 18446744073709551616 -> 1838395 <= e.
Proof.
  intros H1 H2 H3.
  assert (1 <= 1740516 * n - 5781869 * e) by lia.
  assert (1 <= 325147 * e - 97879 * n) by lia. lia.
Qed.
Lemma lattice e n : exists u v, u = 325147 * n - 97879 * e /\ v = 6107016 * n - 1838395 * e /\ e = 6107016 * u - 325147 * v /\ n = 1838395 * u - 97879 * v.
Proof. exists (325147 * n - 97879 * e), (6107016 * n - 1838395 * e). lia. Qed.
Lemma between_quarters_above e n : 0 <= e <= 3150619 -> e * 661971961083 - 274743187321 < n * 2199023255552 -> n * 18446744073709551616 <= e * 5553023288523357133 - 2304712899105915765 -> False.
Proof.
  intros H1 H2 H3. destruct (lattice e n) as (u & v & Eu & Ev & -> & ->).
  assert (u = -40623) by lia. clear Eu. subst u. lia.
Qed.
Lemma between_quarters_above_neg e n : -3606689 <= e < 0 -> e * 661971961083 - 274743187321 < n * 2199023255552 -> n * 18446744073709551616 <= e * 5553023288523357132 - 2304712899105915765 -> False.
Proof.
  intros H1 H2 H3. destruct (lattice e n) as (u & v & Eu & Ev & -> & ->).
  assert (u = -40624) by lia. clear Eu. subst u. lia.
Qed.
Lemma between_quarters_below_neg e n : -3606689 <= e < 0 -> n * 2199023255552 <= e * 661971961083 - 274743187321 -> e * 5553023288523357133 - 2304712899105915766 <= n * 18446744073709551616 -> False.
Proof.
  intros H1 H2 H3. destruct (lattice e n) as (u & v & Eu & Ev & -> & ->).
  assert (u = -40624) by lia. clear Eu. subst u. lia.
Qed.
