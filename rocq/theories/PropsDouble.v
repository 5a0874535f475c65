(** C23-C27: the decimal of a double. *)
From Coq Require Import QArith Qabs Qpower Lqa.
From Verif Require Import Base GTable MathM DecimalM MathP GCheck CertCheck IrrCheck SchubM DecSpec RoundP ShortP SchubP.
Open Scope Q_scope.

(** ** lemmas for this file *)

Lemma rounds_unique x b b' : (0 <= b <= inf_bits)%Z -> (0 <= b' <= inf_bits)%Z -> rounds_to x b -> rounds_to x b' -> b = b'.
Proof.
  assert (W : forall b b', (0 <= b <= inf_bits)%Z -> (0 <= b' <= inf_bits)%Z -> (b < b')%Z -> rounds_to x b -> rounds_to x b' -> False).
  { clear b b'. intros b b' Hb Hb' L R1 R2. destruct (R1 b' Hb') as [D1 T1]. destruct (R2 b Hb) as [D2 T2].
    assert (E : Qabs (x - dval b) == Qabs (x - dval b')) by (apply Qle_antisym; assumption).
    assert (Ev : Z.even b = true) by (apply T1; [lia|exact E]). assert (Ev' : Z.even b' = true) by (apply T2; [lia|symmetry; exact E]).
    destruct (Z.eq_dec b' (b + 1)) as [->|N]; [rewrite Z.even_add, Ev in Ev'; discriminate|].
    pose proof (dval_lt b (b + 1) ltac:(lia)) as L1. pose proof (dval_lt (b + 1) b' ltac:(lia)) as L2.
    destruct (R1 (b + 1)%Z ltac:(lia)) as [D3 _]. destruct (R2 (b + 1)%Z ltac:(lia)) as [D4 _].
    apply near_above in D3; [|exact L1]. apply near_below in D4; [|exact L2].
    assert (E2 : forall u v, (u + v) / 2 == (u + v) * (1 # 2)) by (intros; reflexivity). rewrite E2 in D3, D4. lra. }
  intros Hb Hb' R1 R2. destruct (Z.lt_trichotomy b b') as [L|[E|L]]; [exfalso|exact E|exfalso].
  - exact (W b b' Hb Hb' L R1 R2).
  - exact (W b' b Hb' Hb L R2 R1).
Qed.

Lemma special_decimal bits : is_long bits -> let b := (bits mod 2 ^ 63)%Z in
  toDecimal bits =
    (if (b =? 0)%Z then Ok (if (bits =? 0)%Z then PlusZero else MinusZero)
     else if (b <? inf_bits)%Z then toDecimal bits
     else if (b =? inf_bits)%Z then Ok (if (0 <? bits)%Z then PlusInf else MinusInf) else Ok NotANumber).
Proof.
  intros Hl b. destruct (Z.eqb_spec b 0) as [E|N].
  - assert (D : bits = 0%Z \/ bits = (- 2 ^ 63)%Z).
    { unfold is_long, long_min, long_max in Hl. unfold b in E.
      apply Z.mod_divide in E as [u Eu]; [|lia]. assert (u = 0 \/ u = -1)%Z by lia. lia. }
    destruct D as [-> | ->]; reflexivity.
  - destruct (Z.ltb_spec b inf_bits) as [L|L]; [reflexivity|].
    unfold toDecimal. cbv zeta. rewrite land_TMASK, exponent_field. fold b. rewrite <- (mod_mod_pow bits). fold b.
    pose proof (Z.mod_pos_bound bits (2 ^ 63) ltac:(lia)) as M. fold b in M. unfold inf_bits in *.
    pose proof (Z.div_mod b (2 ^ 52) ltac:(lia)) as D. pose proof (Z.mod_pos_bound b (2 ^ 52) ltac:(lia)) as M2.
    assert (E : (b / 2 ^ 52 = 2047)%Z) by lia. rewrite E. change (2047 <? BQ_MASK)%Z with false. cbn iota.
    destruct (Z.eqb_spec b (2047 * 2 ^ 52)) as [E2|E2]; destruct (Z.eqb_spec (b mod 2 ^ 52) 0) as [E3|E3]; try lia; reflexivity.
Qed.

Lemma flog10pow2_floor q : (-1074 <= q <= 971)%Z -> 10 ^ flog10pow2 q <= 2 ^ q /\ 2 ^ q < 10 ^ (flog10pow2 q + 1).
Proof.
  intros Hq. destruct (regular_exact q Hq) as (_ & _ & [H1 H2] & _). set (k := flog10pow2 q) in *.
  pose proof (aden_pos q k) as P. apply inject_lt in P. change (inject_Z 0) with 0 in P.
  assert (Ea : alpha q k * 10 ^ k == 2 ^ q) by (unfold alpha; rewrite Qpower_opp; field; apply Qpower_not_0; discriminate).
  apply inject_le in H1. rewrite alpha_frac in H1. apply inject_lt in H2. rewrite inject_Z_mult, alpha_frac in H2.
  assert (A1 : 1 <= alpha q k) by (apply (Qmult_le_r _ _ _ P); lra).
  assert (A2 : alpha q k < 10) by (apply (Qmult_lt_r _ _ _ P); exact H2).
  pose proof (ten_pos k) as T. rewrite <- Ea. split.
  - setoid_replace (10 ^ k) with (1 * 10 ^ k) at 1 by ring. apply Qmult_le_r; assumption.
  - rewrite Qpower_plus by discriminate. rewrite Qpower_1_r, (Qmult_comm (10 ^ k)). apply Qmult_lt_r; assumption.
Qed.

Lemma flog10threeQuarters_floor q : (-1073 <= q <= 971)%Z ->
  10 ^ flog10threeQuartersPow2 q <= (3 # 4) * 2 ^ q /\ (3 # 4) * 2 ^ q < 10 ^ (flog10threeQuartersPow2 q + 1).
Proof.
  intros Hq. destruct (irregular_exact q Hq) as (_ & _ & [H1 H2] & _). set (k := flog10threeQuartersPow2 q) in *.
  pose proof (aden_pos q k) as P. apply inject_lt in P. change (inject_Z 0) with 0 in P.
  assert (Ea : alpha q k * 10 ^ k == 2 ^ q) by (unfold alpha; rewrite Qpower_opp; field; apply Qpower_not_0; discriminate).
  apply inject_lt in H1, H2. rewrite !inject_Z_mult, alpha_frac in H1, H2.
  assert (A1 : inject_Z 4 < inject_Z 3 * alpha q k) by (apply (Qmult_lt_r _ _ _ P); lra). change (inject_Z 4) with 4 in A1. change (inject_Z 3) with 3 in A1.
  assert (A2 : inject_Z 3 * alpha q k < inject_Z 40) by (apply (Qmult_lt_r _ _ _ P); lra). change (inject_Z 40) with 40 in A2. change (inject_Z 3) with 3 in A2.
  pose proof (ten_pos k) as T. rewrite <- Ea. setoid_replace ((3 # 4) * (alpha q k * 10 ^ k)) with (((3 # 4) * alpha q k) * 10 ^ k) by ring. split.
  - setoid_replace (10 ^ k) with (1 * 10 ^ k) at 1 by ring. apply Qmult_le_r; [exact T|lra].
  - rewrite Qpower_plus by discriminate. rewrite Qpower_1_r, (Qmult_comm (10 ^ k)). apply Qmult_lt_r; [exact T|lra].
Qed.

(** 10^-k * 2^(125 - e) *)
Lemma g_frac k : inject_Z (gnum k) == 10 ^ (- k) * 2 ^ (125 - gexp k) * inject_Z (gden k).
Proof.
  unfold gnum, gden. rewrite !inject_Z_mult, !Zpower_Qpower by lia. change (inject_Z 2) with 2. change (inject_Z 10) with 10.
  assert (E2 : 2 ^ Z.max 0 (125 - gexp k) == 2 ^ (125 - gexp k) * 2 ^ Z.max 0 (gexp k - 125)).
  { rewrite <- Qpower_plus by discriminate. replace (125 - gexp k + Z.max 0 (gexp k - 125))%Z with (Z.max 0 (125 - gexp k)) by lia. reflexivity. }
  assert (E10 : 10 ^ Z.max 0 (- k) == 10 ^ (- k) * 10 ^ Z.max 0 k).
  { rewrite <- Qpower_plus by discriminate. replace (- k + Z.max 0 k)%Z with (Z.max 0 (- k)) by lia. reflexivity. }
  rewrite E2, E10. ring.
Qed.

Lemma table_floor k : (K_MIN <= k <= K_MAX)%Z -> exists a b, g1 k = Ok a /\ g0 k = Ok b /\ (0 <= a < 2 ^ 63)%Z /\ (0 <= b < 2 ^ 63)%Z /\
  inject_Z (a * 2 ^ 63 + b - 1) <= 10 ^ (- k) * 2 ^ (125 - flog2pow10 (- k)) < inject_Z (a * 2 ^ 63 + b).
Proof.
  intros H. destruct (table_entry k H) as (a & b & E1 & E0 & Ba & Bb & ((G1 & G2) & _)). exists a, b. split; [exact E1|]. split; [exact E0|]. split; [exact Ba|]. split; [exact Bb|].
  fold (gexp k). assert (P : (0 < gden k)%Z) by (unfold gden; apply Z.mul_pos_pos; apply Z.pow_pos_nonneg; lia).
  apply inject_lt in P. change (inject_Z 0) with 0 in P. apply inject_le in G1. apply inject_lt in G2. rewrite inject_Z_mult, g_frac in G1, G2.
  split; [apply (Qmult_le_r _ _ _ P); exact G1|apply (Qmult_lt_r _ _ _ P); exact G2].
Qed.

Lemma flog2pow10_floor e : (-292 <= e <= 324)%Z -> 2 ^ flog2pow10 e <= 10 ^ e /\ 10 ^ e < 2 ^ (flog2pow10 e + 1).
Proof.
  intros H. destruct (table_entry (- e) ltac:(unfold K_MIN, K_MAX; lia)) as (a & b & _ & _ & _ & _ & ((G1 & G2) & (G3 & G4))).
  set (g := (a * 2 ^ 63 + b)%Z) in *. clearbody g. pose proof (g_frac (- e)) as F. unfold gexp in F. rewrite Z.opp_involutive in F.
  assert (P : (0 < gden (- e))%Z) by (unfold gden; apply Z.mul_pos_pos; apply Z.pow_pos_nonneg; lia).
  assert (H1 : (2 ^ 125 * gden (- e) <= gnum (- e))%Z) by nia. assert (H2 : (gnum (- e) < 2 ^ 126 * gden (- e))%Z) by nia.
  apply inject_le in H1. apply inject_lt in H2. rewrite inject_Z_mult, F in H1, H2. apply inject_lt in P. change (inject_Z 0) with 0 in P.
  rewrite (Qmult_le_r _ _ _ P) in H1. rewrite (Qmult_lt_r _ _ _ P) in H2. rewrite Zpower_Qpower in H1, H2 by lia. change (inject_Z 2) with 2 in *.
  set (l := flog2pow10 e) in *. pose proof (two_pos (125 - l)) as T.
  split.
  - apply (Qmult_le_r _ _ _ T). rewrite <- Qpower_plus by discriminate. replace (l + (125 - l))%Z with 125%Z by lia. exact H1.
  - apply (Qmult_lt_r _ _ _ T). rewrite <- Qpower_plus by discriminate. replace (l + 1 + (125 - l))%Z with 126%Z by lia. exact H2.
Qed.

Lemma pow10_value e : (0 <= e <= 17)%Z -> pow10 e = Ok (10 ^ e)%Z.
Proof.
  intros H. assert (E : (e = 0 \/ e = 1 \/ e = 2 \/ e = 3 \/ e = 4 \/ e = 5 \/ e = 6 \/ e = 7 \/ e = 8 \/ e = 9 \/ e = 10 \/ e = 11 \/ e = 12 \/ e = 13 \/ e = 14 \/ e = 15 \/ e = 16 \/ e = 17)%Z) by lia.
  repeat destruct E as [->|E]; try reflexivity. rewrite E. reflexivity.
Qed.

(** ** C23 *)

(** every finite non-zero double has a decimal, and reading it back gives the double *)
Theorem C23_round_trip : forall bits : Z, is_long bits -> let b := (bits mod 2 ^ 63)%Z in (0 < b < inf_bits)%Z ->
  exists f e, toDecimal bits = Ok (NonSpecial (bits <? 0)%Z f e) /\ (0 < f)%Z /\ rounds_to (dec f e) b.
Proof. intros bits Hl b Hb. destruct (toDecimal_right bits Hl Hb) as (f & e & E & P & R & _). exists f, e. auto. Qed.

(** zeros, infinities and NaN are told apart *)
Theorem C23_special : forall bits : Z, is_long bits -> let b := (bits mod 2 ^ 63)%Z in
  (b = 0%Z -> toDecimal bits = Ok (if (bits =? 0)%Z then PlusZero else MinusZero)) /\
  (b = inf_bits -> toDecimal bits = Ok (if (0 <? bits)%Z then PlusInf else MinusInf)) /\
  ((inf_bits < b)%Z -> toDecimal bits = Ok NotANumber).
Proof.
  intros bits Hl b. pose proof (special_decimal bits Hl) as E. cbv zeta in E. fold b in E. split; [|split]; intros H.
  - rewrite H in E. exact E.
  - rewrite H in E. exact E.
  - rewrite E. replace (b =? 0)%Z with false by (symmetry; apply Z.eqb_neq; unfold inf_bits in H; lia).
    replace (b <? inf_bits)%Z with false by (symmetry; apply Z.ltb_ge; lia). replace (b =? inf_bits)%Z with false by (symmetry; apply Z.eqb_neq; lia). reflexivity.
Qed.

(** the reading relation is a function, so the round trip gives back exactly the double *)
Theorem C23_reading_is_unique : forall x b b', (0 <= b <= inf_bits)%Z -> (0 <= b' <= inf_bits)%Z -> rounds_to x b -> rounds_to x b' -> b = b'.
Proof. exact rounds_unique. Qed.

(** different doubles get different decimals *)
Theorem C23_injective : forall bits bits' neg f e f' e', is_long bits -> is_long bits' ->
  toDecimal bits = Ok (NonSpecial neg f e) -> toDecimal bits' = Ok (NonSpecial neg f' e') -> dec f e == dec f' e' -> bits = bits'.
Proof.
  intros bits bits' neg f e f' e' Hl Hl' E E' Ed.
  assert (G : forall bits f e, is_long bits -> toDecimal bits = Ok (NonSpecial neg f e) ->
    (0 < bits mod 2 ^ 63 < inf_bits)%Z /\ neg = (bits <? 0)%Z /\ rounds_to (dec f e) (bits mod 2 ^ 63)).
  { clear. intros bits f e Hl E. pose proof (special_decimal bits Hl) as S. cbv zeta in S. rewrite E in S.
    assert (Hb : (0 < bits mod 2 ^ 63 < inf_bits)%Z).
    { pose proof (Z.mod_pos_bound bits (2 ^ 63) ltac:(lia)). destruct (Z.eqb_spec (bits mod 2 ^ 63) 0); [destruct (bits =? 0)%Z; discriminate|].
      destruct (Z.ltb_spec (bits mod 2 ^ 63) inf_bits); [lia|]. destruct (bits mod 2 ^ 63 =? inf_bits)%Z; [destruct (0 <? bits)%Z; discriminate|discriminate]. }
    split; [exact Hb|]. destruct (toDecimal_right bits Hl Hb) as (f0 & e0 & E0 & _ & R & _). rewrite E in E0. injection E0 as -> -> ->. auto. }
  destruct (G bits f e Hl E) as (B1 & N1 & R1). destruct (G bits' f' e' Hl' E') as (B2 & N2 & R2).
  assert (R3 : rounds_to (dec f e) (bits' mod 2 ^ 63)).
  { intros b Hb. destruct (R2 b Hb) as [D T]. split; [rewrite Ed; exact D|]. intros N Q. apply T; [exact N|]. rewrite <- Ed. exact Q. }
  pose proof (rounds_unique _ (bits mod 2 ^ 63) (bits' mod 2 ^ 63) ltac:(unfold inf_bits in *; lia) ltac:(unfold inf_bits in *; lia) R1 R3) as Em.
  unfold is_long, long_min, long_max in *. rewrite N1 in N2.
  destruct (Z.ltb_spec bits 0) as [L|L]; destruct (Z.ltb_spec bits' 0) as [L'|L']; try discriminate.
  - assert (M : forall x, (- 2 ^ 63 <= x < 0)%Z -> (x mod 2 ^ 63 = x + 2 ^ 63)%Z) by (intros x Hx; symmetry; apply (Z.mod_unique_pos x (2 ^ 63) (-1)); lia).
    rewrite (M bits), (M bits') in Em by lia. lia.
  - rewrite !Z.mod_small in Em by lia. exact Em.
Qed.

(** ** C24 *)

(** no decimal with fewer digits (lengths 1 and 2 counting the same) reads as the double *)
Theorem C24_shortest : forall bits neg f e, is_long bits -> (0 < bits mod 2 ^ 63 < inf_bits)%Z ->
  toDecimal bits = Ok (NonSpecial neg f e) ->
  forall f' e' n, (0 < f' < 10 ^ n)%Z -> rounds_to (dec f' e') (bits mod 2 ^ 63) -> digits_le (dec f e) (Z.max 2 n).
Proof.
  intros bits neg f e Hl Hb E. destruct (toDecimal_right bits Hl Hb) as (f0 & e0 & E0 & _ & _ & S & _). rewrite E in E0. injection E0 as -> -> ->. exact S.
Qed.

(** ** C25 *)

(** among the decimals of that length it is the closest one, on a tie the even one *)
Theorem C25_closest : forall bits neg f e, is_long bits -> (0 < bits mod 2 ^ 63 < inf_bits)%Z ->
  toDecimal bits = Ok (NonSpecial neg f e) -> closest f e (bits mod 2 ^ 63).
Proof.
  intros bits neg f e Hl Hb E. destruct (toDecimal_right bits Hl Hb) as (f0 & e0 & E0 & _ & _ & _ & C). rewrite E in E0. injection E0 as -> -> ->. exact C.
Qed.

(** ** C26 *)

Theorem C26_table : forall k : Z, (K_MIN <= k <= K_MAX)%Z -> exists a b, g1 k = Ok a /\ g0 k = Ok b /\ (0 <= a < 2 ^ 63)%Z /\ (0 <= b < 2 ^ 63)%Z /\
  inject_Z (a * 2 ^ 63 + b - 1) <= 10 ^ (- k) * 2 ^ (125 - flog2pow10 (- k)) < inject_Z (a * 2 ^ 63 + b).
Proof. exact table_floor. Qed.

Theorem C26_flog10pow2 : forall q, (-1074 <= q <= 971)%Z -> 10 ^ flog10pow2 q <= 2 ^ q /\ 2 ^ q < 10 ^ (flog10pow2 q + 1).
Proof. exact flog10pow2_floor. Qed.

Theorem C26_flog10threeQuartersPow2 : forall q, (-1073 <= q <= 971)%Z ->
  10 ^ flog10threeQuartersPow2 q <= (3 # 4) * 2 ^ q /\ (3 # 4) * 2 ^ q < 10 ^ (flog10threeQuartersPow2 q + 1).
Proof. exact flog10threeQuarters_floor. Qed.

Theorem C26_flog2pow10 : forall e, (-292 <= e <= 324)%Z -> 2 ^ flog2pow10 e <= 10 ^ e /\ 10 ^ e < 2 ^ (flog2pow10 e + 1).
Proof. exact flog2pow10_floor. Qed.

Theorem C26_pow10 : forall e, (0 <= e <= 17)%Z -> pow10 e = Ok (10 ^ e)%Z.
Proof. exact pow10_value. Qed.

(** the products of the conversion compare like the exact ones *)
Theorem C26_rop_exact : forall q c, (-1074 <= q <= 971)%Z -> (0 < c < 2 ^ 53)%Z ->
  let k := scale q c in let h := hval q k in
  exists a b, g1 k = Ok a /\ g0 k = Ok b /\
    rop_exact q k h a b (4 * c) /\ rop_exact q k h a b (left_end q c) /\ rop_exact q k h a b (4 * c + 2).
Proof. intros q c Hq Hc. exact (proj2 (proj2 (proj2 (proj2 (exact_products q c Hq Hc))))). Qed.

(** ** C27 *)

Theorem C27_slow_multiply_high : forall x y, is_long x -> is_long y -> slowMultiplyHigh x y = (x * y / 2 ^ 64)%Z.
Proof. exact slow_is_high. Qed.

(** ** the hypotheses are met, and the definitions say what they should *)

(* 0.1, 2e23 (a hard case: 1.9999999999999998e23 also reads back), the smallest and the largest double, pi *)
Example C23_example_tenth : toDecimal 4591870180066957722 = Ok (NonSpecial false 10000000000000000 (-17)).
Proof. vm_compute. reflexivity. Qed.
Example C23_example_2e23 : toDecimal 4955416454957714166 = Ok (NonSpecial false 20000000000000000 7).
Proof. vm_compute. reflexivity. Qed.
Example C23_example_min : toDecimal 1 = Ok (NonSpecial false 49 (-325)).
Proof. vm_compute. reflexivity. Qed.
Example C23_example_max : toDecimal (2047 * 2 ^ 52 - 1) = Ok (NonSpecial false 17976931348623157 292).
Proof. vm_compute. reflexivity. Qed.
Example C23_example_negative : toDecimal (-4611686018427387904) = Ok (NonSpecial true 2 0).
Proof. vm_compute. reflexivity. Qed.
Example C23_example_one : dval 4607182418800017408 == 1.
Proof. vm_compute. reflexivity. Qed.
Example C24_example : exists f e, (0 < f < 10 ^ 1)%Z /\ rounds_to (dec f e) 4591870180066957722.
Proof.
  exists 1%Z, (-1)%Z. split; [lia|]. apply rounds_to_iff; [vm_compute; split; reflexivity|].
  unfold between. change (Z.even 4591870180066957722) with true. cbn iota. split; vm_compute; discriminate.
Qed.
Example C27_example : slowMultiplyHigh (-3) 9223372036854775807 = (-2)%Z.
Proof. vm_compute. reflexivity. Qed.

Print Assumptions C23_round_trip.
Print Assumptions C23_special.
Print Assumptions C23_reading_is_unique.
Print Assumptions C23_injective.
Print Assumptions C24_shortest.
Print Assumptions C25_closest.
Print Assumptions C26_table.
Print Assumptions C26_flog10pow2.
Print Assumptions C26_flog10threeQuartersPow2.
Print Assumptions C26_flog2pow10.
Print Assumptions C26_pow10.
Print Assumptions C26_rop_exact.
Print Assumptions C27_slow_multiply_high.
