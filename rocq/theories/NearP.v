(** The model's double arithmetic (casts from long, division, addition, widening of float) rounds correctly. *)
From Coq Require Import QArith Qabs Qpower Lqa.
From Verif Require Import Base MathM DecimalM FPDecimalM SeqM FormatterM DoubleM RoundM DecSpec RoundP ShortP SchubP FloatSpec CastP PropsDouble.
Open Scope Q_scope.

(** ** rounding to an integer *)

Lemma rne_bound n d : (0 < d)%Z -> let m := rne n d in (- d <= 2 * (n - m * d) <= d /\ (2 * Z.abs (n - m * d) = d -> Z.even m = true))%Z.
Proof.
  intros H m. pose proof (Z.div_mod n d ltac:(lia)) as D. pose proof (Z.mod_pos_bound n d H) as M. unfold m, rne. set (k := (n / d)%Z) in *.
  assert (E : (n - k * d = n mod d)%Z) by lia. rewrite E.
  destruct (Z.compare_spec (2 * (n mod d)) d) as [C|C|C].
  - destruct (Z.even k) eqn:Ev.
    + split; [lia|]. intros _. exact Ev.
    + split; [lia|]. intros _. rewrite Z.even_add, Ev. reflexivity.
  - split; [lia|]. intros T. exfalso. lia.
  - split; [lia|]. intros T. exfalso. lia.
Qed.

(** ** the binary exponent of a ratio *)

Lemma log2_bounds n : (0 < n)%Z -> 2 ^ Z.log2 n <= inject_Z n /\ inject_Z n < 2 ^ (Z.log2 n + 1).
Proof.
  intros H. pose proof (Z.log2_spec n H) as [L1 L2]. pose proof (Z.log2_nonneg n) as P.
  split; [rewrite <- two_Z by lia; apply inject_le; exact L1|]. rewrite <- two_Z by lia. apply inject_lt. exact L2.
Qed.

Lemma log2_ratio_spec n d : (0 < n)%Z -> (0 < d)%Z -> let e := log2_ratio n d in
  2 ^ e * inject_Z d <= inject_Z n /\ inject_Z n < 2 ^ (e + 1) * inject_Z d.
Proof.
  intros Hn Hd e. destruct (log2_bounds n Hn) as [N1 N2]. destruct (log2_bounds d Hd) as [D1 D2].
  set (ln := Z.log2 n) in *. set (ld := Z.log2 d) in *. unfold e, log2_ratio. fold ln ld. cbv zeta. set (k := (ln - ld)%Z).
  assert (Pd : 0 < inject_Z d) by (change 0 with (inject_Z 0); apply inject_lt; exact Hd).
  assert (T : (if (0 <=? k)%Z then (d * 2 ^ k <=? n)%Z else (d <=? n * 2 ^ (- k))%Z) = true <-> 2 ^ k * inject_Z d <= inject_Z n).
  { destruct (Z.leb_spec 0 k) as [L|L].
    - rewrite <- two_Z by lia. rewrite <- inject_Z_mult. split.
      + intros B. apply Z.leb_le in B. apply inject_le. lia.
      + intros B. apply Z.leb_le. apply inject_le_inv in B. lia.
    - pose proof (two_opp k) as O. pose proof (two_pos k) as P1. pose proof (two_pos (- k)) as P2.
      assert (E : inject_Z (n * 2 ^ (- k)) == inject_Z n * 2 ^ (- k)) by (rewrite inject_Z_mult, two_Z by lia; reflexivity).
      split.
      + intros B. apply Z.leb_le in B. apply inject_le in B. rewrite E in B.
        apply (Qmult_le_r _ _ _ P2). rewrite <- Qmult_assoc, (Qmult_comm (inject_Z d)), Qmult_assoc, (Qmult_comm (2 ^ k)), O. lra.
      + intros B. apply Z.leb_le. apply inject_le_inv. rewrite E.
        apply (Qmult_le_r _ _ _ P1). rewrite <- Qmult_assoc, O. lra. }
  destruct (if (0 <=? k)%Z then _ else _).
  - destruct T as [T _]. split; [apply T; reflexivity|].
    apply Qlt_le_trans with (1 := N2). replace (ln + 1)%Z with (k + 1 + ld)%Z by (unfold k; lia). rewrite (two_add (k + 1)).
    pose proof (two_pos (k + 1)). rewrite !(Qmult_comm (2 ^ (k + 1))). apply Qmult_le_r; assumption.
  - assert (T' : ~ 2 ^ k * inject_Z d <= inject_Z n) by (intros B; apply T in B; discriminate). apply Qnot_le_lt in T'. split.
    + apply Qle_trans with (2 := N1). replace ln with (k - 1 + (ld + 1))%Z by (unfold k; lia). rewrite (two_add (k - 1)).
      pose proof (two_pos (k - 1)). rewrite !(Qmult_comm (2 ^ (k - 1))). apply Qmult_le_r; [assumption|]. apply Qlt_le_weak. exact D2.
    + replace (k - 1 + 1)%Z with k by lia. exact T'.
Qed.

(** ** the nearest double *)

Section Round.
  Variables n d : Z.
  Hypothesis Hn : (0 < n)%Z.
  Hypothesis Hd : (0 < d)%Z.
  Variable x : Q.
  Hypothesis Hx : x * inject_Z d == inject_Z n.
  Let e := log2_ratio n d.
  Hypothesis He : (-1074 <= e <= 1000)%Z.
  Let q := Z.max (e - 52) (-1074).
  Let m := if (0 <=? q)%Z then rne n (d * 2 ^ q) else rne (n * 2 ^ (- q)) d.

  Lemma dpos : 0 < inject_Z d.
  Proof. change 0 with (inject_Z 0). apply inject_lt. exact Hd. Qed.

  Lemma x_bounds : 2 ^ e <= x /\ x < 2 ^ (e + 1).
  Proof.
    destruct (log2_ratio_spec n d Hn Hd) as [L1 L2]. fold e in L1, L2. rewrite <- Hx in L1, L2. pose proof dpos as P.
    split; [apply (Qmult_le_r _ _ _ P)|apply (Qmult_lt_r _ _ _ P)]; assumption.
  Qed.

  Lemma m_near : Qabs (x - inject_Z m * 2 ^ q) <= (1 # 2) * 2 ^ q /\
    (Z.even m = false -> Qabs (x - inject_Z m * 2 ^ q) < (1 # 2) * 2 ^ q).
  Proof.
    assert (G : forall n' d', (0 < d')%Z -> m = rne n' d' -> x * inject_Z d' == inject_Z n' * 2 ^ q ->
      Qabs (x - inject_Z m * 2 ^ q) <= (1 # 2) * 2 ^ q /\ (Z.even m = false -> Qabs (x - inject_Z m * 2 ^ q) < (1 # 2) * 2 ^ q)).
    { intros n' d' Hd' Em Ex. pose proof (rne_bound n' d' Hd') as [[B1 B2] T]. rewrite <- Em in B1, B2, T. cbv zeta in *.
      assert (P : 0 < inject_Z d') by (change 0 with (inject_Z 0); apply inject_lt; exact Hd').
      pose proof (two_pos q) as P2. set (u := 2 ^ q) in *.
      assert (E : (x - inject_Z m * u) * inject_Z d' == inject_Z (n' - m * d') * u) by (rewrite inject_sub, inject_Z_mult; rewrite <- (Qplus_0_r (x * _)) in Ex; lra).
      assert (B1' : inject_Z (- d') <= inject_Z (2 * (n' - m * d'))) by (apply inject_le; lia).
      assert (B2' : inject_Z (2 * (n' - m * d')) <= inject_Z d') by (apply inject_le; lia).
      rewrite inject_Z_opp, inject_Z_mult in B1'. rewrite inject_Z_mult in B2'. change (inject_Z 2) with 2 in *.
      assert (U1 : - inject_Z d' * u <= 2 * inject_Z (n' - m * d') * u) by (apply Qmult_le_r; assumption).
      assert (U2 : 2 * inject_Z (n' - m * d') * u <= inject_Z d' * u) by (apply Qmult_le_r; assumption).
      assert (L1 : - ((1 # 2) * u) <= x - inject_Z m * u) by (apply (Qmult_le_r _ _ _ P); lra).
      assert (L2 : x - inject_Z m * u <= (1 # 2) * u) by (apply (Qmult_le_r _ _ _ P); lra).
      split; [apply Qabs_Qle_condition; split; assumption|].
      intros Ev. assert (N : (2 * Z.abs (n' - m * d') <> d')%Z) by (intros A; rewrite (T A) in Ev; discriminate).
      assert (B3 : inject_Z (- d') < inject_Z (2 * (n' - m * d'))) by (apply inject_lt; lia).
      assert (B4 : inject_Z (2 * (n' - m * d')) < inject_Z d') by (apply inject_lt; lia).
      rewrite inject_Z_opp, inject_Z_mult in B3. rewrite inject_Z_mult in B4. change (inject_Z 2) with 2 in *.
      assert (U3 : - inject_Z d' * u < 2 * inject_Z (n' - m * d') * u) by (apply Qmult_lt_r; assumption).
      assert (U4 : 2 * inject_Z (n' - m * d') * u < inject_Z d' * u) by (apply Qmult_lt_r; assumption).
      assert (L3 : - ((1 # 2) * u) < x - inject_Z m * u) by (apply (Qmult_lt_r _ _ _ P); lra).
      assert (L4 : x - inject_Z m * u < (1 # 2) * u) by (apply (Qmult_lt_r _ _ _ P); lra).
      apply Qabs_Qlt_condition. split; assumption. }
    unfold m in *. destruct (Z.leb_spec 0 q) as [L|L].
    - apply (G n (d * 2 ^ q)%Z); [nia|reflexivity|]. rewrite inject_Z_mult, two_Z by lia. rewrite Qmult_assoc, Hx. reflexivity.
    - apply (G (n * 2 ^ (- q))%Z d); [exact Hd|reflexivity|]. rewrite Hx, inject_Z_mult, two_Z by lia. rewrite <- Qmult_assoc, two_opp. ring.
  Qed.

  Lemma q_cases : (q = e - 52 /\ -1022 <= e \/ q = -1074 /\ e < -1022)%Z.
  Proof. unfold q. lia. Qed.

  Lemma m_range : (q = e - 52 /\ 2 ^ 52 <= m <= 2 ^ 53 \/ q = -1074 /\ 1 <= m <= 2 ^ 52)%Z.
  Proof.
    destruct m_near as [B _]. destruct x_bounds as [X1 X2]. pose proof (two_pos q) as P. apply Qabs_Qle_condition in B as [B1 B2].
    assert (G : forall lo hi, (0 <= lo)%Z -> (lo + q <= e)%Z -> (e + 1 <= hi + q)%Z -> (2 ^ lo <= m <= 2 ^ hi)%Z).
    { intros lo hi H0 H1 H2.
      assert (Y1 : inject_Z (2 ^ lo) * 2 ^ q <= x) by (rewrite two_Z by lia; rewrite <- two_add; apply Qle_trans with (2 := X1); apply two_le; lia).
      assert (Y2 : x < inject_Z (2 ^ hi) * 2 ^ q) by (rewrite two_Z by lia; rewrite <- two_add; apply Qlt_le_trans with (1 := X2); apply two_le; lia).
      set (u := 2 ^ q) in *.
      assert (A1 : (inject_Z (2 ^ lo) - (1 # 2)) * u <= inject_Z m * u) by lra.
      assert (A2 : inject_Z m * u < (inject_Z (2 ^ hi) + (1 # 2)) * u + (1 # 2) * u) by lra.
      apply -> (Qmult_le_r (inject_Z (2 ^ lo) - (1 # 2)) (inject_Z m) u P) in A1.
      assert (A2' : inject_Z m * u <= (inject_Z (2 ^ hi) + (1 # 2)) * u) by lra.
      apply -> (Qmult_le_r (inject_Z m) (inject_Z (2 ^ hi) + (1 # 2)) u P) in A2'.
      assert (A3 : inject_Z (2 ^ lo - 1) < inject_Z m) by (rewrite inject_sub; change (inject_Z 1) with (1 # 1); lra).
      assert (A4 : inject_Z m < inject_Z (2 ^ hi + 1)) by (rewrite inject_Z_plus; change (inject_Z 1) with (1 # 1); lra).
      apply inject_lt_inv in A3, A4. lia. }
    destruct q_cases as [[E L]|[E L]]; [left|right]; (split; [exact E|]).
    - apply G; lia.
    - assert (2 ^ (e + 1074) <= m <= 2 ^ 52)%Z by (apply G; lia). pose proof (Z.pow_pos_nonneg 2 (e + 1074) ltac:(lia) ltac:(lia)). lia.
  Qed.

  Lemma round_pos_eq : round_pos n d = ((q + 1075) * 2 ^ 52 + (m - 2 ^ 52))%Z.
  Proof.
    unfold round_pos. fold e. fold q. fold m. pose proof m_range as R.
    destruct (Z.ltb_spec m (2 ^ 52)) as [L|L]; rewrite Z.min_l; lia.
  Qed.

  Lemma round_pos_range : (0 < round_pos n d < inf_bits)%Z.
  Proof. rewrite round_pos_eq. pose proof m_range. unfold inf_bits. lia. Qed.

  (** significand and exponent of the result *)
  Lemma round_pos_parts : (m < 2 ^ 53 /\ RoundP.sig (round_pos n d) = m /\ expo (round_pos n d) = q \/
                           m = 2 ^ 53 /\ q = e - 52 /\ RoundP.sig (round_pos n d) = 2 ^ 52 /\ expo (round_pos n d) = q + 1)%Z.
  Proof.
    rewrite round_pos_eq. pose proof m_range as R.
    set (b := ((q + 1075) * 2 ^ 52 + (m - 2 ^ 52))%Z). unfold RoundP.sig, expo.
    destruct (Z_lt_ge_dec m (2 ^ 52)) as [L0|L0].
    { left. assert (E1 : (b / 2 ^ 52 = 0)%Z) by (apply Z.div_small; unfold b; lia).
      assert (E2 : (b mod 2 ^ 52 = m)%Z) by (rewrite Z.mod_small; unfold b; lia).
      rewrite E1, E2. cbn [Z.eqb]. lia. }
    destruct (Z_lt_ge_dec m (2 ^ 53)) as [L|L]; [left|right].
    - assert (E1 : (b / 2 ^ 52 = q + 1075)%Z) by (symmetry; apply (Z.div_unique_pos _ _ _ (m - 2 ^ 52)); unfold b; lia).
      assert (E2 : (b mod 2 ^ 52 = m - 2 ^ 52)%Z) by (symmetry; apply (Z.mod_unique_pos _ _ (q + 1075)); unfold b; lia).
      rewrite E1, E2. replace (q + 1075 =? 0)%Z with false by (symmetry; apply Z.eqb_neq; lia). lia.
    - assert (E1 : (b / 2 ^ 52 = q + 1076)%Z) by (symmetry; apply (Z.div_unique_pos _ _ _ 0); unfold b; lia).
      assert (E2 : (b mod 2 ^ 52 = 0)%Z) by (symmetry; apply (Z.mod_unique_pos _ _ (q + 1076)); unfold b; lia).
      rewrite E1, E2. replace (q + 1076 =? 0)%Z with false by (symmetry; apply Z.eqb_neq; lia). lia.
  Qed.

  Lemma round_pos_val : dval (round_pos n d) == inject_Z m * 2 ^ q.
  Proof.
    pose proof round_pos_range as R. rewrite dval_sig by lia. destruct round_pos_parts as [(_ & -> & ->)|(E & _ & -> & ->)].
    - reflexivity.
    - rewrite E. rewrite two_succ. change (inject_Z (2 ^ 53)) with (2 * inject_Z (2 ^ 52)). ring.
  Qed.

  Lemma round_pos_near : rounds_to x (round_pos n d).
  Proof.
    pose proof round_pos_range as R. apply rounds_to_iff; [exact R|].
    pose proof m_range as Rm. destruct m_near as [B1 B2]. destruct x_bounds as [X1 _].
    assert (Ev : Z.even (round_pos n d) = Z.even m).
    { rewrite <- sig_even. destruct round_pos_parts as [(_ & -> & _)|(E & _ & -> & _)]; [reflexivity|]. rewrite E. reflexivity. }
    rewrite Ev. pose proof (two_pos q) as P.
    assert (Up : dval (round_pos n d + 1) == dval (round_pos n d) + 2 ^ expo (round_pos n d)) by (apply dval_succ; lia).
    assert (Dn := dval_pred (round_pos n d) ltac:(lia)).
    set (b := round_pos n d) in *.
    assert (H2 : forall a, a / 2 == a * (1 # 2)) by (intros; reflexivity).
    assert (Hi : 2 ^ q <= 2 ^ expo b) by (destruct round_pos_parts as [(_ & _ & E)|(_ & _ & _ & E)]; fold b in E; rewrite E; [lra|rewrite two_succ; lra]).
    pose proof round_pos_val as V. fold b in V.
    (* the distance to the predecessor is 2^q, except when m = 2^52, where x >= dval b *)
    assert (Lo : dval (b - 1) <= dval b - 2 ^ q \/ (Z.even m = true /\ dval b <= x)).
    { destruct round_pos_parts as [(L & Es & Ee)|(L & Qe & Es & Ee)]; fold b in Es, Ee; rewrite Es, Ee in Dn.
      - destruct (Z.eqb_spec m (2 ^ 52)) as [E|E]; cbn [andb] in Dn; [destruct (Z.eqb_spec q (-1074)) as [E'|E']; cbn [negb] in Dn|].
        + left. lra.
        + right. split; [rewrite E; reflexivity|]. rewrite V, E, two_Z by lia. rewrite <- two_add. replace (52 + q)%Z with e by lia. exact X1.
        + left. lra.
      - left. change (2 ^ 52 =? 2 ^ 52)%Z with true in Dn. replace (q + 1 =? -1074)%Z with false in Dn by (symmetry; apply Z.eqb_neq; lia).
        cbn [andb negb] in Dn. replace (q + 1 - 1)%Z with q in Dn by lia. lra. }
    pose proof (dval_lt (b - 1) b ltac:(lia)) as Lt.
    unfold between. destruct (Z.even m) eqn:Em.
    - apply Qabs_Qle_condition in B1 as [B1 B3]. rewrite !H2, Up. split; [|lra]. destruct Lo as [Lo|[_ Lo]]; lra.
    - specialize (B2 eq_refl). apply Qabs_Qlt_condition in B2 as [B2 B3]. rewrite !H2, Up. split; [|lra].
      destruct Lo as [Lo|[Lo _]]; [lra|discriminate].
  Qed.
End Round.

(** ** doubles as rationals *)

Lemma two_lt_inv a b : 2 ^ a < 2 ^ b -> (a < b)%Z.
Proof.
  intros H. destruct (Z_lt_ge_dec a b) as [L|L]; [exact L|exfalso].
  replace a with (a - b + b)%Z in H by lia. rewrite two_add in H. rewrite <- (two_Z (a - b)) in H by lia. pose proof (two_pos b) as P.
  assert (O : inject_Z 1 <= inject_Z (2 ^ (a - b))) by (apply inject_le; pose proof (Z.pow_pos_nonneg 2 (a - b) ltac:(lia) ltac:(lia)); lia).
  change (inject_Z 1) with (1 # 1) in O. assert (1 * 2 ^ b <= inject_Z (2 ^ (a - b)) * 2 ^ b) by (apply Qmult_le_r; assumption). lra.
Qed.

Lemma ratio_range n d x lo hi : (0 < n)%Z -> (0 < d)%Z -> x * inject_Z d == inject_Z n -> 2 ^ lo <= x -> x < 2 ^ hi ->
  (lo <= log2_ratio n d < hi)%Z.
Proof.
  intros Hn Hd Hx L1 L2. destruct (x_bounds n d Hn Hd x Hx) as [X1 X2].
  assert (A : 2 ^ lo < 2 ^ (log2_ratio n d + 1)) by (eapply Qle_lt_trans; eassumption). apply two_lt_inv in A.
  assert (B : 2 ^ log2_ratio n d < 2 ^ hi) by (eapply Qle_lt_trans; eassumption). apply two_lt_inv in B. lia.
Qed.

(** far from overflow and not below the least double *)
Definition moderate (x : Q) : Prop := x == 0 \/ (2 ^ (-1074) <= Qabs x /\ Qabs x < 2 ^ 900).

Lemma round_double_nearest n d x : (0 < d)%Z -> x * inject_Z d == inject_Z n -> moderate x ->
  nearest_double x (round_double n d) /\ finite (round_double n d).
Proof.
  intros Hd Hx M. pose proof (inject_pos d Hd) as P. unfold round_double.
  assert (I : (inf_bits < 2 ^ 63)%Z) by reflexivity.
  destruct (Z.eqb_spec n 0) as [E0|E0].
  { split; [|reflexivity]. split; [lia|]. split; [vm_compute; discriminate|]. left. split; [|reflexivity].
    rewrite E0 in Hx. change (inject_Z 0) with 0 in Hx. apply Qmult_integral in Hx as [Hx|Hx]; [exact Hx|rewrite Hx in P; discriminate]. }
  assert (Nx : ~ x == 0).
  { intros E. rewrite E, Qmult_0_l in Hx. change 0 with (inject_Z 0) in Hx. apply (proj1 (inject_Z_injective _ _)) in Hx. lia. }
  destruct M as [M|[M1 M2]]; [contradiction|].
  destruct (Z.ltb_spec n 0) as [L|L].
  - assert (Xn : x < 0).
    { apply Qnot_le_lt. intros B. apply (Qmult_le_compat_r _ _ (inject_Z d)) in B; [|lra]. rewrite Hx, Qmult_0_l in B. change 0 with (inject_Z 0) in B. apply inject_le_inv in B. lia. }
    rewrite Qabs_neg in M1, M2 by lra.
    assert (Hx' : (- x) * inject_Z d == inject_Z (- n)) by (rewrite inject_Z_opp, <- Hx; ring).
    pose proof (ratio_range (- n) d (- x) _ _ ltac:(lia) Hd Hx' M1 M2) as R.
    pose proof (round_pos_range (- n) d ltac:(lia) Hd (- x) Hx' ltac:(lia)) as Rr.
    pose proof (round_pos_near (- n) d ltac:(lia) Hd (- x) Hx' ltac:(lia)) as Rn.
    assert (Em : magnitude (round_pos (- n) d - 2 ^ 63) = round_pos (- n) d) by (apply mag_neg; lia).
    unfold finite. rewrite Em. split; [|lia]. split; [lia|]. rewrite Em. split; [lia|]. right. right. split; [exact Xn|]. split; [lia|exact Rn].
  - assert (Xp : 0 < x).
    { apply Qnot_le_lt. intros B. apply (Qmult_le_compat_r _ _ (inject_Z d)) in B; [|lra]. rewrite Hx, Qmult_0_l in B. change 0 with (inject_Z 0) in B. apply inject_le_inv in B. lia. }
    rewrite Qabs_pos in M1, M2 by lra.
    pose proof (ratio_range n d x _ _ ltac:(lia) Hd Hx M1 M2) as R.
    pose proof (round_pos_range n d ltac:(lia) Hd x Hx ltac:(lia)) as Rr.
    pose proof (round_pos_near n d ltac:(lia) Hd x Hx ltac:(lia)) as Rn.
    assert (Em : magnitude (round_pos n d) = round_pos n d) by (apply mag_pos; lia).
    unfold finite. rewrite Em. split; [|lia]. split; [lia|]. rewrite Em. split; [lia|]. right. left. split; [exact Xp|]. split; [lia|exact Rn].
Qed.

Lemma rounds_eq x y b : x == y -> rounds_to x b -> rounds_to y b.
Proof. intros E H b' Hb'. specialize (H b' Hb'). rewrite E in H. exact H. Qed.

Lemma nearest_eq x y b : x == y -> nearest_double x b -> nearest_double y b.
Proof.
  intros E (H1 & H2 & H3). split; [exact H1|]. split; [exact H2|].
  destruct H3 as [(A & B)|[(A & B & C)|(A & B & C)]]; [left; rewrite <- E; split; assumption|right; left|right; right]; (split; [rewrite <- E; exact A|]; split; [exact B|]).
  - apply (rounds_eq x); assumption.
  - apply (rounds_eq (- x)); [rewrite E; reflexivity|exact C].
Qed.

Lemma nearest_unique x b b' : nearest_double x b -> nearest_double x b' -> b = b'.
Proof.
  intros (R1 & M1 & C1) (R2 & M2 & C2). pose proof (mag_bound b). pose proof (mag_bound b').
  destruct C1 as [(A1 & B1)|[(A1 & B1 & D1)|(A1 & B1 & D1)]]; destruct C2 as [(A2 & B2)|[(A2 & B2 & D2)|(A2 & B2 & D2)]]; try lra; [congruence| |];
    assert (E : magnitude b = magnitude b') by (eapply rounds_unique; try eassumption; lia);
    rewrite (mag_sign b), (mag_sign b') by assumption; rewrite E.
  - replace (b <? 0)%Z with false by (symmetry; apply Z.ltb_ge; lia). replace (b' <? 0)%Z with false by (symmetry; apply Z.ltb_ge; lia). reflexivity.
  - replace (b <? 0)%Z with true by (symmetry; apply Z.ltb_lt; lia). replace (b' <? 0)%Z with true by (symmetry; apply Z.ltb_lt; lia). reflexivity.
Qed.

(** ** casts, division, addition *)

Lemma moderate_Z v : (Z.abs v < 2 ^ 900)%Z -> moderate (inject_Z v).
Proof.
  intros H. destruct (Z.eq_dec v 0) as [->|N]; [left; reflexivity|right].
  assert (E : Qabs (inject_Z v) == inject_Z (Z.abs v)) by reflexivity. rewrite E. split.
  - apply Qle_trans with (inject_Z 1); [|apply inject_le; lia]. vm_compute. discriminate.
  - rewrite <- two_Z by lia. apply inject_lt. exact H.
Qed.

Lemma long_900 v : (- 2 ^ 63 <= v <= 2 ^ 63)%Z -> (Z.abs v < 2 ^ 900)%Z.
Proof. intros H. apply Z.le_lt_trans with (2 ^ 63)%Z; [lia|]. apply Z.pow_lt_mono_r; lia. Qed.

Lemma ofLong_nearest v : (- 2 ^ 63 <= v <= 2 ^ 63)%Z -> nearest_double (inject_Z v) (ofLong v) /\ finite (ofLong v).
Proof.
  intros H. apply round_double_nearest; [lia| |apply moderate_Z, long_900, H]. change (inject_Z 1) with (1 # 1). lra.
Qed.

Lemma round_pos_size n d x : (0 < n)%Z -> (0 < d)%Z -> x * inject_Z d == inject_Z n -> (-1074 <= log2_ratio n d <= 1000)%Z ->
  x * (1 # 2) <= dval (round_pos n d) /\ dval (round_pos n d) <= 2 * x.
Proof.
  intros Hn Hd Hx He. rewrite (round_pos_val n d Hn Hd x Hx He). pose proof (m_near n d Hd x Hx He) as B. cbv zeta in B. destruct B as [B _]. destruct (x_bounds n d Hn Hd x Hx) as [X _].
  apply Qabs_Qle_condition in B as [B1 B2].
  assert (U : 2 ^ Z.max (log2_ratio n d - 52) (-1074) <= 2 ^ log2_ratio n d) by (apply two_le; lia).
  set (q := Z.max (log2_ratio n d - 52) (-1074)) in *. set (m := if (0 <=? q)%Z then _ else _) in *. set (u := 2 ^ q) in *.
  set (v := inject_Z m * u) in *. lra.
Qed.

Lemma round_double_size n d x : (0 < d)%Z -> x * inject_Z d == inject_Z n -> moderate x ->
  Qabs x * (1 # 2) <= Qabs (sval (round_double n d)) /\ Qabs (sval (round_double n d)) <= 2 * Qabs x.
Proof.
  intros Hd Hx M. pose proof (inject_pos d Hd) as P. unfold round_double. assert (I : (inf_bits < 2 ^ 63)%Z) by reflexivity.
  destruct (Z.eqb_spec n 0) as [E0|E0].
  { rewrite E0 in Hx. change (inject_Z 0) with 0 in Hx. apply Qmult_integral in Hx as [Hx|Hx]; [|rewrite Hx in P; discriminate].
    rewrite Hx. vm_compute. split; discriminate. }
  assert (Nx : ~ x == 0).
  { intros E. rewrite E, Qmult_0_l in Hx. change 0 with (inject_Z 0) in Hx. apply (proj1 (inject_Z_injective _ _)) in Hx. lia. }
  destruct M as [M|[M1 M2]]; [contradiction|].
  destruct (Z.ltb_spec n 0) as [L|L].
  - assert (Xn : x < 0).
    { apply Qnot_le_lt. intros B. apply (Qmult_le_compat_r _ _ (inject_Z d)) in B; [|lra]. rewrite Hx, Qmult_0_l in B. change 0 with (inject_Z 0) in B. apply inject_le_inv in B. lia. }
    assert (Ea : Qabs x == - x) by (apply Qabs_neg; lra). rewrite Ea in M1, M2.
    assert (Hx' : (- x) * inject_Z d == inject_Z (- n)) by (rewrite inject_Z_opp, <- Hx; ring).
    pose proof (ratio_range (- n) d (- x) _ _ ltac:(lia) Hd Hx' M1 M2) as R.
    pose proof (round_pos_range (- n) d ltac:(lia) Hd (- x) Hx' ltac:(lia)) as Rr.
    pose proof (round_pos_size (- n) d (- x) ltac:(lia) Hd Hx' ltac:(lia)) as S.
    pose proof (dval_nonneg (round_pos (- n) d) ltac:(lia)) as D.
    rewrite sval_neg by lia. rewrite (Qabs_neg (- _)) by lra. rewrite Ea. lra.
  - assert (Xp : 0 < x).
    { apply Qnot_le_lt. intros B. apply (Qmult_le_compat_r _ _ (inject_Z d)) in B; [|lra]. rewrite Hx, Qmult_0_l in B. change 0 with (inject_Z 0) in B. apply inject_le_inv in B. lia. }
    assert (Ea : Qabs x == x) by (apply Qabs_pos; lra). rewrite Ea in M1, M2.
    pose proof (ratio_range n d x _ _ ltac:(lia) Hd Hx M1 M2) as R.
    pose proof (round_pos_range n d ltac:(lia) Hd x Hx ltac:(lia)) as Rr.
    pose proof (round_pos_size n d x ltac:(lia) Hd Hx ltac:(lia)) as S.
    pose proof (dval_nonneg (round_pos n d) ltac:(lia)) as D.
    rewrite sval_pos by lia. rewrite (Qabs_pos (dval _)) by lra. rewrite Ea. lra.
Qed.

Lemma dbl_div_nearest x y k : dbl_num y = (k * 2 ^ 1074)%Z -> (0 < k)%Z -> moderate (sval x / inject_Z k) ->
  nearest_double (sval x / inject_Z k) (dbl_div x y) /\ finite (dbl_div x y) /\
  Qabs (sval (dbl_div x y)) <= 2 * Qabs (sval x / inject_Z k).
Proof.
  intros Hy Hk M. unfold dbl_div. rewrite Hy. pose proof (inject_pos k Hk) as P.
  assert (D : (0 < k * 2 ^ 1074)%Z) by (pose proof (Z.pow_pos_nonneg 2 1074 ltac:(lia) ltac:(lia)); nia).
  assert (E : sval x / inject_Z k * inject_Z (k * 2 ^ 1074) == inject_Z (dbl_num x)).
  { rewrite dbl_num_val, inject_Z_mult, two_Z by lia. field. lra. }
  destruct (round_double_nearest _ _ _ D E M) as [N F]. split; [exact N|]. split; [exact F|]. apply round_double_size; assumption.
Qed.

Lemma dbl_add_nearest x y : Qabs (sval x + sval y) < 2 ^ 900 ->
  nearest_double (sval x + sval y) (dbl_add x y) /\ finite (dbl_add x y).
Proof.
  intros H. unfold dbl_add.
  assert (D : (0 < 2 ^ 1074)%Z) by (apply Z.pow_pos_nonneg; lia).
  assert (E : (sval x + sval y) * inject_Z (2 ^ 1074) == inject_Z (dbl_num x + dbl_num y)).
  { rewrite inject_Z_plus, !dbl_num_val, two_Z by lia. ring. }
  apply round_double_nearest; [exact D|exact E|]. pose proof (inject_pos _ D) as P.
  destruct (Z.eq_dec (dbl_num x + dbl_num y) 0) as [Z0|NZ].
  - left. rewrite Z0 in E. change (inject_Z 0) with 0 in E. apply Qmult_integral in E as [E|E]; [exact E|rewrite E in P; discriminate].
  - right. split; [|exact H].
    assert (A : inject_Z (Z.abs (dbl_num x + dbl_num y)) == Qabs (sval x + sval y) * inject_Z (2 ^ 1074)).
    { change (Qabs (inject_Z (dbl_num x + dbl_num y)) == Qabs (sval x + sval y) * inject_Z (2 ^ 1074)). rewrite <- E, Qabs_Qmult. rewrite (Qabs_pos (inject_Z (2 ^ 1074))) by lra. reflexivity. }
    apply (Qmult_le_r _ _ _ P). rewrite <- A, two_Z by lia. rewrite <- two_add. replace (-1074 + 1074)%Z with 0%Z by lia.
    change (2 ^ 0) with (inject_Z 1). apply inject_le. lia.
Qed.

(** ** the conversions in the traits *)

Lemma ofLong_size v : (- 2 ^ 63 <= v <= 2 ^ 63)%Z ->
  Qabs (inject_Z v) * (1 # 2) <= Qabs (sval (ofLong v)) /\ Qabs (sval (ofLong v)) <= 2 * Qabs (inject_Z v).
Proof.
  intros H. apply round_double_size; [lia| |apply moderate_Z, long_900, H]. change (inject_Z 1) with (1 # 1). lra.
Qed.

Lemma abs_inject v : Qabs (inject_Z v) = inject_Z (Z.abs v).
Proof. reflexivity. Qed.

Lemma ofLong_moderate v k : (- 2 ^ 63 <= v <= 2 ^ 63)%Z -> (0 < k <= 2 ^ 64)%Z -> moderate (sval (ofLong v) / inject_Z k) /\
  Qabs (sval (ofLong v) / inject_Z k) <= 2 ^ 64.
Proof.
  intros Hv Hk. pose proof (ofLong_size v Hv) as [S1 S2]. rewrite abs_inject in S1, S2.
  pose proof (inject_pos k ltac:(lia)) as P. pose proof (inject_le k (2 ^ 64) ltac:(lia)) as Pk.
  assert (K1 : 1 <= inject_Z k) by (change 1 with (inject_Z 1); apply inject_le; lia).
  pose proof (inject_le (Z.abs v) (2 ^ 63) ltac:(lia)) as Pv.
  assert (E : Qabs (sval (ofLong v) / inject_Z k) * inject_Z k == Qabs (sval (ofLong v))).
  { unfold Qdiv. rewrite Qabs_Qmult. rewrite (Qabs_pos (/ inject_Z k)) by (apply Qlt_le_weak, Qinv_lt_0_compat; exact P).
    rewrite <- Qmult_assoc, (Qmult_comm (/ _)), Qmult_inv_r by lra. ring. }
  set (a := Qabs (sval (ofLong v) / inject_Z k)) in *. pose proof (Qabs_nonneg (sval (ofLong v) / inject_Z k)) as A0. fold a in A0.
  assert (Up : a <= 2 ^ 64).
  { assert (a * 1 <= a * inject_Z k) by (rewrite !(Qmult_comm a); apply Qmult_le_compat_r; assumption).
    change (2 ^ 64) with (2 * inject_Z (2 ^ 63)). lra. }
  split; [|exact Up]. destruct (Z.eq_dec v 0) as [->|N].
  - left. vm_compute. reflexivity.
  - right. fold a. split.
    + assert (V1 : inject_Z 1 <= inject_Z (Z.abs v)) by (apply inject_le; lia). change (inject_Z 1) with (1 # 1) in V1.
      apply Qle_trans with (2 ^ (-65)); [apply two_le; lia|].
      apply (Qmult_le_r _ _ _ P). rewrite E.
      apply Qle_trans with (1 # 2); [|lra].
      apply Qle_trans with (2 ^ (-65) * inject_Z (2 ^ 64)); [rewrite !(Qmult_comm (2 ^ (-65))); apply Qmult_le_compat_r; [exact Pk|apply Qlt_le_weak, two_pos]|].
      vm_compute. discriminate.
    + apply Qle_lt_trans with (1 := Up). vm_compute. reflexivity.
Qed.
