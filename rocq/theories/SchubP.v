(** DoubleToDecimal.toDecimal gives the decimal of DecSpec, for every finite non-zero double. *)
From Coq Require Import QArith Qabs Qpower Lqa.
From Verif Require Import Base GTable MathM DecimalM MathP GCheck CertCheck IrrCheck SchubM DecSpec RoundP ShortP.
Open Scope Q_scope.

(** ** the exact-arithmetic conversion, in units of 10^k *)

(** left end of the interval in quarters of alpha: 4c-2, or 4c-1 where the spacing below is halved *)
Section Units.
  Variables (c A B cbl : Z) (alpha : Q).
  Hypothesis HB : (0 < B)%Z.
  Hypothesis Ha : inject_Z A == alpha * inject_Z B.

  Lemma frac_cmp n m : (n * A ?= 4 * m * B)%Z = (inject_Z n * alpha * (1 # 4) ?= inject_Z m).
  Proof.
    pose proof (inject_lt 0 B HB) as PB. change (inject_Z 0) with 0 in PB.
    assert (E1 : inject_Z (n * A) == inject_Z n * alpha * inject_Z B) by (rewrite inject_Z_mult, Ha; ring).
    assert (E2 : inject_Z (4 * m * B) == 4 * inject_Z m * inject_Z B) by (rewrite !inject_Z_mult; reflexivity).
    destruct (Z.compare_spec (n * A) (4 * m * B)) as [E|E|E]; symmetry.
    - rewrite <- Qeq_alt.
      assert (E3 : (4 * inject_Z m) * inject_Z B == (inject_Z n * alpha) * inject_Z B) by (rewrite <- E1, <- E2, E; reflexivity).
      apply Qmult_inj_r in E3; set (v := inject_Z n * alpha) in *; lra.
    - rewrite <- Qlt_alt. apply inject_lt in E. rewrite E1, E2 in E. apply Qmult_lt_r in E; [|exact PB]. set (v := inject_Z n * alpha) in *. lra.
    - rewrite <- Qgt_alt. apply inject_lt in E. rewrite E1, E2 in E. apply Qmult_lt_r in E; [|exact PB]. set (v := inject_Z n * alpha) in *. lra.
  Qed.

  Lemma above_left_spec m : above_left c A B cbl m = true <->
    if Z.even c then inject_Z cbl * alpha * (1 # 4) <= inject_Z m else inject_Z cbl * alpha * (1 # 4) < inject_Z m.
  Proof.
    unfold above_left. destruct (Z.even c).
    - rewrite Z.leb_le. unfold Z.le. rewrite frac_cmp. rewrite <- Qle_alt. reflexivity.
    - rewrite Z.ltb_lt. unfold Z.lt. rewrite frac_cmp. rewrite <- Qlt_alt. reflexivity.
  Qed.

  Lemma below_right_spec cbr m : below_right c A B cbr m = true <->
    if Z.even c then inject_Z m <= inject_Z cbr * alpha * (1 # 4) else inject_Z m < inject_Z cbr * alpha * (1 # 4).
  Proof.
    unfold below_right. destruct (Z.even c).
    - rewrite Z.leb_le. unfold Z.le. rewrite Z.compare_antisym, frac_cmp, Qcompare_antisym, <- Qle_alt. reflexivity.
    - rewrite Z.ltb_lt. unfold Z.lt. rewrite Z.compare_antisym, frac_cmp, Qcompare_antisym, <- Qlt_alt. reflexivity.
  Qed.
End Units.

Definition alpha (q k : Z) : Q := 2 ^ q * 10 ^ (- k).

Lemma alpha_frac q k : inject_Z (anum q k) == alpha q k * inject_Z (aden q k).
Proof.
  unfold anum, aden, alpha. rewrite !inject_Z_mult, !Zpower_Qpower by lia. change (inject_Z 2) with 2. change (inject_Z 10) with 10.
  assert (E2 : 2 ^ Z.max 0 q == 2 ^ q * 2 ^ Z.max 0 (- q)).
  { rewrite <- Qpower_plus by discriminate. replace (q + Z.max 0 (- q))%Z with (Z.max 0 q) by lia. reflexivity. }
  assert (E10 : 10 ^ Z.max 0 (- k) == 10 ^ (- k) * 10 ^ Z.max 0 k).
  { rewrite <- Qpower_plus by discriminate. replace (- k + Z.max 0 k)%Z with (Z.max 0 (- k)) by lia. reflexivity. }
  rewrite E2, E10. ring.
Qed.

Section Ideal.
  Variables q c : Z.
  Hypothesis Hq : (-1074 <= q <= 971)%Z.
  Hypothesis Hc : (0 < c < 2 ^ 53)%Z.
  Notation k := (scale q c).
  Notation al := (alpha q k).
  Notation A := (anum q k).
  Notation B := (aden q k).
  Definition uX : Q := inject_Z c * al.
  Definition uL : Q := inject_Z (left_end q c) * al * (1 # 4).
  Definition uR : Q := inject_Z (4 * c + 2) * al * (1 # 4).
  Definition us : Z := (c * A / B)%Z.
  Notation inU := (inR uL uR (Z.even c)).

  Lemma al_frac_le n m : (n * B <= m * A)%Z -> inject_Z n <= inject_Z m * al.
  Proof.
    intros H. pose proof (aden_pos q k) as P. apply inject_lt in P. change (inject_Z 0) with 0 in P.
    apply inject_le in H. rewrite !inject_Z_mult, alpha_frac in H. rewrite Qmult_assoc in H. apply Qmult_le_r in H; assumption.
  Qed.
  Lemma al_frac_lt n m : (n * B < m * A)%Z -> inject_Z n < inject_Z m * al.
  Proof.
    intros H. pose proof (aden_pos q k) as P. apply inject_lt in P. change (inject_Z 0) with 0 in P.
    apply inject_lt in H. rewrite !inject_Z_mult, alpha_frac in H. rewrite Qmult_assoc in H. apply Qmult_lt_r in H; assumption.
  Qed.
  Lemma al_frac_gt n m : (m * A < n * B)%Z -> inject_Z m * al < inject_Z n.
  Proof.
    intros H. pose proof (aden_pos q k) as P. apply inject_lt in P. change (inject_Z 0) with 0 in P.
    apply inject_lt in H. rewrite !inject_Z_mult, alpha_frac in H. rewrite Qmult_assoc in H. apply Qmult_lt_r in H; assumption.
  Qed.

  Lemma al_bounds : 1 <= al /\ 3 * al < 40 /\ (if regular q c then al < 10 else 4 < 3 * al).
  Proof.
    destruct (exact_products q c Hq Hc) as (_ & _ & (H1 & H2) & H3 & _).
    assert (B1 : 1 <= al). { assert (G : inject_Z 1 <= inject_Z 1 * al) by (apply al_frac_le; lia). change (inject_Z 1) with 1 in G. lra. }
    assert (B2 : 3 * al < 40). { assert (G : inject_Z 3 * al < inject_Z 40) by (apply al_frac_gt; lia). exact G. }
    split; [exact B1|]. split; [exact B2|]. destruct (regular q c).
    - assert (G : inject_Z 1 * al < inject_Z 10) by (apply al_frac_gt; lia). change (inject_Z 1) with 1 in G. change (inject_Z 10) with 10 in G. lra.
    - assert (G : inject_Z 4 < inject_Z 3 * al) by (apply al_frac_lt; lia). exact G.
  Qed.

  Lemma u_ends : uR == uX + al * (1 # 2) /\ uL == if regular q c then uX - al * (1 # 2) else uX - al * (1 # 4).
  Proof.
    unfold uR, uL, uX, left_end. split.
    - rewrite inject_Z_plus, inject_Z_mult. change (inject_Z 4) with 4. change (inject_Z 2) with 2. ring.
    - destruct (regular q c); rewrite inject_sub, inject_Z_mult; change (inject_Z 4) with 4;
        [change (inject_Z 2) with 2|change (inject_Z 1) with 1]; ring.
  Qed.

  Lemma u_order : uL < uX /\ uX < uR /\ uR - uL < 10.
  Proof.
    destruct u_ends as [E1 E2]. destruct al_bounds as (B1 & B2 & B3). destruct (regular q c); lra.
  Qed.

  Lemma u_floor : inject_Z us <= uX < inject_Z (us + 1).
  Proof.
    pose proof (aden_pos q k) as P. unfold us, uX.
    pose proof (Z.div_mod (c * A) B ltac:(lia)). pose proof (Z.mod_pos_bound (c * A) B ltac:(lia)).
    split; [apply al_frac_le|apply al_frac_gt]; lia.
  Qed.

  Lemma c_even_irregular : regular q c = false -> Z.even c = true.
  Proof. unfold regular. intros H. apply orb_false_elim in H as [H _]. apply negb_false_iff, Z.eqb_eq in H. rewrite H. reflexivity. Qed.

  (** one of the two neighbouring integers lies in the interval *)
  Lemma some_integer : inU (inject_Z us) \/ inU (inject_Z (us + 1)).
  Proof.
    destruct u_ends as [E1 E2]. destruct al_bounds as (B1 & B2 & B3). destruct u_order as (O1 & O2 & O3). destruct u_floor as [F1 F2].
    assert (Es : inject_Z (us + 1) == inject_Z us + 1) by (rewrite inject_Z_plus; reflexivity).
    assert (D : uL <= inject_Z us \/ inject_Z us < uL) by (destruct (Qlt_le_dec (inject_Z us) uL); auto).
    unfold inR, between. destruct (Z.even c) eqn:Ev.
    - destruct D as [D|D]; [left; split; lra|right]. split; [lra|]. destruct (regular q c); lra.
    - destruct (regular q c) eqn:R; [|apply c_even_irregular in R; congruence].
      destruct (Qlt_le_dec uL (inject_Z us)) as [D1|D1]; [left; split; lra|].
      destruct (Qlt_le_dec (inject_Z (us + 1)) uR) as [D2|D2]; [right; split; lra|]. exfalso.
      assert (Ea : al == 1) by lra. assert (Ex : 2 * uX == 2 * inject_Z us + 1) by lra.
      unfold uX in Ex. rewrite Ea in Ex. assert (Ez : inject_Z (2 * c) == inject_Z (2 * us + 1)) by (rewrite inject_Z_plus, !inject_Z_mult; change (inject_Z 2) with 2; change (inject_Z 1) with 1; lra).
      rewrite inject_Z_injective in Ez. lia.
  Qed.

  Lemma left_iff m : inject_Z m < uR -> (above_left c A B (left_end q c) m = true <-> inU (inject_Z m)).
  Proof.
    intros H. rewrite (above_left_spec c A B (left_end q c) al (aden_pos q k) (alpha_frac q k) m). fold uL.
    unfold inR, between. destruct (Z.even c); split; intros G; try split; try lra; try apply G.
  Qed.
  Lemma right_iff m : uL < inject_Z m -> (below_right c A B (4 * c + 2) m = true <-> inU (inject_Z m)).
  Proof.
    intros H. rewrite (below_right_spec c A B al (aden_pos q k) (alpha_frac q k) (4 * c + 2) m). fold uR.
    unfold inR, between. destruct (Z.even c); split; intros G; try split; try lra; try apply G.
  Qed.

  (** the two outcomes *)
  Lemma ideal_cases dk : exists f,
    (ideal c A B (left_end q c) (4 * c + 2) k dk = (f, k) /\ (100 <= us)%Z /\ exists j, (10 <= j)%Z /\ f = (10 * j)%Z /\ inU (inject_Z (10 * j))) \/
    (ideal c A B (left_end q c) (4 * c + 2) k dk = (f, (k + dk)%Z) /\ chosen uX uL uR (Z.even c) us f /\
     ((us < 100)%Z \/ forall i, ~ inU (inject_Z (10 * i)))).
  Proof.
    destruct u_order as (O1 & O2 & O3). destruct u_floor as [F1 F2]. unfold ideal. fold us.
    pose proof (Z.div_mod us 10 ltac:(lia)) as D. pose proof (Z.mod_pos_bound us 10 ltac:(lia)) as M.
    set (j := (us / 10)%Z) in *.
    assert (S1 : inject_Z (10 * j) <= inject_Z us) by (apply inject_le; lia).
    assert (S2 : inject_Z (us + 1) <= inject_Z (10 * j + 10)) by (apply inject_le; lia).
    pose proof (left_iff (10 * j) ltac:(lra)) as Lj. pose proof (right_iff (10 * j + 10) ltac:(lra)) as Rj.
    pose proof (left_iff us ltac:(lra)) as Ls. pose proof (right_iff (us + 1) ltac:(lra)) as Rs.
    set (al10 := above_left c A B (left_end q c) (10 * j)) in *. set (br10 := below_right c A B (4 * c + 2) (10 * j + 10)) in *.
    set (als := above_left c A B (left_end q c) us) in *. set (brs := below_right c A B (4 * c + 2) (us + 1)) in *.
    destruct ((100 <=? us)%Z && xorb al10 br10)%bool eqn:X1.
    - apply andb_prop in X1 as [X1 X2]. apply Z.leb_le in X1. exists (if al10 then (10 * j)%Z else (10 * j + 10)%Z). left.
      split; [reflexivity|]. split; [exact X1|]. destruct al10.
      + exists j. split; [lia|]. split; [reflexivity|]. apply Lj. reflexivity.
      + destruct br10; [|discriminate]. exists (j + 1)%Z. split; [lia|]. split; [lia|].
        replace (10 * (j + 1))%Z with (10 * j + 10)%Z by lia. apply Rj. reflexivity.
    - assert (None : (us < 100)%Z \/ forall i, ~ inU (inject_Z (10 * i))).
      { destruct (Z_lt_ge_dec us 100) as [G|G]; [left; exact G|right]. intros i I.
        replace (100 <=? us)%Z with true in X1 by (symmetry; apply Z.leb_le; lia). cbn [andb] in X1.
        assert (both : ~ (inU (inject_Z (10 * j)) /\ inU (inject_Z (10 * (j + 1))))).
        { intros [C1 C2]. pose proof (tens_unique uL uR (Z.even c) O3 j (j + 1)%Z C1 C2). lia. }
        replace (10 * j + 10)%Z with (10 * (j + 1))%Z in * by lia.
        assert (NL : ~ inU (inject_Z (10 * j))).
        { intros C. apply both. split; [exact C|]. apply Rj. apply Lj in C. rewrite C in X1. destruct br10; [reflexivity|discriminate]. }
        assert (NR : ~ inU (inject_Z (10 * (j + 1)))).
        { intros C. apply both. split; [|exact C]. apply Lj. apply Rj in C. rewrite C in X1. destruct al10; [reflexivity|discriminate]. }
        destruct (Z_le_gt_dec i j) as [Gi|Gi].
        - apply NL. apply inR_convex with (inject_Z (10 * i)) uX; [exact I|apply inR_X; assumption|apply inject_le; lia|lra].
        - apply NR. apply inR_convex with uX (inject_Z (10 * i)); [apply inR_X; assumption|exact I|lra|apply inject_le; lia]. }
      assert (E2 : inject_Z (2 * us + 1) == 2 * inject_Z us + 1) by (rewrite inject_Z_plus, inject_Z_mult; reflexivity).
      destruct (xorb als brs) eqn:X2.
      + exists (if als then us else (us + 1)%Z). right. split; [reflexivity|]. split; [|exact None]. unfold chosen. destruct als.
        * split; [apply Ls; reflexivity|]. left. split; [reflexivity|]. intros C. apply Rs in C. rewrite C in X2. discriminate.
        * destruct brs; [|discriminate]. split; [apply Rs; reflexivity|]. right. split; [reflexivity|]. intros C. apply Ls in C. discriminate.
      + assert (Both : inU (inject_Z us) /\ inU (inject_Z (us + 1))).
        { destruct some_integer as [C|C].
          - split; [exact C|]. apply Ls in C. rewrite C in X2. apply Rs. destruct brs; [reflexivity|discriminate].
          - split; [|exact C]. apply Rs in C. rewrite C in X2. apply Ls. destruct als; [reflexivity|discriminate]. }
        destruct Both as [Ia Ib].
        assert (Cmp : (2 * c * A ?= (2 * us + 1) * B)%Z = (2 * uX ?= inject_Z (2 * us + 1))).
        { pose proof (frac_cmp A B al (aden_pos q k) (alpha_frac q k) (8 * c) (2 * us + 1)) as C.
          replace (8 * c * A ?= 4 * (2 * us + 1) * B)%Z with (2 * c * A ?= (2 * us + 1) * B)%Z in C.
          2:{ destruct (Z.compare_spec (2 * c * A) ((2 * us + 1) * B)); symmetry; [apply Z.compare_eq_iff|apply Z.compare_lt_iff|apply Z.compare_gt_iff]; lia. }
          rewrite C. apply Qcompare_comp; [|reflexivity]. unfold uX. rewrite inject_Z_mult. change (inject_Z 8) with 8. ring. }
        rewrite Cmp. destruct (2 * uX ?= inject_Z (2 * us + 1)) eqn:C.
        * rewrite <- Qeq_alt in C. exists (if Z.even us then us else (us + 1)%Z). right. split; [reflexivity|]. split; [|exact None].
          unfold chosen. destruct (Z.even us) eqn:Ev.
          -- split; [exact Ia|]. left. split; [reflexivity|]. intros _. split; [rewrite C; apply Qle_refl|reflexivity].
          -- split; [exact Ib|]. right. split; [reflexivity|]. intros _. split; [rewrite C; apply Qle_refl|reflexivity].
        * rewrite <- Qlt_alt in C. exists us. right. split; [reflexivity|]. split; [|exact None]. unfold chosen.
          split; [exact Ia|]. left. split; [reflexivity|]. intros _. split; [apply Qlt_le_weak; exact C|]. intros E. rewrite E in C. apply Qlt_irrefl in C. contradiction.
        * rewrite <- Qgt_alt in C. exists (us + 1)%Z. right. split; [reflexivity|]. split; [|exact None]. unfold chosen.
          split; [exact Ib|]. right. split; [reflexivity|]. intros _. split; [apply Qlt_le_weak; exact C|]. intros E. rewrite E in C. apply Qlt_irrefl in C. contradiction.
  Qed.
End Ideal.

(** ** from units of 10^k back to decimals *)

Lemma dec_to_units f e k : dec f e == dec f (e - k) * 10 ^ k.
Proof. rewrite <- dec_shift. replace (e - k + k)%Z with e by lia. reflexivity. Qed.

Lemma digits_eq x y n : x == y -> digits_le x n -> digits_le y n.
Proof. intros E (f & e & H & Ex). exists f, e. split; [exact H|]. rewrite <- E. exact Ex. Qed.
Lemma digits_scale x n k : digits_le x n -> digits_le (x * 10 ^ k) n.
Proof. intros (f & e & H & Ex). exists f, (e + k)%Z. split; [exact H|]. rewrite Ex, dec_shift. reflexivity. Qed.

Lemma abs_scale a b u : 0 < u -> Qabs (a * u - b * u) == Qabs (a - b) * u.
Proof.
  intros H. setoid_replace (a * u - b * u) with ((a - b) * u) by ring. rewrite Qabs_Qmult. rewrite (Qabs_pos u) by lra. reflexivity.
Qed.


(** a double whose value is X * 10^k with interval L .. R in the same units *)
Section Scaled.
  Variables b k s : Z.
  Variables X L R : Q.
  Hypothesis Hb : (0 < b < inf_bits)%Z.
  Hypothesis value_units : dval b == X * 10 ^ k.
  Hypothesis ends_units : (dval b + dval (b - 1)) / 2 == L * 10 ^ k /\ (dval b + dval (b + 1)) / 2 == R * 10 ^ k.
  Hypothesis Hs : inject_Z s <= X < inject_Z (s + 1).
  Notation inU := (inR L R (Z.even b)).

  Lemma rounds_units f e : rounds_to (dec f e) b <-> inU (dec f (e - k)).
  Proof.
    rewrite rounds_to_iff by exact Hb. destruct ends_units as [E1 E2]. pose proof (ten_pos k) as P.
    unfold inR, between. 
    assert (Hle : forall u v, u * 10 ^ k <= v * 10 ^ k <-> u <= v) by (intros; apply Qmult_le_r; exact P).
    assert (Hlt : forall u v, u * 10 ^ k < v * 10 ^ k <-> u < v) by (intros; apply Qmult_lt_r; exact P).
    destruct (Z.even b); rewrite E1, E2, (dec_to_units f e k); rewrite ?Hle, ?Hlt; reflexivity.
  Qed.

  Lemma minimal_units f e : short_enough (dec f e) b -> minimal L R (Z.even b) (dec f (e - k)).
  Proof.
    intros S f' e' n Hf I. assert (Rb : rounds_to (dec f' (e' + k)) b) by (apply rounds_units; replace (e' + k - k)%Z with e' by lia; exact I).
    pose proof (S f' (e' + k)%Z n Hf Rb) as G. apply (digits_scale _ _ (- k)) in G. eapply digits_eq; [|exact G].
    rewrite <- dec_shift. reflexivity.
  Qed.

  Lemma dist_units f e : Qabs (dec f e - dval b) == Qabs (dec f (e - k) - X) * 10 ^ k.
  Proof. rewrite value_units, (dec_to_units f e k). apply abs_scale. apply ten_pos. Qed.

  Lemma dist_lt f e f' e' :
    Qabs (dec f (e - k) - X) < Qabs (dec f' (e' - k) - X) -> Qabs (dec f e - dval b) < Qabs (dec f' e' - dval b).
  Proof. intros H. rewrite !dist_units. apply Qmult_lt_r; [apply ten_pos|exact H]. Qed.
  Lemma dist_eq f e f' e' :
    Qabs (dec f (e - k) - X) == Qabs (dec f' (e' - k) - X) -> Qabs (dec f e - dval b) == Qabs (dec f' e' - dval b).
  Proof. intros H. rewrite !dist_units, H. reflexivity. Qed.

  Lemma unit_int f : dec f (k - k) == inject_Z f.
  Proof. rewrite Z.sub_diag. apply dec_0. Qed.

  Lemma abs_comp x y : x == y -> Qabs x == Qabs y.
  Proof. intros ->. reflexivity. Qed.

  Lemma tens_right j : R - L < 10 -> (100 <= s)%Z -> (10 <= j)%Z -> inU (inject_Z (10 * j)) -> right_decimal b (10 * j) k.
  Proof.
    intros O3 H100 Hj I. destruct Hs as [F1 F2].
    split; [lia|]. split; [apply rounds_units; apply inR_eq with (inject_Z (10 * j)); [rewrite unit_int; reflexivity|exact I]|]. split.
    - intros f' e' n Hf Rb. apply rounds_units in Rb.
      pose proof (tens_short _ _ _ O3 j Hj I f' (e' - k)%Z n Hf Rb) as G. apply (digits_scale _ _ k) in G.
      eapply digits_eq; [|exact G]. rewrite <- dec_0, <- dec_shift. reflexivity.
    - intros f' e' Hf Rb S. apply rounds_units in Rb. apply minimal_units in S.
      assert (HX : inject_Z 100 <= X) by (apply Qle_trans with (inject_Z s); [apply inject_le; exact H100|exact F1]).
      destruct (tens_close _ _ _ _ O3 j Hj I (dec f' (e' - k)) HX Rb S) as [E|E].
      + left. rewrite (dec_to_units f' e' k), E. rewrite <- dec_0, <- dec_shift. reflexivity.
      + right. left. apply dist_lt. rewrite unit_int. exact E.
  Qed.

  (** the chosen integer, once everything of minimal length is known to be an integer *)
  Lemma chosen_right d : (0 < d)%Z -> chosen (X) L R (Z.even b) s d ->
    (forall f e n, (0 < f < 10 ^ n)%Z -> inU (dec f e) -> digits_le (inject_Z d) (Z.max 2 n)) ->
    (forall y, inU y -> minimal L R (Z.even b) y -> exists m, y == inject_Z m) ->
    right_decimal b d k.
  Proof.
    intros Hd C Sh Int.
    split; [exact Hd|]. split; [apply rounds_units; apply inR_eq with (inject_Z d); [rewrite unit_int; reflexivity|apply C]|]. split.
    - intros f' e' n Hf Rb. apply rounds_units in Rb.
      pose proof (Sh f' (e' - k)%Z n Hf Rb) as G. apply (digits_scale _ _ k) in G.
      eapply digits_eq; [|exact G]. rewrite <- dec_0, <- dec_shift. reflexivity.
    - intros f' e' Hf Rb S. apply rounds_units in Rb. apply minimal_units in S.
      destruct (Int _ Rb S) as (m & Em). pose proof (inR_eq _ _ _ _ _ Em Rb) as Im.
      assert (Ed : dec f' e' == dec m k) by (rewrite (dec_to_units f' e' k), Em, <- dec_0, <- dec_shift; reflexivity).
      assert (Eq : Qabs (dec f' (e' - k) - X) == Qabs (inject_Z m - X)) by (apply abs_comp; rewrite Em; reflexivity).
      assert (Eq' : Qabs (dec d (k - k) - X) == Qabs (inject_Z d - X)) by (apply abs_comp; rewrite unit_int; reflexivity).
      destruct (chosen_close _ _ _ _ _ Hs d m C Im) as [-> | [E|(E & Ev & N)]].
      + left. symmetry. exact Ed.
      + right. left. apply dist_lt. rewrite Eq, Eq'. exact E.
      + right. right. split; [apply dist_eq; rewrite Eq, Eq'; exact E|]. split; [exact Ev|]. exists m. split; [exact Ed|exact N].
  Qed.
End Scaled.

Section Double.
  Variable b : Z.
  Hypothesis Hb : (0 < b < inf_bits)%Z.
  Notation c := (sig b).
  Notation q := (expo b).

  Lemma sig_expo_range : (-1074 <= q <= 971 /\ 0 < c < 2 ^ 53)%Z.
  Proof.
    unfold inf_bits in Hb. unfold sig, expo.
    pose proof (Z.div_mod b (2 ^ 52) ltac:(lia)). pose proof (Z.mod_pos_bound b (2 ^ 52) ltac:(lia)).
    assert (0 <= b / 2 ^ 52 < 2047)%Z by (split; [apply Z.div_pos; lia|apply Z.div_lt_upper_bound; lia]).
    destruct (Z.eqb_spec (b / 2 ^ 52) 0); lia.
  Qed.

  Lemma value_units : dval b == uX q c * 10 ^ scale q c.
  Proof.
    rewrite dval_sig by lia. unfold uX, alpha. rewrite Qpower_opp. field. apply Qpower_not_0. discriminate.
  Qed.

  Lemma ends_units :
    (dval b + dval (b - 1)) / 2 == uL q c * 10 ^ scale q c /\ (dval b + dval (b + 1)) / 2 == uR q c * 10 ^ scale q c.
  Proof.
    destruct (u_ends q c) as [ER EL]. set (k := scale q c) in *.
    assert (Ea : alpha q k * 10 ^ k == 2 ^ q) by (unfold alpha; rewrite Qpower_opp; field; apply Qpower_not_0; discriminate).
    pose proof value_units as EX. fold k in EX. split.
    - rewrite EL, (dval_pred b) by lia.
      assert (Er : regular q c = negb ((c =? 2 ^ 52) && negb (q =? -1074))%Z%bool).
      { unfold regular. change C_MIN with (2 ^ 52)%Z. change Q_MIN with (-1074)%Z. destruct (c =? 2 ^ 52)%Z; destruct (q =? -1074)%Z; reflexivity. }
      rewrite Er. destruct ((c =? 2 ^ 52) && negb (q =? -1074))%Z%bool; cbn [negb].
      + assert (Eh : 2 ^ q == 2 * 2 ^ (q - 1)) by (rewrite <- two_succ; replace (q - 1 + 1)%Z with q by lia; reflexivity).
        setoid_replace ((uX q c - alpha q k * (1 # 4)) * 10 ^ k) with (uX q c * 10 ^ k - (alpha q k * 10 ^ k) * (1 # 4)) by ring.
        rewrite Ea, <- EX, Eh. field.
      + setoid_replace ((uX q c - alpha q k * (1 # 2)) * 10 ^ k) with (uX q c * 10 ^ k - (alpha q k * 10 ^ k) * (1 # 2)) by ring.
        rewrite Ea, <- EX. field.
    - rewrite ER, (dval_succ b) by lia.
      setoid_replace ((uX q c + alpha q k * (1 # 2)) * 10 ^ k) with (uX q c * 10 ^ k + (alpha q k * 10 ^ k) * (1 # 2)) by ring.
      rewrite Ea, <- EX. field.
  Qed.

  Notation k := (scale q c).

  (** ** the general case: every significand but 1 and 2 *)
  Lemma us_ge_c : (c <= us q c)%Z.
  Proof.
    destruct sig_expo_range as [Hq Hc]. destruct (exact_products q c Hq Hc) as (_ & _ & (H1 & _) & _).
    unfold us. pose proof (aden_pos q k). apply Z.div_le_lower_bound; [lia|]. nia.
  Qed.

  Lemma small_subnormal : (us q c < 100)%Z -> (2 < c)%Z -> (us q c < 99)%Z /\ 10 <= uL q c.
  Proof.
    intros Hs H2. pose proof us_ge_c as G. assert (Hc : (c < 100)%Z) by lia.
    assert (Eq : q = (-1074)%Z).
    { unfold sig in Hc. unfold expo. pose proof (Z.mod_pos_bound b (2 ^ 52) ltac:(lia)). destruct (Z.eqb_spec (b / 2 ^ 52) 0) as [E|E]; [rewrite E; reflexivity|lia]. }
    assert (Er : regular q c = true) by (unfold regular; rewrite Eq; apply orb_true_r).
    unfold us, uL, left_end, scale in *. rewrite Er, Eq in *.
    assert (Ek : flog10pow2 (-1074) = (-324)%Z) by reflexivity. rewrite Ek in *. set (cc := c) in *. clearbody cc.
    pose proof (aden_pos (-1074) (-324)) as PB.
    assert (A1 : (494 * aden (-1074) (-324) < 100 * anum (-1074) (-324) < 495 * aden (-1074) (-324))%Z) by (split; vm_compute; reflexivity).
    set (AA := anum (-1074) (-324)) in *. set (BB := aden (-1074) (-324)) in *.
    assert (cc <= 20)%Z.
    { destruct (Z_le_gt_dec cc 20) as [L|L]; [exact L|exfalso]. assert (100 <= cc * AA / BB)%Z; [|lia]. apply Z.div_le_lower_bound; [lia|]. nia. }
    split.
    - apply Z.div_lt_upper_bound; [lia|]. nia.
    - assert (La : 494 # 100 <= alpha (-1074) (-324)) by (vm_compute; discriminate).
      assert (Lc : inject_Z 10 <= inject_Z (4 * cc - 2)) by (apply inject_le; lia). change (inject_Z 10) with 10 in Lc.
      set (u := inject_Z (4 * cc - 2)) in *. set (a := alpha (-1074) (-324)) in *. clearbody u a.
      assert (10 * a <= u * a) by (apply Qmult_le_compat_r; lra). lra.
  Qed.

  Lemma general_right : (2 < c)%Z -> exists f e, toDecimal4 q c 0 = Ok (f, e) /\ right_decimal b f e.
  Proof.
    intros H2. destruct sig_expo_range as [Hq Hc]. destruct (u_order q c Hq Hc) as (O1 & O2 & O3). destruct (u_floor q c) as [F1 F2].
    pose proof us_ge_c as Gs. assert (Eb : Z.even b = Z.even c) by (symmetry; apply sig_even).
    destruct (ideal_cases q c Hq Hc 0) as (f & [(E & Hs & j & Hj & -> & I)|(E & C & N)]).
    - exists (10 * j)%Z, k. split; [rewrite toDecimal4_ideal, E by lia; reflexivity|]. apply (tens_right b k (us q c) (uX q c) (uL q c) (uR q c) Hb value_units ends_units (u_floor q c)); [exact O3|exact Hs|exact Hj|rewrite Eb; exact I].
    - exists f, k. split; [rewrite toDecimal4_ideal, E by lia; rewrite Z.add_0_r; reflexivity|].
      assert (Pf : (0 < f)%Z) by (destruct (chosen_is _ _ _ _ _ _ C); lia).
      destruct (Z_lt_ge_dec (us q c) 100) as [Hs|Hs].
      + destruct (small_subnormal Hs H2) as [H99 HL]. assert (H0 : (0 < us q c < 99)%Z) by lia. apply (chosen_right b k (us q c) (uX q c) (uL q c) (uR q c) Hb value_units ends_units (u_floor q c) f Pf); rewrite Eb; [exact C| |].
        * intros f' e' n Hf I. apply (small_digits _ _ _ _ _ H0 f C). lia.
        * intros y Iy T. apply (small_integer _ _ _ _ _ H0 HL f C y Iy T).
      + destruct N as [N|N]; [lia|]. assert (H100 : (100 <= us q c)%Z) by lia. apply (chosen_right b k (us q c) (uX q c) (uL q c) (uR q c) Hb value_units ends_units (u_floor q c) f Pf); rewrite Eb; [exact C| |].
        * intros f' e' n Hf I. apply (no_tens_short _ _ _ _ _ H100 N f C f' e' n Hf I).
        * intros y Iy T. apply (no_tens_integer _ _ _ _ _ H100 N f C y Iy T).
  Qed.
End Double.

(** ** the two smallest doubles *)

Lemma tiny_right b d s : (0 < b < inf_bits)%Z -> (0 < s < 99)%Z ->
  (let u := 10 ^ 325 in
   inject_Z s <= dval b * u < inject_Z (s + 1) /\ 10 <= (dval b + dval (b - 1)) / 2 * u /\
   chosen (dval b * u) ((dval b + dval (b - 1)) / 2 * u) ((dval b + dval (b + 1)) / 2 * u) (Z.even b) s d) ->
  right_decimal b d (-325).
Proof.
  intros Hb Hs (Hf & HL & C). cbv zeta in *.
  assert (U : forall x, x == x * 10 ^ 325 * 10 ^ (-325)).
  { intros x. rewrite <- Qmult_assoc. rewrite <- Qpower_plus by discriminate. change (325 + -325)%Z with 0%Z. change (10 ^ 0) with 1. ring. }
  assert (Pd : (0 < d)%Z) by (destruct (chosen_is _ _ _ _ _ _ C); lia).
  apply (chosen_right b (-325) s _ _ _ Hb (U _) (conj (U _) (U _)) Hf d Pd C).
  - intros f e n Hn I. apply (small_digits _ _ _ _ _ Hs d C). lia.
  - intros y Iy T. apply (small_integer _ _ _ _ _ Hs HL d C y Iy T).
Qed.

Ltac qcompute := vm_compute; first [reflexivity | discriminate].

Lemma tiny_1 : right_decimal 1 49 (-325).
Proof.
  apply (tiny_right 1 49 49); [unfold inf_bits; lia|lia|]. cbv zeta. split; [split; qcompute|]. split; [qcompute|].
  unfold chosen, inR, between. change (Z.even 1) with false. cbn iota. split; [split; qcompute|].
  left. split; [reflexivity|]. intros _. split; [qcompute|]. intros E. exfalso. vm_compute in E. discriminate.
Qed.

Lemma tiny_2 : right_decimal 2 99 (-325).
Proof.
  apply (tiny_right 2 99 98); [unfold inf_bits; lia|lia|]. cbv zeta. split; [split; qcompute|]. split; [qcompute|].
  unfold chosen, inR, between. change (Z.even 2) with true. cbn iota. split; [split; qcompute|].
  right. split; [reflexivity|]. intros _. split; [qcompute|]. intros E. exfalso. vm_compute in E. discriminate.
Qed.

(** ** integral values *)

Lemma integer_right b f : (0 < b < inf_bits)%Z -> (-53 < expo b < 0)%Z -> (0 < f)%Z -> dval b == inject_Z f -> right_decimal b f 0.
Proof.
  intros Hb He Hf Ev.
  assert (Hh : 2 ^ expo b <= 1 # 2).
  { apply Qle_trans with (2 ^ (-1)); [apply Qpower_le_compat_l; [lia|discriminate]|]. discriminate. }
  pose proof (two_pos (expo b)) as P2.
  assert (P2' : 2 ^ (expo b - 1) <= 2 ^ expo b) by (apply Qpower_le_compat_l; [lia|discriminate]). pose proof (two_pos (expo b - 1)) as P3.
  assert (E2 : forall u v, (u + v) / 2 == (u + v) * (1 # 2)) by (intros; reflexivity).
  assert (Hn : forall y, rounds_to y b -> inject_Z f - (1 # 4) <= y <= inject_Z f + (1 # 4)).
  { intros y Ry. rewrite rounds_to_iff in Ry by exact Hb.
    assert (Rb : (dval b + dval (b - 1)) / 2 <= y <= (dval b + dval (b + 1)) / 2).
    { unfold between in Ry. destruct (Z.even b); [exact Ry|]. destruct Ry. split; apply Qlt_le_weak; assumption. }
    rewrite !E2, dval_succ in Rb by lia. destruct Rb as [R1 R2]. pose proof (dval_pred b ltac:(lia)) as Ep.
    destruct (_ && _)%bool in Ep; split; lra. }
  (* another decimal that reads the same has at least as many digits *)
  assert (Hd : forall f' e', (0 < f')%Z -> rounds_to (dec f' e') b -> ~ dec f' e' == inject_Z f -> (f <= f')%Z).
  { intros f' e' Hf' Ry N. specialize (Hn _ Ry) as [N1 N2].
    destruct (Z_lt_ge_dec e' 0) as [Ge|Ge].
    - assert (G : dec f' e' <= inject_Z f' * (1 # 10)).
      { unfold dec. rewrite !(Qmult_comm (inject_Z f')). apply Qmult_le_compat_r; [|apply (inject_le 0); lia].
        change (1 # 10) with (10 ^ (-1)). apply Qpower_le_compat_l; [lia|discriminate]. }
      assert (H1 : inject_Z 1 <= inject_Z f) by (apply inject_le; lia). change (inject_Z 1) with 1 in H1.
      apply inject_le_inv. lra.
    - exfalso. apply N. rewrite dec_int in * by lia. assert (E : (f' * 10 ^ e' = f)%Z); [|rewrite E; reflexivity].
      assert (B1 : inject_Z (f - 1) < inject_Z (f' * 10 ^ e')) by (rewrite inject_sub; change (inject_Z 1) with 1; lra).
      assert (B2 : inject_Z (f' * 10 ^ e') < inject_Z (f + 1)) by (rewrite inject_Z_plus; change (inject_Z 1) with 1; lra).
      apply inject_lt_inv in B1. apply inject_lt_inv in B2. lia. }
  assert (E0 : dec f 0 == dval b) by (rewrite Ev; apply dec_0).
  split; [exact Hf|]. split; [|split].
  - apply rounds_to_iff; [exact Hb|]. pose proof (dval_lt (b - 1) b ltac:(lia)). pose proof (dval_lt b (b + 1) ltac:(lia)).
    unfold between. destruct (Z.even b); rewrite !E2, E0; split; lra.
  - intros f' e' n Hf' Ry. destruct (Qeq_dec (dec f' e') (inject_Z f)) as [E|E].
    + exists f', e'. split; [|rewrite dec_0; symmetry; exact E]. split; [lia|].
      apply Z.lt_le_trans with (10 ^ n)%Z; [lia|apply Z.pow_le_mono_r; lia].
    + exists f, 0%Z. split; [|reflexivity]. specialize (Hd f' e' ltac:(lia) Ry E). split; [lia|].
      apply Z.lt_le_trans with (10 ^ n)%Z; [lia|apply Z.pow_le_mono_r; lia].
  - intros f' e' Hf' Ry _. destruct (Qeq_dec (dec f 0) (dec f' e')) as [E|E]; [left; exact E|right; left].
    setoid_replace (dec f 0 - dval b) with 0 by (rewrite E0; ring). change (Qabs 0) with 0.
    rewrite E0 in E. apply (Qabs_case (dec f' e' - dval b)); intros S; apply Qle_lteq in S as [S|S]; try lra; exfalso; apply E; lra.
Qed.

(** ** toDecimal *)

Lemma land_TMASK x : Z.land x T_MASK = (x mod 2 ^ 52)%Z.
Proof. change T_MASK with (2 ^ 52 - 1)%Z. apply land_mask. lia. Qed.

Lemma mod_mod_pow x : ((x mod 2 ^ 63) mod 2 ^ 52 = x mod 2 ^ 52)%Z.
Proof.
  rewrite (Z.div_mod x (2 ^ 63)) at 2 by lia. rewrite Z.add_comm.
  replace (2 ^ 63 * (x / 2 ^ 63))%Z with (2 ^ 11 * (x / 2 ^ 63) * 2 ^ 52)%Z by lia. rewrite Z.mod_add by lia. reflexivity.
Qed.

Lemma exponent_field bits : Z.land (wrap32 (lushr bits (P53 - 1))) BQ_MASK = ((bits mod 2 ^ 63) / 2 ^ 52)%Z.
Proof.
  change (P53 - 1)%Z with 52%Z. rewrite lushr_spec by lia. change BQ_MASK with (2 ^ 11 - 1)%Z. rewrite land_mask by lia.
  pose proof (Z.mod_pos_bound bits (2 ^ 64) ltac:(lia)) as M.
  assert (0 <= bits mod 2 ^ 64 / 2 ^ 52 < 2 ^ 12)%Z by (split; [apply Z.div_pos; lia|apply Z.div_lt_upper_bound; lia]).
  rewrite wrap32_small by lia.
  assert (E : (bits mod 2 ^ 63 = (bits mod 2 ^ 64) mod 2 ^ 63)%Z).
  { rewrite (Z.div_mod bits (2 ^ 64)) at 1 by lia. rewrite Z.add_comm.
    replace (2 ^ 64 * (bits / 2 ^ 64))%Z with (2 * (bits / 2 ^ 64) * 2 ^ 63)%Z by lia. rewrite Z.mod_add by lia. reflexivity. }
  rewrite E. set (u := (bits mod 2 ^ 64)%Z) in *. clearbody u.
  pose proof (Z.div_mod u (2 ^ 63) ltac:(lia)). pose proof (Z.mod_pos_bound u (2 ^ 63) ltac:(lia)).
  pose proof (Z.div_mod (u mod 2 ^ 63) (2 ^ 52) ltac:(lia)). pose proof (Z.mod_pos_bound (u mod 2 ^ 63) (2 ^ 52) ltac:(lia)).
  set (hi := (u / 2 ^ 63)%Z) in *. set (lo := (u mod 2 ^ 63)%Z) in *. set (e := (lo / 2 ^ 52)%Z) in *. set (m := (lo mod 2 ^ 52)%Z) in *.
  assert (Eu : (u / 2 ^ 52 = 2 ^ 11 * hi + e)%Z) by (symmetry; apply (Z.div_unique_pos _ _ _ m); lia).
  rewrite Eu. rewrite Z.add_comm, Z.mul_comm, Z.mod_add by lia. apply Z.mod_small. lia.
Qed.

Lemma lor_CMIN t : (0 <= t < 2 ^ 52)%Z -> Z.lor C_MIN t = (2 ^ 52 + t)%Z.
Proof.
  intros H. change C_MIN with (2 ^ 52)%Z. symmetry. rewrite <- Z.lxor_lor, Z.add_nocarry_lxor; auto.
  all: apply Z.bits_inj'; intros n Hn; rewrite Z.land_spec, Z.bits_0, Z.pow2_bits_eqb by lia;
    destruct (Z.eqb_spec 52 n) as [<-|N]; [|reflexivity]; cbn [andb];
    rewrite Z.testbit_eqb by lia; rewrite Z.div_small by lia; reflexivity.
Qed.

Theorem toDecimal_right bits : is_long bits -> let b := (bits mod 2 ^ 63)%Z in (0 < b < inf_bits)%Z ->
  exists f e, toDecimal bits = Ok (NonSpecial (bits <? 0)%Z f e) /\ right_decimal b f e.
Proof.
  intros Hl b Hb. unfold toDecimal. cbv zeta. rewrite land_TMASK, exponent_field. fold b. rewrite <- (mod_mod_pow bits). fold b.
  destruct (sig_expo_range b Hb) as [Hq Hc].
  pose proof (Z.div_mod b (2 ^ 52) ltac:(lia)) as D. pose proof (Z.mod_pos_bound b (2 ^ 52) ltac:(lia)) as M.
  pose proof (general_right b Hb) as G. pose proof (integer_right b) as Int. pose proof (dval_sig b ltac:(lia)) as Dv.
  unfold sig, expo in *.
  set (bq := (b / 2 ^ 52)%Z) in *. set (t := (b mod 2 ^ 52)%Z) in *.
  assert (Bq : (0 <= bq < 2047)%Z) by (unfold inf_bits in Hb; lia).
  replace (bq <? BQ_MASK)%Z with true by (symmetry; apply Z.ltb_lt; exact (proj2 Bq)).
  change (- Q_MIN + 1 - bq)%Z with (1075 - bq)%Z.
  destruct (Z.eqb_spec bq 0) as [E0|E0]; cbn [negb].
  - destruct (Z.eqb_spec t 0) as [Et|Et]; [lia|]. cbn [negb]. destruct (t <? C_TINY)%Z eqn:T3.
    + apply Z.ltb_lt in T3. unfold C_TINY in T3. assert (Eb : b = 1%Z \/ b = 2%Z) by lia.
      destruct Eb as [Eb|Eb]; (replace t with b by lia); rewrite Eb.
      * exists 49%Z, (-325)%Z. split; [|exact tiny_1]. replace (toDecimal4 Q_MIN (wrap64 (10 * 1)) (-1)) with (Ok (49%Z, (-325)%Z)) by (vm_compute; reflexivity). reflexivity.
      * exists 99%Z, (-325)%Z. split; [|exact tiny_2]. replace (toDecimal4 Q_MIN (wrap64 (10 * 2)) (-1)) with (Ok (99%Z, (-325)%Z)) by (vm_compute; reflexivity). reflexivity.
    + apply Z.ltb_ge in T3. unfold C_TINY in T3. rewrite E0 in G. change (Z.max 1 0 - 1075)%Z with Q_MIN in G.
      destruct (G ltac:(lia)) as (f & e & E & Rd). exists f, e. split; [rewrite E; reflexivity|exact Rd].
  - rewrite (Z.max_r 1 bq) in * by lia. rewrite lor_CMIN by exact M.
    rewrite (wrap32_small (1075 - bq)) by lia. rewrite (wrap32_small (- (1075 - bq))) by lia. replace (- (1075 - bq))%Z with (bq - 1075)%Z by lia.
    assert (Slow : exists f e, (let* fe := toDecimal4 (bq - 1075) (2 ^ 52 + t) 0 in Ok (NonSpecial (bits <? 0)%Z (fst fe) (snd fe))) = Ok (NonSpecial (bits <? 0)%Z f e) /\ right_decimal b f e).
    { destruct (G ltac:(lia)) as (f & e & E & Rd). exists f, e. split; [rewrite E; reflexivity|exact Rd]. }
    destruct ((0 <? 1075 - bq)%Z && (1075 - bq <? P53)%Z)%bool eqn:F; [|exact Slow].
    apply andb_prop in F as [F1 F2]. apply Z.ltb_lt in F1, F2. unfold P53 in F2.
    rewrite lshr_spec by lia. set (mq := (1075 - bq)%Z) in *. set (f := ((2 ^ 52 + t) / 2 ^ mq)%Z).
    assert (Pm : (1 <= 2 ^ mq)%Z) by (change 1%Z with (2 ^ 0)%Z; apply Z.pow_le_mono_r; lia).
    assert (Ff : (1 <= f)%Z) by (apply Z.div_le_lower_bound; [lia|]; rewrite Z.mul_1_r; apply Z.le_trans with (2 ^ 52)%Z; [apply Z.pow_le_mono_r; lia|lia]).
    assert (Fm : (f * 2 ^ mq <= 2 ^ 52 + t)%Z) by (unfold f; rewrite Z.mul_comm; apply Z.mul_div_le; lia).
    rewrite lshl_small by nia. destruct (Z.eqb_spec (f * 2 ^ mq) (2 ^ 52 + t)) as [Ef|Ef]; [|exact Slow].
    exists f, 0%Z. split; [reflexivity|]. apply Int; [exact Hb|lia|lia|].
    rewrite Dv, <- Ef, inject_Z_mult, Zpower_Qpower by lia. change (inject_Z 2) with 2.
    rewrite <- Qmult_assoc, <- Qpower_plus by discriminate. replace (mq + (bq - 1075))%Z with 0%Z by lia. change (2 ^ 0) with 1. ring.
Qed.
