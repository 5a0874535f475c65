(** The candidates 10*floor(s/10), 10*floor(s/10)+10, s, s+1 of the conversion: which of them is the shortest and closest decimal.
    Lengths are measured in units of 10^k; [X] is the value, [L], [R] the ends of its rounding interval. *)
From Coq Require Import QArith Qabs Qpower Lqa.
From Verif Require Import Base DecSpec RoundP.
Open Scope Q_scope.

Lemma inject_le a b : (a <= b)%Z -> inject_Z a <= inject_Z b.
Proof. rewrite Zle_Qle. auto. Qed.
Lemma inject_lt a b : (a < b)%Z -> inject_Z a < inject_Z b.
Proof. rewrite Zlt_Qlt. auto. Qed.
Lemma inject_le_inv a b : inject_Z a <= inject_Z b -> (a <= b)%Z.
Proof. rewrite Zle_Qle. auto. Qed.
Lemma inject_lt_inv a b : inject_Z a < inject_Z b -> (a < b)%Z.
Proof. rewrite Zlt_Qlt. auto. Qed.

Lemma inject_sub a b : inject_Z (a - b) == inject_Z a - inject_Z b.
Proof. unfold Z.sub. rewrite inject_Z_plus, inject_Z_opp. reflexivity. Qed.

Lemma dec_int f e : (0 <= e)%Z -> dec f e == inject_Z (f * 10 ^ e).
Proof. intros H. unfold dec. rewrite inject_Z_mult, Zpower_Qpower by exact H. reflexivity. Qed.

Lemma dec_shift f e k : dec f (e + k) == dec f e * 10 ^ k.
Proof. unfold dec. rewrite Qpower_plus by discriminate. ring. Qed.

Lemma dec_pos f e : (0 < f)%Z -> 0 < dec f e.
Proof. intros H. unfold dec. apply Qmult_lt_0_compat; [apply (inject_lt 0 f H)|apply ten_pos]. Qed.

Lemma pow_nonneg_of f n : (0 < f < 10 ^ n)%Z -> (0 <= n)%Z.
Proof. intros H. destruct (Z_lt_ge_dec n 0) as [L|G]; [|lia]. rewrite Z.pow_neg_r in H by lia. lia. Qed.

(** few digits but large: the exponent is large *)
Lemma dec_exp_bound f e n m : (0 < f < 10 ^ n)%Z -> (0 <= m)%Z -> inject_Z (10 ^ m) <= dec f e -> (m - n < e)%Z.
Proof.
  intros Hf Hm H. pose proof (pow_nonneg_of f n Hf) as Hn.
  destruct (Z_lt_ge_dec (m - n) e) as [G|G]; [exact G|exfalso].
  assert (L : dec f e < inject_Z (10 ^ n) * 10 ^ e) by (unfold dec; apply Qmult_lt_compat_r; [apply ten_pos|apply inject_lt; lia]).
  assert (E : inject_Z (10 ^ n) * 10 ^ e == 10 ^ (n + e)) by (rewrite Zpower_Qpower by exact Hn; rewrite Qpower_plus by discriminate; reflexivity).
  assert (M : 10 ^ (n + e) <= 10 ^ m) by (apply Qpower_le_compat_l; [lia|discriminate]).
  rewrite Zpower_Qpower in H by exact Hm. rewrite E in L. change (inject_Z 10) with 10 in H. lra.
Qed.

Lemma pow10_bracket j : (0 < j)%Z -> exists n, (0 <= n /\ 10 ^ n <= j < 10 ^ (n + 1))%Z.
Proof.
  intros H. assert (H0 : (0 <= j)%Z) by lia. revert H. apply (Zlt_0_ind (fun j => (0 < j)%Z -> exists n, (0 <= n /\ 10 ^ n <= j < 10 ^ (n + 1))%Z)); [|exact H0].
  clear j H0. intros j IH _ Hp. destruct (Z_lt_ge_dec j 10) as [L|G].
  - exists 0%Z. change (10 ^ 0)%Z with 1%Z. change (10 ^ (0 + 1))%Z with 10%Z. destruct (Z.eq_dec j 0); lia.
  - pose proof (Z.div_mod j 10 ltac:(lia)). pose proof (Z.mod_pos_bound j 10 ltac:(lia)).
    destruct (IH (j / 10)%Z ltac:(lia) ltac:(lia)) as (n & Hn & B). exists (n + 1)%Z. split; [lia|].
    rewrite (Z.pow_add_r 10 (n + 1) 1), (Z.pow_add_r 10 n 1) in * by lia. lia.
Qed.

Section Interval.
  Variables X L R : Q.
  Variable closed : bool.
  Definition inR (y : Q) : Prop := between closed L R y.
  Hypothesis HL : L < X.
  Hypothesis HR : X < R.
  Hypothesis HW : R - L < 10.

  Lemma inR_bounds y : inR y -> L <= y <= R.
  Proof. unfold inR, between. destruct closed; intros [H1 H2]; split; lra. Qed.
  Lemma inR_convex a b y : inR a -> inR b -> a <= y -> y <= b -> inR y.
  Proof. unfold inR, between. destruct closed; intros [H1 H2] [H3 H4]; split; lra. Qed.
  Lemma inR_eq a b : a == b -> inR a -> inR b.
  Proof. unfold inR, between. intros E. destruct closed; intros [H1 H2]; split; lra. Qed.
  Lemma inR_X : inR X.
  Proof. unfold inR, between. destruct closed; split; lra. Qed.

  Lemma tens_unique i j : inR (inject_Z (10 * i)) -> inR (inject_Z (10 * j)) -> i = j.
  Proof.
    intros Hi Hj. apply inR_bounds in Hi. apply inR_bounds in Hj.
    rewrite inject_Z_mult in Hi, Hj. change (inject_Z 10) with 10 in *.
    assert (A : inject_Z i < inject_Z j + 1) by lra. assert (B : inject_Z j < inject_Z i + 1) by lra.
    change 1 with (inject_Z 1) in A, B. rewrite <- inject_Z_plus in A, B. apply inject_lt_inv in A, B. lia.
  Qed.

  (** the decimals of the right length *)
  Definition minimal (y : Q) : Prop := forall f e n, (0 < f < 10 ^ n)%Z -> inR (dec f e) -> digits_le y (Z.max 2 n).

  Lemma dec_0 j : dec j 0 == inject_Z j.
  Proof. rewrite dec_int by lia. rewrite Z.pow_0_r, Z.mul_1_r. reflexivity. Qed.

  Lemma power_digits m n : (0 <= m)%Z -> (1 <= n)%Z -> digits_le (inject_Z (10 ^ m)) n.
  Proof.
    intros Hm Hn. exists 1%Z, m. split; [split; [lia|apply Z.pow_gt_1; lia]|]. rewrite dec_int by lia. rewrite Z.mul_1_l. reflexivity.
  Qed.

  (** a decimal of [N] digits at least 10^N is a multiple of ten *)
  Lemma multiple_of_ten f e N M : (0 < f < 10 ^ N)%Z -> (0 <= M)%Z -> (N <= M)%Z -> inject_Z (10 ^ M) <= dec f e -> exists i, dec f e == inject_Z (10 * i).
  Proof.
    intros Hf HM HN H. pose proof (dec_exp_bound f e N M Hf HM H) as He. exists (f * 10 ^ (e - 1))%Z. rewrite dec_int by lia.
    replace (f * 10 ^ e)%Z with (10 * (f * 10 ^ (e - 1)))%Z; [reflexivity|].
    replace e with (1 + (e - 1))%Z at 2 by lia. rewrite Z.pow_add_r by lia. change (10 ^ 1)%Z with 10%Z. ring.
  Qed.

  (** ** a multiple of ten lies in the interval *)
  Section Tens.
    Variable j : Z.
    Hypothesis Hj : (10 <= j)%Z.
    Hypothesis Ij : inR (inject_Z (10 * j)).

    Lemma tens_below n y : (0 <= n)%Z -> (10 ^ n <= j < 10 ^ (n + 1))%Z -> inR y -> y < inject_Z (10 ^ (n + 1)) ->
      (10 * j = 10 ^ (n + 1))%Z.
    Proof.
      intros Hn B Iy Ly. assert (E : (10 ^ (n + 1) = 10 * 10 ^ n)%Z) by (rewrite Z.pow_add_r by lia; lia).
      assert (I : inR (inject_Z (10 * 10 ^ n))).
      { apply inR_convex with y (inject_Z (10 * j)); auto; [rewrite <- E; lra|apply inject_le; lia]. }
      rewrite (tens_unique _ _ Ij I), E. reflexivity.
    Qed.

    Lemma tens_short f e N : (0 < f < 10 ^ N)%Z -> inR (dec f e) -> digits_le (inject_Z (10 * j)) (Z.max 2 N).
    Proof.
      intros Hf I. destruct (pow10_bracket j ltac:(lia)) as (n & Hn & B).
      destruct (Z_le_gt_dec (n + 1) (Z.max 2 N)) as [G|G].
      { exists j, 1%Z. split.
        - split; [lia|]. apply Z.lt_le_trans with (10 ^ (n + 1))%Z; [lia|apply Z.pow_le_mono_r; lia].
        - rewrite dec_int by lia. rewrite Z.pow_1_r, Z.mul_comm. reflexivity. }
      destruct (Qlt_le_dec (dec f e) (inject_Z (10 ^ (n + 1)))) as [Ly|Ly].
      - rewrite (tens_below n (dec f e) Hn B I Ly). apply power_digits; lia.
      - pose proof (pow_nonneg_of f N Hf).
        assert (De : (n + 1 - N < e)%Z) by (apply (dec_exp_bound f); auto; lia).
        exists f, e. split; [split; [lia|apply Z.lt_le_trans with (10 ^ N)%Z; [lia|apply Z.pow_le_mono_r; lia]]|].
        destruct (multiple_of_ten f e N (n + 1)%Z Hf ltac:(lia) ltac:(lia) Ly) as (i & Ei). rewrite Ei.
        rewrite (tens_unique j i Ij (inR_eq _ _ Ei I)). reflexivity.
    Qed.

    Lemma tens_close y : inject_Z 100 <= X -> inR y -> minimal y ->
      y == inject_Z (10 * j) \/ Qabs (inject_Z (10 * j) - X) < Qabs (y - X).
    Proof.
      intros HX I T. destruct (pow10_bracket j ltac:(lia)) as (n & Hn & B).
      assert (N1 : (1 <= n)%Z).
      { destruct (Z.eq_dec n 0) as [->|]; [|lia]. change (10 ^ (0 + 1))%Z with 10%Z in B. lia. }
      destruct (T j 1%Z (n + 1)%Z ltac:(lia)) as (f & e & Hf & Ey).
      { apply inR_eq with (inject_Z (10 * j)); [|exact Ij]. rewrite dec_int by lia. rewrite Z.pow_1_r, Z.mul_comm. reflexivity. }
      replace (Z.max 2 (n + 1)) with (n + 1)%Z in Hf by lia.
      destruct (Qlt_le_dec y (inject_Z (10 ^ (n + 1)))) as [Ly|Ly].
      - pose proof (tens_below n y Hn B I Ly) as Ej.
        destruct (T 1%Z (n + 1)%Z 1%Z ltac:(lia)) as (g & e' & Hg & Ey').
        { apply inR_eq with (inject_Z (10 * j)); [|exact Ij]. rewrite dec_int, Ej by lia. rewrite Z.mul_1_l. reflexivity. }
        change (Z.max 2 1) with 2%Z in Hg. change (10 ^ 2)%Z with 100%Z in Hg.
        apply inR_bounds in I as [I1 I2]. pose proof (inR_bounds _ Ij) as [J1 J2].
        assert (Ly2 : inject_Z (10 ^ (n + 1)) - 10 < y) by (rewrite Ej in *; lra).
        destruct (Z.eq_dec n 1) as [E1|E1].
        + (* d = 100, y < 100 <= X *)
          right. rewrite Ej. subst n. change (10 ^ (1 + 1))%Z with 100%Z in *.
          assert (Lh : y < inject_Z 100) by exact Ly.
          apply (Qabs_case (inject_Z 100 - X)); apply (Qabs_case (y - X)); intros; lra.
        + exfalso. assert (P : (10 <= 10 ^ (n - 1))%Z) by (replace 10%Z with (10 ^ 1)%Z at 1 by reflexivity; apply Z.pow_le_mono_r; lia).
          assert (E2 : (10 ^ (n + 1) = 100 * 10 ^ (n - 1))%Z) by (replace (n + 1)%Z with (2 + (n - 1))%Z by lia; rewrite Z.pow_add_r by lia; reflexivity).
          assert (Le : (e' < n)%Z).
          { destruct (Z_lt_ge_dec e' n) as [Q|Q]; [exact Q|exfalso].
            rewrite Ey' in Ly2, Ly. rewrite dec_int in Ly2, Ly by lia.
            apply inject_lt_inv in Ly. 
            assert (Ly3 : inject_Z (10 ^ (n + 1) - 10) < inject_Z (g * 10 ^ e')) by (rewrite inject_sub; change (inject_Z 10) with 10; lra).
            apply inject_lt_inv in Ly3.
            assert (E3 : (g * 10 ^ e' = (g * 10 ^ (e' - n)) * (10 * 10 ^ (n - 1)))%Z).
            { replace e' with ((e' - n) + (1 + (n - 1)))%Z at 1 by lia. rewrite !Z.pow_add_r by lia. change (10 ^ 1)%Z with 10%Z. ring. }
            rewrite E3 in Ly, Ly3. rewrite E2 in Ly, Ly3. nia. }
          assert (U : y <= inject_Z (99 * 10 ^ (n - 1))).
          { rewrite Ey'. unfold dec. rewrite inject_Z_mult, Zpower_Qpower by lia. change (inject_Z 10) with 10.
            apply Qle_trans with (inject_Z 99 * 10 ^ e').
            - apply Qmult_le_compat_r; [apply inject_le; lia|apply Qlt_le_weak, ten_pos].
            - assert (10 ^ e' <= 10 ^ (n - 1)) by (apply Qpower_le_compat_l; [lia|discriminate]). change (inject_Z 99) with 99. lra. }
          assert (V : inject_Z (10 ^ (n + 1) - 10) < inject_Z (99 * 10 ^ (n - 1))) by (rewrite inject_sub; change (inject_Z 10) with 10; lra).
          apply inject_lt_inv in V. lia.
      - left. rewrite Ey in Ly.
        destruct (multiple_of_ten f e (n + 1)%Z (n + 1)%Z Hf ltac:(lia) ltac:(lia) Ly) as (i & Ei).
        rewrite Ey, Ei. assert (Ii : inR (inject_Z (10 * i))) by (apply inR_eq with y; [rewrite Ey; exact Ei|exact I]).
        rewrite (tens_unique j i Ij Ii). reflexivity.
    Qed.
  End Tens.

  (** ** integers only *)
  Variable s : Z.
  Hypothesis Hs : inject_Z s <= X < inject_Z (s + 1).

  (** the nearest integer, ties to even; if only one of the two neighbours is in the interval, that one *)
  Definition chosen (d : Z) : Prop :=
    inR (inject_Z d) /\
    ((d = s /\ (inR (inject_Z (s + 1)) -> 2 * X <= inject_Z (2 * s + 1) /\ (2 * X == inject_Z (2 * s + 1) -> Z.even s = true))) \/
     (d = (s + 1)%Z /\ (inR (inject_Z s) -> inject_Z (2 * s + 1) <= 2 * X /\ (2 * X == inject_Z (2 * s + 1) -> Z.even s = false)))).

  Lemma chosen_close d m : chosen d -> inR (inject_Z m) ->
    m = d \/ Qabs (inject_Z d - X) < Qabs (inject_Z m - X) \/
    (Qabs (inject_Z d - X) == Qabs (inject_Z m - X) /\ Z.even d = true /\ (m = d + 1 \/ m = d - 1)%Z).
  Proof.
    intros [Id C] Im. destruct Hs as [S1 S2]. rewrite inject_Z_plus in S2. change (inject_Z 1) with 1 in S2.
    assert (Em : (m <= s - 1 \/ m = s \/ m = s + 1 \/ s + 2 <= m)%Z) by lia.
    assert (E2 : inject_Z (2 * s + 1) == 2 * inject_Z s + 1) by (rewrite inject_Z_plus, inject_Z_mult; reflexivity).
    assert (E1 : inject_Z (s + 1) == inject_Z s + 1) by (rewrite inject_Z_plus; reflexivity).
    destruct C as [[-> C]|[-> C]].
    - destruct Em as [Em|[Em|[Em|Em]]]; [|left; exact Em| |].
      + right. left. apply inject_le in Em. rewrite inject_sub in Em. change (inject_Z 1) with 1 in Em.
        apply (Qabs_case (inject_Z s - X)); apply (Qabs_case (inject_Z m - X)); intros; lra.
      + right. subst m. destruct (C Im) as [C1 C2]. rewrite E2 in C1, C2.
        destruct (Qlt_le_dec (2 * X) (2 * inject_Z s + 1)) as [Q|Q].
        * left. apply (Qabs_case (inject_Z s - X)); apply (Qabs_case (inject_Z (s + 1) - X)); rewrite ?E1; intros; lra.
        * right. split; [|split; [apply C2; lra|left; reflexivity]].
          apply (Qabs_case (inject_Z s - X)); apply (Qabs_case (inject_Z (s + 1) - X)); rewrite ?E1; intros; lra.
      + right. left. apply inject_le in Em. rewrite inject_Z_plus in Em. change (inject_Z 2) with 2 in Em.
        assert (I1 : inR (inject_Z (s + 1))) by (apply inR_convex with (inject_Z s) (inject_Z m); auto; rewrite E1; lra).
        destruct (C I1) as [C1 _]. rewrite E2 in C1.
        apply (Qabs_case (inject_Z s - X)); apply (Qabs_case (inject_Z m - X)); intros; lra.
    - destruct Em as [Em|[Em|[Em|Em]]]; [| |left; exact Em|].
      + right. left. apply inject_le in Em. rewrite inject_sub in Em. change (inject_Z 1) with 1 in Em.
        assert (I1 : inR (inject_Z s)) by (apply inR_convex with (inject_Z m) (inject_Z (s + 1)); auto; rewrite ?E1; lra).
        destruct (C I1) as [C1 _]. rewrite E2 in C1.
        apply (Qabs_case (inject_Z (s + 1) - X)); apply (Qabs_case (inject_Z m - X)); rewrite ?E1; intros; lra.
      + right. subst m. destruct (C Im) as [C1 C2]. rewrite E2 in C1, C2.
        destruct (Qlt_le_dec (2 * inject_Z s + 1) (2 * X)) as [Q|Q].
        * left. apply (Qabs_case (inject_Z (s + 1) - X)); apply (Qabs_case (inject_Z s - X)); rewrite ?E1; intros; lra.
        * right. split; [|split; [rewrite Z.even_add, C2 by lra; reflexivity|right; lia]].
          apply (Qabs_case (inject_Z (s + 1) - X)); apply (Qabs_case (inject_Z s - X)); rewrite ?E1; intros; lra.
      + right. left. apply inject_le in Em. rewrite inject_Z_plus in Em. change (inject_Z 2) with 2 in Em.
        apply (Qabs_case (inject_Z (s + 1) - X)); apply (Qabs_case (inject_Z m - X)); rewrite ?E1; intros; lra.
  Qed.

  Section NoTens.
    Hypothesis Hbig : (100 <= s)%Z.
    Hypothesis none : forall i, ~ inR (inject_Z (10 * i)).
    Variable d : Z.
    Hypothesis Hd : chosen d.

    Lemma chosen_is : d = s \/ d = (s + 1)%Z.
    Proof. destruct Hd as [_ [[E _]|[E _]]]; auto. Qed.

    Lemma no_tens_bracket : exists n, (2 <= n /\ 10 ^ n <= s < 10 ^ (n + 1) /\ 10 ^ n <= d < 10 ^ (n + 1))%Z.
    Proof.
      destruct (pow10_bracket s ltac:(lia)) as (n & Hn & B). exists n.
      assert (2 <= n)%Z.
      { destruct (Z_le_gt_dec 2 n) as [G|G]; [exact G|]. assert (10 ^ (n + 1) <= 10 ^ 2)%Z by (apply Z.pow_le_mono_r; lia). change (10 ^ 2)%Z with 100%Z in *. lia. }
      split; [lia|]. split; [exact B|]. destruct chosen_is as [-> | E]; [exact B|].
      destruct (Z.eq_dec d (10 ^ (n + 1))) as [Ed|Ed]; [|lia]. exfalso. apply (none (10 ^ n)).
      destruct Hd as [Id _]. rewrite Ed in Id. rewrite Z.pow_add_r in Id by lia. rewrite Z.pow_1_r, Z.mul_comm in Id. exact Id.
    Qed.

    (** everything in the interval has the magnitude of d *)
    Lemma no_tens_large n y : (2 <= n)%Z -> (10 ^ n <= d)%Z -> inR y -> inject_Z (10 ^ n) <= y.
    Proof.
      intros Hn B I. destruct (Qlt_le_dec y (inject_Z (10 ^ n))) as [Q|Q]; [|exact Q]. exfalso. apply (none (10 ^ (n - 1))).
      replace (10 * 10 ^ (n - 1))%Z with (10 ^ n)%Z by (replace n with (1 + (n - 1))%Z at 1 by lia; rewrite Z.pow_add_r by lia; reflexivity).
      apply inR_convex with y (inject_Z d); [exact I|apply Hd|lra|apply inject_le; exact B].
    Qed.

    Lemma no_tens_short f e N : (0 < f < 10 ^ N)%Z -> inR (dec f e) -> digits_le (inject_Z d) (Z.max 2 N).
    Proof.
      intros Hf I. destruct no_tens_bracket as (n & Hn & Bs & B). pose proof (no_tens_large n _ Hn ltac:(lia) I) as Ly.
      destruct (Z_le_gt_dec (n + 1) N) as [G|G].
      - exists d, 0%Z. split; [|rewrite dec_0; reflexivity]. split; [lia|]. apply Z.lt_le_trans with (10 ^ (n + 1))%Z; [lia|apply Z.pow_le_mono_r; lia].
      - exfalso. destruct (multiple_of_ten f e N n Hf ltac:(lia) ltac:(lia) Ly) as (i & Ei). apply (none i). apply inR_eq with (dec f e); assumption.
    Qed.

    Lemma no_tens_integer y : inR y -> minimal y -> exists m, y == inject_Z m.
    Proof.
      intros I T. destruct no_tens_bracket as (n & Hn & Bs & B). pose proof (no_tens_large n _ Hn ltac:(lia) I) as Ly.
      destruct (T d 0%Z (n + 1)%Z ltac:(lia)) as (f & e & Hf & Ey).
      { apply inR_eq with (inject_Z d); [rewrite dec_0; reflexivity|apply Hd]. }
      replace (Z.max 2 (n + 1)) with (n + 1)%Z in Hf by lia. rewrite Ey in Ly.
      pose proof (dec_exp_bound f e (n + 1) n Hf ltac:(lia) Ly). exists (f * 10 ^ e)%Z. rewrite Ey. apply dec_int. lia.
    Qed.
  End NoTens.

  Section Small.
    Hypothesis Hsmall : (0 < s < 99)%Z.
    Hypothesis HL10 : 10 <= L.
    Variable d : Z.
    Hypothesis Hd : chosen d.

    Lemma small_digits n : (2 <= n)%Z -> digits_le (inject_Z d) n.
    Proof.
      intros Hn. exists d, 0%Z. split; [|rewrite dec_0; reflexivity].
      assert (0 < d < 10 ^ 2)%Z by (change (10 ^ 2)%Z with 100%Z; destruct (chosen_is d Hd) as [-> | ->]; lia).
      split; [lia|]. apply Z.lt_le_trans with (10 ^ 2)%Z; [lia|apply Z.pow_le_mono_r; lia].
    Qed.

    Lemma small_integer y : inR y -> minimal y -> exists m, y == inject_Z m.
    Proof.
      intros I T. destruct (T d 0%Z 2%Z) as (f & e & Hf & Ey).
      { destruct (chosen_is d Hd) as [-> | ->]; change (10 ^ 2)%Z with 100%Z; lia. }
      { apply inR_eq with (inject_Z d); [rewrite dec_0; reflexivity|apply Hd]. }
      change (Z.max 2 2) with 2%Z in Hf. apply inR_bounds in I as [I1 I2].
      assert (Ly : inject_Z (10 ^ 1) <= dec f e) by (change (inject_Z (10 ^ 1)) with 10; rewrite <- Ey; lra).
      pose proof (dec_exp_bound f e 2 1 Hf ltac:(lia) Ly). exists (f * 10 ^ e)%Z. rewrite Ey. apply dec_int. lia.
    Qed.
  End Small.
End Interval.
