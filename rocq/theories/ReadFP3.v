(** Decimals of few digits survive the way through a double; rounding and reading are monotone. *)
From Coq Require Import QArith Qabs Qpower Lqa.
From Verif Require Import Base Digits ContextM CompilerM GrammarSpec FmtSpec FmtP DecSpec RoundP FloatSpec FPDecP FloatP CastP NearP FloatQ PropsDouble PropsFloat ReadFSpec ReadFP ReadFP2.
Open Scope Q_scope.

Lemma rounds_near x b : (0 < b < inf_bits)%Z -> rounds_to x b -> dval b - 2 ^ expo b * (1 # 2) <= x <= dval b + 2 ^ expo b * (1 # 2).
Proof.
  intros Hb R. apply rounds_to_iff in R; [|exact Hb].
  assert (I' : (dval b + dval (b - 1)) / 2 <= x <= (dval b + dval (b + 1)) / 2).
  { unfold between in R. destruct (Z.even b); [exact R|]. destruct R. split; apply Qlt_le_weak; assumption. }
  assert (E : forall u v, (u + v) / 2 == (u + v) * (1 # 2)) by (intros; reflexivity). rewrite !E in I'.
  pose proof (dval_succ b ltac:(lia)) as S. pose proof (dval_pred b ltac:(lia)) as P.
  assert (L : dval b - 2 ^ expo b <= dval (b - 1)).
  { rewrite P. destruct (_ && _)%bool; [|apply Qle_refl]. pose proof (two_succ (expo b - 1)) as T. replace (expo b - 1 + 1)%Z with (expo b) in T by lia.
    pose proof (two_pos (expo b - 1)). lra. }
  rewrite S in I'. lra.
Qed.

Lemma int_gap p q : (inject_Z p < inject_Z q) -> inject_Z p + 1 <= inject_Z q.
Proof. intros H. rewrite <- Zlt_Qlt in H. change 1 with (inject_Z 1). rewrite <- inject_Z_plus, <- Zle_Qle. lia. Qed.

Lemma sig_min b : (0 < b)%Z -> (Z.min b (2 ^ 52) <= RoundP.sig b)%Z.
Proof.
  intros H. unfold RoundP.sig. pose proof (Z.mod_pos_bound b (2 ^ 52) eq_refl) as M. destruct (Z.eqb_spec (b / 2 ^ 52) 0) as [E|E]; [|lia].
  pose proof (Z.div_mod b (2 ^ 52) ltac:(lia)). lia.
Qed.

Lemma few_digits_lt b n x y : (0 < b < inf_bits)%Z -> (10 ^ n < Z.min b (2 ^ 52))%Z -> digits_le x n -> digits_le y n -> rounds_to x b -> rounds_to y b -> ~ x < y.
Proof.
  intros Hb Hn (f & e & Hf & Ex) (f' & e' & Hf' & Ey) Rx Ry L.
  assert (Nn : (0 <= n)%Z) by (destruct (Z_lt_ge_dec n 0) as [N0|N0]; [rewrite Z.pow_neg_r in Hf by exact N0; lia|lia]).
  destruct (rounds_near x b Hb Rx) as [X1 X2]. destruct (rounds_near y b Hb Ry) as [Y1 Y2].
  pose proof (dval_sig b ltac:(lia)) as V. pose proof (sig_min b ltac:(lia)) as Sm. set (u := 2 ^ expo b) in *. assert (U : 0 < u) by apply two_pos.
  destruct (ndigits_bounds f ltac:(lia)) as (N1 & B1 & B2). destruct (ndigits_bounds f' ltac:(lia)) as (N1' & B1' & B2').
  pose proof (dec_decade f e ltac:(lia)) as [D1 D2]. pose proof (dec_decade f' e' ltac:(lia)) as [D1' D2'].
  assert (Nd : forall g, (0 < g < 10 ^ n)%Z -> (ndigits g <= n)%Z).
  { intros g Hg. destruct (ndigits_bounds g ltac:(lia)) as (G1 & G2 & _). assert (10 ^ (ndigits g - 1) < 10 ^ n)%Z by lia. apply Z.pow_lt_mono_r_iff in H; lia. }
  pose proof (Nd f Hf) as Lf. pose proof (Nd f' Hf') as Lf'. set (K := (ndigits f + e)%Z) in *.
  assert (K' : (K <= ndigits f' + e')%Z).
  { assert (T : 10 ^ (K - 1) < 10 ^ (ndigits f' + e')) by (rewrite Ex, Ey in L; lra). apply ten_lt_inv in T. lia. }
  assert (G : x * 10 ^ (n - K) + 1 <= y * 10 ^ (n - K)).
  { rewrite Ex, Ey. rewrite !dec_scale by lia. apply int_gap. rewrite <- !dec_scale by lia. apply Qmult_lt_compat_r; [apply ten_pos|]. rewrite <- Ex, <- Ey. exact L. }
  set (w := 10 ^ (n - K)) in *. assert (W : 0 < w) by apply ten_pos.
  assert (XK : x * w < inject_Z (10 ^ n)).
  { rewrite ten_Z by exact Nn. assert (E : 10 ^ n == 10 ^ K * w) by (unfold w; rewrite <- ten_add; replace (K + (n - K))%Z with n by lia; reflexivity).
    rewrite E. apply Qmult_lt_compat_r; [exact W|]. rewrite Ex. exact D2. }
  assert (YX : y - x <= u) by lra.
  assert (C1 : 1 <= u * w) by (assert ((y - x) * w <= u * w) by (apply Qmult_le_compat_r; lra); lra).
  assert (C2 : (inject_Z (RoundP.sig b) - (1 # 2)) * (u * w) <= x * w).
  { assert (E : (inject_Z (RoundP.sig b) - (1 # 2)) * (u * w) == (dval b - u * (1 # 2)) * w) by (rewrite V; ring). rewrite E. apply Qmult_le_compat_r; lra. }
  assert (C3 : inject_Z (10 ^ n) <= inject_Z (RoundP.sig b) - 1).
  { change 1 with (inject_Z 1). unfold Qminus. rewrite <- inject_Z_opp, <- inject_Z_plus, <- Zle_Qle. lia. }
  assert (C4 : (inject_Z (10 ^ n) + (1 # 2)) * 1 <= (inject_Z (RoundP.sig b) - (1 # 2)) * (u * w)).
  { assert (P0 : 0 <= inject_Z (10 ^ n)) by (change 0 with (inject_Z 0); rewrite <- Zle_Qle; lia).
    apply (Qle_trans _ ((inject_Z (RoundP.sig b) - (1 # 2)) * 1)); [apply Qmult_le_compat_r; lra|].
    rewrite (Qmult_comm _ 1), (Qmult_comm _ (u * w)). apply Qmult_le_compat_r; lra. }
  lra.
Qed.

Lemma few_digits b n x y : (0 < b < inf_bits)%Z -> (10 ^ n < Z.min b (2 ^ 52))%Z -> digits_le x n -> digits_le y n -> rounds_to x b -> rounds_to y b -> x == y.
Proof.
  intros Hb Hn Dx Dy Rx Ry. apply Qle_antisym; apply Qnot_lt_le; apply (few_digits_lt b n); assumption.
Qed.

Lemma digits_le_mono x n m : (n <= m)%Z -> digits_le x n -> digits_le x m.
Proof.
  intros H (f & e & F & E). exists f, e. split; [|exact E]. destruct (Z_lt_ge_dec n 0) as [L|G]; [rewrite Z.pow_neg_r in F by exact L; lia|].
  assert (10 ^ n <= 10 ^ m)%Z by (apply Z.pow_le_mono_r; lia). lia.
Qed.

(** the decimal chosen for a double is the decimal it was read from, if that one was short *)
Lemma its_source b f e n y : its_decimal b f e -> (0 < magnitude b < inf_bits)%Z -> (2 <= n)%Z -> (10 ^ n < Z.min (magnitude b) (2 ^ 52))%Z ->
  digits_le y n -> rounds_to y (magnitude b) -> dec f e == y.
Proof.
  intros Hi Hb Hn2 Hn Dy Ry. destruct Hi as [[Z0 _]|[_ D]]; [lia|]. destruct D as (_ & R & Sh & _).
  destruct Dy as (g & k & Hg & E). pose proof (Sh g k n Hg (rounds_eq _ _ _ E Ry)) as Df. replace (Z.max 2 n) with n in Df by lia.
  apply (few_digits (magnitude b) n); try assumption. exists g, k. split; assumption.
Qed.

(** ** monotone *)
Lemma rounds_mono x y b c : (0 <= b)%Z -> (b < c <= inf_bits)%Z -> rounds_to x b -> rounds_to y c -> x <= y.
Proof.
  intros Hb Hc Rx Ry. destruct (Rx c ltac:(lia)) as [R1 _]. destruct (Ry b ltac:(lia)) as [R2 _]. pose proof (dval_lt b c ltac:(lia)) as L.
  apply near_above in R1; [|exact L]. apply near_below in R2; [|exact L]. assert (E : forall u v, (u + v) / 2 == (u + v) * (1 # 2)) by (intros; reflexivity). rewrite E in R1, R2. lra.
Qed.

Lemma its_mono b c f e g k : its_decimal b f e -> its_decimal c g k -> (magnitude b <= magnitude c)%Z -> dec f e <= dec g k.
Proof.
  intros Hb Hc L. assert (B : (0 <= magnitude b)%Z) by (apply Z.mod_pos_bound; reflexivity).
  destruct (Z.eq_dec (magnitude b) (magnitude c)) as [E|N].
  - destruct Hb as [[Z0 F0]|[Rb Db]], Hc as [[Z1 F1]|[Rc Dc]]; try lia.
    + rewrite F0, F1, !dec_zero. apply Qle_refl.
    + rewrite <- E in Dc. rewrite (right_unique _ _ _ _ _ Db Dc). apply Qle_refl.
  - apply (rounds_mono _ _ (magnitude b) (magnitude c)); [exact B| |apply its_rounds; exact Hb|apply its_rounds; exact Hc].
    pose proof (its_decimal_finite _ _ _ Hc) as Fc. unfold finite in Fc. lia.
Qed.

Lemma half_up_mono x y p N M : x <= y -> half_up_at x p N -> half_up_at y p M -> (N <= M)%Z.
Proof.
  intros L [H1 H2] [G1 G2]. assert (T : x * 10 ^ p <= y * 10 ^ p) by (apply Qmult_le_compat_r; [exact L|apply Qlt_le_weak, ten_pos]).
  assert (inject_Z N < inject_Z (M + 1)) by (rewrite inject_Z_plus; change (inject_Z 1) with 1; lra). rewrite <- Zlt_Qlt in H. lia.
Qed.

Lemma dec_mono N M e : (N <= M)%Z -> dec N e <= dec M e.
Proof. intros H. unfold dec. apply Qmult_le_compat_r; [rewrite <- Zle_Qle; exact H|apply Qlt_le_weak, ten_pos]. Qed.

Lemma sig_mono x y P S X T Y : (1 <= P)%Z -> x <= y -> sig_half_up x P S X -> sig_half_up y P T Y -> dec S (X - P + 1) <= dec T (Y - P + 1).
Proof.
  intros HP L (X0 & N & [A1 A2] & HN & E & _) (Y0 & M & [B1 B2] & HM & F & _). rewrite E, F.
  assert (XY : (X0 <= Y0)%Z) by (assert (10 ^ X0 < 10 ^ (Y0 + 1)) as G by lra; apply ten_lt_inv in G; lia).
  destruct (Z.eq_dec X0 Y0) as [<-|Ne].
  - apply dec_mono. apply (half_up_mono x y (P - 1 - X0)); assumption.
  - assert (U : dec N (X0 - P + 1) <= 10 ^ (X0 + 1)).
    { destruct HN as [H1 _]. assert (T1 : x * 10 ^ (P - 1 - X0) < inject_Z (10 ^ P)).
      { rewrite ten_Z by lia. replace P with (X0 + 1 + (P - 1 - X0))%Z at 2 by lia. rewrite ten_add. apply Qmult_lt_compat_r; [apply ten_pos|exact A2]. }
      assert (NP : (N <= 10 ^ P)%Z).
      { assert (inject_Z N < inject_Z (10 ^ P + 1)) by (rewrite inject_Z_plus; change (inject_Z 1) with 1; lra). rewrite <- Zlt_Qlt in H. lia. }
      apply (Qle_trans _ (dec (10 ^ P) (X0 - P + 1))); [apply dec_mono; exact NP|]. unfold dec. rewrite ten_Z by lia. rewrite <- ten_add.
      replace (P + (X0 - P + 1))%Z with (X0 + 1)%Z by lia. apply Qle_refl. }
    assert (V : 10 ^ Y0 <= dec M (Y0 - P + 1)).
    { destruct HM as [_ H2]. assert (T1 : inject_Z (10 ^ (P - 1)) <= y * 10 ^ (P - 1 - Y0)).
      { rewrite ten_Z by lia. replace (P - 1)%Z with (Y0 + (P - 1 - Y0))%Z at 1 by lia. rewrite ten_add. apply Qmult_le_compat_r; [exact B1|apply Qlt_le_weak, ten_pos]. }
      assert (NP : (10 ^ (P - 1) <= M)%Z).
      { assert (inject_Z (10 ^ (P - 1)) < inject_Z (M + 1)) by (rewrite inject_Z_plus; change (inject_Z 1) with 1; lra). rewrite <- Zlt_Qlt in H. lia. }
      apply (Qle_trans _ (dec (10 ^ (P - 1)) (Y0 - P + 1))); [|apply dec_mono; exact NP]. unfold dec. rewrite ten_Z by lia. rewrite <- ten_add.
      replace (P - 1 + (Y0 - P + 1))%Z with Y0 by lia. apply Qle_refl. }
    pose proof (ten_le (X0 + 1) Y0 ltac:(lia)). lra.
Qed.

Lemma sig_value_nonneg y P S X : (1 <= P)%Z -> sig_half_up y P S X -> 0 <= dec S (X - P + 1).
Proof. intros HP (_ & _ & _ & _ & _ & [H _]). apply dec_nonneg. assert (0 < 10 ^ (P - 1))%Z by (apply Z.pow_pos_nonneg; lia). lia. Qed.

Lemma rounded_mono s q x y u v : (0 <= prec_or 6 q)%Z -> 0 <= x -> x <= y -> rounded s q x u -> rounded s q y v -> 0 <= u <= v.
Proof.
  intros Hp Hx L Hu Hv.
  assert (F : (exists N, half_up_at x (prec_or 6 q) N /\ u == dec N (- prec_or 6 q)) -> (exists N, half_up_at y (prec_or 6 q) N /\ v == dec N (- prec_or 6 q)) -> 0 <= u <= v).
  { intros (N & HN & E) (M & HM & G). rewrite E, G. split; [apply dec_nonneg; apply (half_up_nonneg x (prec_or 6 q)); assumption|]. apply dec_mono. apply (half_up_mono x y (prec_or 6 q)); assumption. }
  assert (G : forall P, (1 <= P)%Z -> sig_rounded x P u -> sig_rounded y P v -> 0 <= u <= v).
  { intros P HP [[X0 U0]|(S & X & HS & E)] [[Y0 V0]|(T & Y & HT & G)].
    - rewrite U0, V0. split; apply Qle_refl.
    - rewrite U0, G. split; [apply Qle_refl|]. apply (sig_value_nonneg y); assumption.
    - pose proof (sig_positive _ _ _ _ HS). lra.
    - rewrite E, G. split; [apply (sig_value_nonneg x); assumption|]. apply (sig_mono x y); assumption. }
  assert (1 <= g_prec q)%Z by (unfold g_prec; destruct (Z.eqb_spec (prec_or 6 q) 0); lia).
  destruct s; cbn [rounded] in *; try contradiction; first [apply F; assumption|eapply G; [|eassumption|eassumption]; lia].
Qed.

Lemma rounded_eq s q x y u : x == y -> rounded s q x u -> rounded s q y u.
Proof.
  intros E. assert (G : forall P, sig_rounded x P u -> sig_rounded y P u).
  { intros P [[X0 U0]|(S & X & HS & V)]; [left; rewrite <- E; split; assumption|right]. exists S, X. split; [apply (sig_half_up_eq x); assumption|exact V]. }
  assert (F : (exists N, half_up_at x (prec_or 6 q) N /\ u == dec N (- prec_or 6 q)) -> exists N, half_up_at y (prec_or 6 q) N /\ u == dec N (- prec_or 6 q)).
  { intros (N & HN & V). exists N. split; [apply (half_up_eq x); assumption|exact V]. }
  destruct s; cbn [rounded]; auto.
Qed.

Lemma rounded_zero s q x u : x == 0 -> (0 <= prec_or 6 q)%Z -> rounded s q x u -> u == 0.
Proof.
  intros E Hp H. apply (rounded_eq s q x 0 u E) in H.
  assert (G : forall P, sig_rounded 0 P u -> u == 0).
  { intros P [[_ U0]|(S & X & HS & V)]; [exact U0|]. apply sig_positive in HS. lra. }
  assert (F : (exists N, half_up_at 0 (prec_or 6 q) N /\ u == dec N (- prec_or 6 q)) -> u == 0).
  { intros (N & HN & V). rewrite V. apply (half_up_keeps 0 0 0); [rewrite dec_zero; reflexivity|lia|exact HN]. }
  destruct s; cbn [rounded] in H; try contradiction; try (apply F; exact H); eapply G; exact H.
Qed.

(** ** doubles equal to their decimal *)
Lemma self_zero x y : x == y -> Qabs (x - y) == 0.
Proof. intros E. rewrite E. unfold Qminus. rewrite Qplus_opp_r. reflexivity. Qed.

Lemma rounds_self b : (0 <= b <= inf_bits)%Z -> rounds_to (dval b) b.
Proof.
  intros Hb b' Hb'. assert (E : Qabs (dval b - dval b) == 0) by (apply self_zero; reflexivity). rewrite E. split; [apply Qabs_nonneg|].
  intros N T. exfalso. apply N. apply (dval_inj b' b); [lia|lia|]. revert T. apply Qabs_case; intros; lra.
Qed.

Lemma exact_if_short b f e : its_decimal b f e -> (0 < magnitude b < inf_bits)%Z ->
  (exists g k, (0 < g)%Z /\ dval (magnitude b) == dec g k) -> short_enough (dval (magnitude b)) (magnitude b) -> dec f e == dval (magnitude b).
Proof.
  intros Hi Hb (g & k & Hg & E) Sh. destruct Hi as [[Z0 _]|[_ D]]; [lia|]. destruct D as (_ & _ & _ & Cl).
  assert (R : rounds_to (dec g k) (magnitude b)) by (apply (rounds_eq (dval (magnitude b))); [exact E|apply rounds_self; lia]).
  assert (Sh' : short_enough (dec g k) (magnitude b)).
  { intros f' e' n Hf' R'. destruct (Sh f' e' n Hf' R') as (f'' & e'' & Hf'' & E''). exists f'', e''. split; [exact Hf''|]. rewrite <- E. exact E''. }
  assert (Z0 : Qabs (dec g k - dval (magnitude b)) == 0) by (apply self_zero; symmetry; exact E).
  destruct (Cl g k Hg R Sh') as [H|[H|(H & _)]].
  - rewrite H, E. reflexivity.
  - rewrite Z0 in H. pose proof (Qabs_nonneg (dec f e - dval (magnitude b))). lra.
  - rewrite Z0 in H. revert H. apply Qabs_case; intros; lra.
Qed.

Lemma integer_short b n : (0 < b < inf_bits)%Z -> (0 < n < 2 ^ 53)%Z -> dval b == inject_Z n -> short_enough (dval b) b.
Proof.
  intros Hb Hn E f e m Hf R. destruct (rounds_near _ b Hb R) as [R1 R2].
  assert (U : 2 ^ expo b <= 1).
  { destruct (Z_lt_ge_dec b (2 ^ 52)) as [L|G].
    - unfold expo. rewrite Z.div_small by lia. vm_compute. discriminate.
    - pose proof (dval_sig b ltac:(lia)) as V. assert (S52 : (2 ^ 52 <= RoundP.sig b)%Z) by (pose proof (sig_min b ltac:(lia)); lia).
      destruct (Z_lt_ge_dec 0 (expo b)) as [P|N].
      + assert (T : 2 <= 2 ^ expo b).
        { replace (expo b) with (expo b - 1 + 1)%Z by lia. rewrite two_succ. assert (1 <= 2 ^ (expo b - 1)); [|lra].
          change 1 with (inject_Z 1). rewrite <- (Z2Nat.id (expo b - 1)) by lia. induction (Z.to_nat (expo b - 1)) as [|k IH]; [apply Qle_refl|].
          replace (Z.of_nat (S k)) with (Z.of_nat k + 1)%Z by lia. rewrite two_succ. change (inject_Z 1) with 1 in *. lra. }
        assert (B : inject_Z (2 ^ 52) * 2 <= inject_Z (RoundP.sig b) * 2 ^ expo b).
        { apply (Qle_trans _ (inject_Z (2 ^ 52) * 2 ^ expo b)).
          - rewrite (Qmult_comm _ 2), (Qmult_comm _ (2 ^ expo b)). apply Qmult_le_compat_r; [exact T|vm_compute; discriminate].
          - apply Qmult_le_compat_r; [rewrite <- Zle_Qle; exact S52|apply Qlt_le_weak, two_pos]. }
        rewrite <- V, E in B. change (inject_Z (2 ^ 52) * 2) with (inject_Z (2 ^ 53)) in B. rewrite <- Zle_Qle in B. lia.
      + replace (expo b) with (- (- expo b))%Z by lia. assert (T : forall k : nat, 2 ^ (- Z.of_nat k) <= 1).
        { induction k as [|k IH]; [apply Qle_refl|]. pose proof (two_succ (- Z.of_nat (S k))) as W. replace (- Z.of_nat (S k) + 1)%Z with (- Z.of_nat k)%Z in W by lia. pose proof (two_pos (- Z.of_nat (S k))). lra. }
        rewrite <- (Z2Nat.id (- expo b)) by lia. apply T. }
  assert (N1 : inject_Z n - (1 # 2) <= dec f e) by (rewrite <- E; lra). assert (N2 : dec f e <= inject_Z n + (1 # 2)) by (rewrite <- E; lra).
  destruct (Z_lt_ge_dec e 0) as [L|G].
  - destruct (ndigits_bounds n ltac:(lia)) as (K1 & K2 & K3). set (K := ndigits n) in *. destruct (Z.eq_dec n (10 ^ (K - 1))) as [En|Nn].
    + apply (digits_le_mono _ 1); [lia|]. exists 1%Z, (K - 1)%Z. split; [lia|]. rewrite E, En at 1. unfold dec. rewrite ten_Z by lia. ring.
    + assert (T : 10 ^ (K - 1) < 10 ^ (ndigits f + e)).
      { pose proof (dec_decade f e ltac:(lia)) as [_ D2]. rewrite <- ten_Z by lia.
        assert (W : inject_Z (10 ^ (K - 1)) + 1 <= inject_Z n) by (apply int_gap; rewrite <- Zlt_Qlt; lia). lra. }
      apply ten_lt_inv in T. destruct (ndigits_bounds f ltac:(lia)) as (G1 & G2 & G3).
      assert (Lm : (ndigits f <= m)%Z).
      { destruct (Z_lt_ge_dec m 0) as [Lz|Gz]; [rewrite Z.pow_neg_r in Hf by exact Lz; lia|]. assert (10 ^ (ndigits f - 1) < 10 ^ m)%Z by lia. apply Z.pow_lt_mono_r_iff in H; lia. }
      apply (digits_le_mono _ K); [lia|]. exists n, 0%Z. split; [lia|]. rewrite E. unfold dec. change (10 ^ 0) with 1. ring.
  - assert (W : dec f e == inject_Z (f * 10 ^ e)) by (unfold dec; rewrite inject_Z_mult, ten_Z by lia; reflexivity).
    assert (En : (f * 10 ^ e = n)%Z).
    { rewrite W in N1, N2. assert (A1 : inject_Z n < inject_Z (f * 10 ^ e + 1)) by (rewrite inject_Z_plus; change (inject_Z 1) with 1; lra).
      assert (A2 : inject_Z (f * 10 ^ e) < inject_Z (n + 1)) by (rewrite inject_Z_plus; change (inject_Z 1) with 1; lra). rewrite <- Zlt_Qlt in A1, A2. lia. }
    apply (digits_le_mono _ m); [lia|]. exists f, e. split; [exact Hf|]. rewrite E, W, En. reflexivity.
Qed.

(** an integer below 2^53 is its own decimal *)
Lemma integer_exact b f e n : its_decimal b f e -> (0 <= n < 2 ^ 53)%Z -> dval (magnitude b) == inject_Z n -> dec f e == dval (magnitude b).
Proof.
  intros Hi Hn E. destruct (Z.eq_dec (magnitude b) 0) as [Z0|N0].
  - rewrite (its_zero _ _ _ Hi Z0), dec_zero, Z0. reflexivity.
  - assert (Hb : (0 < magnitude b < inf_bits)%Z) by (pose proof (its_decimal_finite _ _ _ Hi) as F; unfold finite in F; pose proof (Z.mod_pos_bound b (2 ^ 63) eq_refl); unfold magnitude in *; lia).
    assert (Nz : (0 < n)%Z).
    { pose proof (dval_lt 0 (magnitude b) ltac:(lia)) as L. assert (E0 : dval 0 == 0) by reflexivity. rewrite E0, E in L. change 0 with (inject_Z 0) in L. rewrite <- Zlt_Qlt in L. lia. }
    apply exact_if_short; [exact Hi|exact Hb| |apply (integer_short _ n); [exact Hb|lia|exact E]].
    exists n, 0%Z. split; [exact Nz|]. rewrite E. unfold dec. change (10 ^ 0) with 1. ring.
Qed.
