(** A decimal of a double, rounded, read and turned into a decimal again. *)
From Coq Require Import QArith Qabs Qpower Lqa.
From Verif Require Import Base Digits ContextM CompilerM GrammarSpec FmtSpec FmtP DecSpec RoundP FloatSpec FPDecP FloatP CastP NearP FloatQ PropsDouble PropsFloat ReadFSpec ReadFP ReadFP2 ReadFP3 MathM MathP DecimalM GCheck CertCheck IrrCheck SchubM SchubP AgainCheck.
Open Scope Q_scope.

Lemma half_sum u v : (u + v) / 2 == (u + v) * (1 # 2). Proof. reflexivity. Qed.

(** the numbers that read as [m] are convex *)
Lemma rounds_convex m a b y : (0 < m < inf_bits)%Z -> rounds_to a m -> rounds_to b m -> a <= y <= b -> rounds_to y m.
Proof.
  intros Hm Ra Rb [H1 H2]. apply rounds_to_iff in Ra; [|exact Hm]. apply rounds_to_iff in Rb; [|exact Hm]. apply rounds_to_iff; [exact Hm|].
  unfold between in *. destruct (Z.even m); destruct Ra, Rb; split.
  - apply (Qle_trans _ a); assumption.
  - apply (Qle_trans _ b); assumption.
  - apply (Qlt_le_trans _ a); assumption.
  - apply (Qle_lt_trans _ b); assumption.
Qed.

(** a number of few digits that is not too small is a multiple of 10^-k *)
Lemma digits_multiple y n X k : digits_le y n -> 10 ^ X <= y -> (n <= X + 1 + k)%Z -> exists M, y == dec M (- k).
Proof.
  intros (f & e & Hf & E) L Hn.
  assert (Nn : (0 <= n)%Z) by (destruct (Z_lt_ge_dec n 0) as [N0|N0]; [rewrite Z.pow_neg_r in Hf by exact N0; lia|lia]).
  assert (T : 10 ^ X < 10 ^ (n + e)).
  { apply (Qle_lt_trans _ y); [exact L|]. rewrite E, ten_add. unfold dec. apply Qmult_lt_compat_r; [apply ten_pos|]. rewrite <- ten_Z by exact Nn. rewrite <- Zlt_Qlt. lia. }
  apply ten_lt_inv in T. exists (f * 10 ^ (e + k))%Z. rewrite E, dec_shift by lia. replace (- k + (e + k))%Z with e by lia. reflexivity.
Qed.
Lemma dec_lt_inv M N e : dec M e < dec N e -> (M < N)%Z.
Proof. intros H. destruct (Z_lt_ge_dec M N) as [L|G]; [exact L|]. pose proof (dec_mono N M e ltac:(lia)). lra. Qed.
Lemma dec_lt M N e : (M < N)%Z -> dec M e < dec N e.
Proof. intros H. unfold dec. apply Qmult_lt_compat_r; [apply ten_pos|]. rewrite <- Zlt_Qlt. exact H. Qed.
Lemma dec_succ N e : dec (N + 1) e == dec N e + 10 ^ e.
Proof. unfold dec. rewrite inject_Z_plus. change (inject_Z 1) with 1. ring. Qed.
Lemma dec_one e : dec 1 e == 10 ^ e. Proof. unfold dec. change (inject_Z 1) with 1. ring. Qed.
Lemma multiple_digits M k X : (0 < M)%Z -> dec M (- k) < 10 ^ (X + 1) -> (0 <= X + 1 + k)%Z -> (0 < M < 10 ^ (X + 1 + k))%Z.
Proof.
  intros HM L Hp. split; [exact HM|]. apply (dec_lt_inv M _ (- k)). eapply Qlt_le_trans; [exact L|].
  assert (E : dec (10 ^ (X + 1 + k)) (- k) == 10 ^ (X + 1)).
  { unfold dec. rewrite ten_Z by exact Hp. rewrite <- ten_add. replace (X + 1 + k + - k)%Z with (X + 1)%Z by lia. reflexivity. }
  rewrite E. apply Qle_refl.
Qed.

(** a double whose decimal has more digits than the grid has no number of the grid that reads as it *)
Lemma grid_free m f e X k M : (0 < m < inf_bits)%Z -> right_decimal m f e -> 10 ^ X <= dec f e < 10 ^ (X + 1) -> (2 <= X + 1 + k)%Z ->
  (forall M, ~ dec f e == dec M (- k)) -> (0 < M)%Z -> ~ rounds_to (dec M (- k)) m.
Proof.
  intros Hm (_ & R & Sh & _) [X1 X2] HP Off HM RM.
  assert (K : forall g j n, (0 < g < 10 ^ n)%Z -> (n <= X + 1 + k)%Z -> ~ rounds_to (dec g j) m).
  { intros g j n Hg Hn Rg. pose proof (digits_le_mono (dec f e) (Z.max 2 n) (X + 1 + k) ltac:(lia) (Sh g j n Hg Rg)) as D.
    destruct (digits_multiple _ _ X k D X1 ltac:(lia)) as (M' & E). exact (Off M' E). }
  destruct (Qlt_le_dec (dec M (- k)) (10 ^ (X + 1))) as [L|L].
  - apply (K M (- k)%Z (X + 1 + k)%Z); [apply multiple_digits; [exact HM|exact L|lia]|lia|exact RM].
  - apply (K 1%Z (X + 1)%Z 1%Z); [lia|lia|]. apply (rounds_convex m (dec f e) (dec M (- k))); [exact Hm|exact R|exact RM|]. rewrite dec_one. split; [lra|exact L].
Qed.

(** the length of the interval of numbers that read as [m] *)
Definition span (m : Z) : Q := (dval (m + 1) - dval (m - 1)) * (1 # 2).
Definition irregular (m : Z) : bool := ((RoundP.sig m =? 2 ^ 52) && negb (expo m =? -1074))%Z%bool.
Lemma span_is m : (0 < m)%Z -> span m == if irregular m then (3 # 4) * 2 ^ expo m else 2 ^ expo m.
Proof.
  intros H. unfold span. rewrite dval_succ by lia. rewrite (dval_pred m H). fold (irregular m). destruct (irregular m); [|ring].
  pose proof (two_succ (expo m - 1)) as T. replace (expo m - 1 + 1)%Z with (expo m) in T by lia. lra.
Qed.
Lemma rounds_inside m y : (0 < m < inf_bits)%Z -> (dval m + dval (m - 1)) * (1 # 2) < y < (dval m + dval (m + 1)) * (1 # 2) -> rounds_to y m.
Proof.
  intros Hm [H1 H2]. apply rounds_to_iff; [exact Hm|]. unfold between. destruct (Z.even m); split; rewrite half_sum; try assumption; apply Qlt_le_weak; assumption.
Qed.
Lemma rounds_ends m y : (0 < m < inf_bits)%Z -> rounds_to y m -> (dval m + dval (m - 1)) * (1 # 2) <= y <= (dval m + dval (m + 1)) * (1 # 2).
Proof.
  intros Hm R. apply rounds_to_iff in R; [|exact Hm]. unfold between in R. destruct (Z.even m); destruct R as [R1 R2]; rewrite half_sum in R1, R2; split; try assumption; apply Qlt_le_weak; assumption.
Qed.
Lemma span_bound m a b : (0 < m < inf_bits)%Z -> (forall y, rounds_to y m -> a < y < b) -> span m <= b - a.
Proof.
  intros Hm H. destruct (Qlt_le_dec (b - a) (span m)) as [L|L]; [|exact L]. exfalso. unfold span in L.
  pose proof (dval_lt (m - 1) m ltac:(lia)) as L1. pose proof (dval_lt m (m + 1) ltac:(lia)) as L2.
  set (lo := (dval m + dval (m - 1)) * (1 # 2)) in *. set (hi := (dval m + dval (m + 1)) * (1 # 2)) in *.
  assert (D : b - a < hi - lo) by (unfold lo, hi; lra). set (d := (hi - lo - (b - a)) * (1 # 3)).
  assert (Sp : 0 < hi - lo) by (unfold lo, hi; lra).
  destruct (H (dval m)) as [A1 A2]; [apply rounds_inside; [exact Hm|unfold lo, hi; split; lra]|].
  assert (d0 : 0 < d) by (unfold d; lra). assert (d1 : d < hi - lo) by (unfold d; lra).
  destruct (H (lo + d)) as [B1 _]; [apply rounds_inside; [exact Hm|split; fold lo; fold hi; lra]|].
  destruct (H (hi - d)) as [_ B2]; [apply rounds_inside; [exact Hm|split; fold lo; fold hi; lra]|].
  unfold d in *. lra.
Qed.
Lemma span_reach m a b : (0 < m < inf_bits)%Z -> rounds_to a m -> rounds_to b m -> b - a <= span m.
Proof. intros Hm Ra Rb. apply rounds_ends in Ra; [|exact Hm]. apply rounds_ends in Rb; [|exact Hm]. unfold span. lra. Qed.

(** a power of two is no power of ten, but for 1 *)
Lemma two_is_ten a j : 2 ^ a == 10 ^ j -> a = 0%Z /\ j = 0%Z.
Proof.
  assert (G : forall a j, (0 <= j)%Z -> 2 ^ a == 10 ^ j -> a = 0%Z /\ j = 0%Z).
  { clear. intros a j Hj E. assert (Ha : (0 <= a)%Z).
    { destruct (Z_lt_ge_dec a 0) as [L|G]; [|lia]. exfalso. assert (T : 1 <= 10 ^ j) by (apply (ten_le 0 j); exact Hj).
      pose proof (two_le a (-1) ltac:(lia)) as U. change (2 ^ (-1)) with (1 # 2) in U. lra. }
    rewrite <- ten_Z, <- two_Z in E by assumption. apply (proj1 (inject_Z_injective _ _)) in E.
    destruct (Z.eq_dec j 0) as [->|Nj]; [split; [|reflexivity]|].
    - destruct (Z.eq_dec a 0) as [->|Na]; [reflexivity|]. assert (2 ^ 1 <= 2 ^ a)%Z by (apply Z.pow_le_mono_r; lia). change (10 ^ 0)%Z with 1%Z in E. change (2 ^ 1)%Z with 2%Z in H. lia.
    - exfalso. replace j with (1 + (j - 1))%Z in E by lia. rewrite Z.pow_add_r in E by lia. assert (M : (2 ^ a mod 5 = 0)%Z) by (rewrite E; change (10 ^ 1)%Z with (5 * 2)%Z; rewrite <- Z.mul_assoc, Z.mul_comm; apply Z_mod_mult).
      clear E. revert M. pattern a. apply natlike_ind; [discriminate| |exact Ha]. intros b Hb IH M. apply IH. rewrite Z.pow_succ_r in M by exact Hb.
      pose proof (Z.div_mod (2 * 2 ^ b) 5 ltac:(lia)). pose proof (Z.div_mod (2 ^ b) 5 ltac:(lia)). pose proof (Z.mod_pos_bound (2 ^ b) 5 ltac:(lia)). lia. }
  intros E. destruct (Z_le_gt_dec 0 j) as [L|L]; [apply G; assumption|].
  destruct (G (- a)%Z (- j)%Z ltac:(lia)) as [A B]; [|lia].
  assert (T : 2 ^ (- a) * 2 ^ a == 1) by apply two_opp. pose proof (ten_cancel j) as C. rewrite E in T. pose proof (ten_pos j) as P.
  apply (Qmult_inj_r _ _ (10 ^ j)); [lra|]. rewrite T, Qmult_comm, C. reflexivity.
Qed.

Lemma span_le m : (0 < m)%Z -> span m <= 2 ^ expo m.
Proof. intros H. rewrite (span_is m H). pose proof (two_pos (expo m)). destruct (irregular m); lra. Qed.
Lemma expo_mono m m' : (m <= m')%Z -> (expo m <= expo m')%Z.
Proof. intros H. unfold expo. pose proof (Z.div_le_mono m m' (2 ^ 52) ltac:(lia) H). lia. Qed.
Lemma irregular_is m : (0 < m)%Z -> irregular m = true -> (m mod 2 ^ 52 = 0 /\ 2 * 2 ^ 52 <= m)%Z.
Proof.
  intros Hm H. unfold irregular, RoundP.sig, expo in H. apply andb_prop in H as [H1 H2]. apply Z.eqb_eq in H1. apply negb_true_iff, Z.eqb_neq in H2.
  pose proof (Z.div_mod m (2 ^ 52) ltac:(lia)) as D. pose proof (Z.mod_pos_bound m (2 ^ 52) ltac:(lia)) as B.
  destruct (Z.eqb_spec (m / 2 ^ 52) 0) as [E|E]; [lia|]. split; [lia|]. assert (0 <= m / 2 ^ 52)%Z by (apply Z.div_pos; lia). nia.
Qed.
Lemma below_irregular m m' : (0 < m)%Z -> irregular m = true -> (0 <= m' < m)%Z -> (expo m' <= expo m - 1)%Z.
Proof.
  intros Hm H L. destruct (irregular_is m Hm H) as [Hr Hb]. apply Z.le_trans with (expo (m - 1)); [apply expo_mono; lia|]. unfold expo.
  pose proof (Z.div_mod m (2 ^ 52) ltac:(lia)) as D. set (q := (m / 2 ^ 52)%Z) in *.
  assert (E : ((m - 1) / 2 ^ 52 = q - 1)%Z) by (symmetry; apply (Z.div_unique_pos _ _ _ (2 ^ 52 - 1)); lia). rewrite E. assert (2 <= q)%Z by nia. lia.
Qed.

(** half-up rounding, scaled back *)
Lemma half_up_near y k N : half_up_at y k N -> dec N (- k) - 10 ^ (- k) * (1 # 2) <= y < dec N (- k) + 10 ^ (- k) * (1 # 2).
Proof.
  intros [H1 H2]. pose proof (ten_pos (- k)) as T. pose proof (ten_cancel k) as C.
  assert (E : y * 10 ^ k * 10 ^ (- k) == y) by (rewrite <- Qmult_assoc, C; ring).
  split.
  - assert (U : (inject_Z N - (1 # 2)) * 10 ^ (- k) <= y * 10 ^ k * 10 ^ (- k)) by (apply Qmult_le_compat_r; lra). rewrite E in U. unfold dec. lra.
  - assert (U : y * 10 ^ k * 10 ^ (- k) < (inject_Z N + (1 # 2)) * 10 ^ (- k)) by (apply Qmult_lt_compat_r; lra). rewrite E in U. unfold dec. lra.
Qed.
Lemma half_up_decade y X k N : half_up_at y k N -> 10 ^ X <= y < 10 ^ (X + 1) -> (1 <= X + 1 + k)%Z -> (10 ^ (X + k) <= N <= 10 ^ (X + 1 + k))%Z.
Proof.
  intros [H1 H2] [D1 D2] HP. pose proof (ten_pos k) as T.
  assert (A : inject_Z (10 ^ (X + k)) <= y * 10 ^ k) by (rewrite ten_Z, ten_add by lia; apply Qmult_le_compat_r; lra).
  assert (B : y * 10 ^ k < inject_Z (10 ^ (X + 1 + k))) by (rewrite ten_Z, ten_add by lia; apply Qmult_lt_compat_r; lra).
  split.
  - assert (C : inject_Z (10 ^ (X + k)) < inject_Z (N + 1)) by (rewrite inject_Z_plus; change (inject_Z 1) with 1; lra). rewrite <- Zlt_Qlt in C. lia.
  - assert (C : inject_Z (N - 1) < inject_Z (10 ^ (X + 1 + k))) by (unfold Z.sub; rewrite inject_Z_plus; change (inject_Z (- (1))) with (- (1)); lra). rewrite <- Zlt_Qlt in C. lia.
Qed.
Lemma dec_dist M N e : (M <> N)%Z -> dec M e + 10 ^ e <= dec N e \/ dec N e + 10 ^ e <= dec M e.
Proof.
  intros H. destruct (Z_lt_ge_dec M N) as [L|L]; [left|right]; rewrite <- dec_succ; apply dec_mono; lia.
Qed.

Section Core.
  Variables (m f e X k N m' f' e' : Z).
  Hypothesis Hm : (0 < m < inf_bits)%Z.
  Hypothesis Rm : right_decimal m f e.
  Hypothesis HX : 10 ^ X <= dec f e < 10 ^ (X + 1).
  Hypothesis HP : (3 <= X + 1 + k)%Z.
  Hypothesis HN : half_up_at (dec f e) k N.
  Hypothesis Off : forall M, ~ dec f e == dec M (- k).
  Hypothesis Hm' : (0 < m' < inf_bits)%Z.
  Hypothesis Rx : rounds_to (dec N (- k)) m'.
  Hypothesis Rm' : right_decimal m' f' e'.
  Hypothesis Ne : ~ dec f' e' == dec N (- k).

  Lemma N_range : (10 ^ (X + k) <= N <= 10 ^ (X + 1 + k))%Z.
  Proof. apply (half_up_decade (dec f e)); try assumption. lia. Qed.
  Lemma N_large : (100 <= N)%Z.
  Proof. pose proof N_range. assert (10 ^ 2 <= 10 ^ (X + k))%Z by (apply Z.pow_le_mono_r; lia). lia. Qed.
  Lemma x_large : 10 ^ X <= dec N (- k).
  Proof.
    assert (E : dec (10 ^ (X + k)) (- k) == 10 ^ X) by (unfold dec; rewrite ten_Z, <- ten_add by lia; replace (X + k + - k)%Z with X by lia; reflexivity).
    rewrite <- E. apply dec_mono, N_range.
  Qed.

  Lemma apart : dec f' e' + 10 ^ (- k) <= dec N (- k) \/ dec N (- k) + 10 ^ (- k) <= dec f' e'.
  Proof.
    destruct Rm' as (F' & R' & Sh & _).
    assert (D : digits_le (dec f' e') (X + 1 + k)).
    { destruct (Z.eq_dec N (10 ^ (X + 1 + k))) as [E|E].
      - apply (digits_le_mono _ (Z.max 2 1)); [lia|]. apply (Sh 1 (X + 1) 1)%Z; [lia|]. eapply rounds_eq; [|exact Rx]. rewrite E, dec_one. unfold dec. rewrite ten_Z, <- ten_add by lia.
        replace (X + 1 + k + - k)%Z with (X + 1)%Z by lia. reflexivity.
      - replace (X + 1 + k)%Z with (Z.max 2 (X + 1 + k)) by lia. apply (Sh N (- k)%Z); [pose proof N_range; pose proof N_large; lia|exact Rx]. }
    assert (G : (exists M, dec f' e' == dec M (- k)) -> dec f' e' + 10 ^ (- k) <= dec N (- k) \/ dec N (- k) + 10 ^ (- k) <= dec f' e').
    { intros (M & E). assert (Hn : M <> N) by (intros ->; contradiction). rewrite E. apply (dec_dist M N (- k) Hn). }
    destruct (Qlt_le_dec (dec f' e') (10 ^ X)) as [L|L]; [|apply G; apply (digits_multiple _ _ X k D L); lia].
    assert (D2 : digits_le (dec f' e') 2).
    { change 2%Z with (Z.max 2 1). apply (Sh 1 X 1)%Z; [lia|]. apply (rounds_convex m' (dec f' e') (dec N (- k))); [exact Hm'|exact R'|exact Rx|].
      rewrite dec_one. split; [lra|exact x_large]. }
    destruct (Qlt_le_dec (dec f' e') (10 ^ (X - 1))) as [L'|L']; [|apply G; apply (digits_multiple _ _ (X - 1) k D2 L'); lia].
    left. pose proof x_large as XL.
    assert (T : 10 ^ X == 10 * 10 ^ (X - 1)) by (replace X with (1 + (X - 1))%Z at 1 by lia; rewrite ten_add; reflexivity).
    pose proof (ten_le (- k) (X - 1) ltac:(lia)). pose proof (ten_pos (X - 1)). lra.
  Qed.
  Lemma far : 10 ^ (- k) <= span m'.
  Proof.
    destruct Rm' as (F' & R' & Sh & _). destruct apart as [A|A].
    - apply (Qle_trans _ (dec N (- k) - dec f' e')); [lra|apply span_reach; assumption].
    - apply (Qle_trans _ (dec f' e' - dec N (- k))); [lra|apply span_reach; assumption].
  Qed.

  Lemma off_grid M : (0 < M)%Z -> ~ rounds_to (dec M (- k)) m.
  Proof. apply (grid_free m f e X k M Hm Rm HX ltac:(lia) Off). Qed.
  Lemma between_grid A : (0 < A)%Z -> dec A (- k) < dec f e < dec (A + 1) (- k) -> span m <= 10 ^ (- k).
  Proof.
    intros HA [A1 A2]. destruct Rm as (_ & R & _). apply (Qle_trans _ (dec (A + 1) (- k) - dec A (- k))); [|rewrite dec_succ; lra].
    apply span_bound; [exact Hm|]. intros y Ry. split.
    - destruct (Qlt_le_dec (dec A (- k)) y) as [L|L]; [exact L|]. exfalso. apply (off_grid A HA). apply (rounds_convex m y (dec f e)); try assumption. split; [exact L|lra].
    - destruct (Qlt_le_dec y (dec (A + 1) (- k))) as [L|L]; [exact L|]. exfalso. apply (off_grid (A + 1) ltac:(lia)). apply (rounds_convex m (dec f e) y); try assumption. split; [lra|exact L].
  Qed.
  Lemma near : span m <= 10 ^ (- k).
  Proof.
    pose proof N_large as NL. pose proof (half_up_near _ _ _ HN) as H. pose proof (ten_pos (- k)) as T. destruct (Qlt_le_dec (dec N (- k)) (dec f e)) as [L|L].
    - apply (between_grid N ltac:(lia)). rewrite dec_succ. split; [exact L|lra].
    - apply (between_grid (N - 1) ltac:(lia)). pose proof (dec_succ (N - 1) (- k)) as E. replace (N - 1 + 1)%Z with N in * by lia. pose proof (Off N). split; [lra|].
      apply Qle_lteq in L as [L|L]; [exact L|contradiction].
  Qed.
  Lemma same_spacing : irregular m = false -> 2 ^ expo m' <= 2 ^ expo m -> False.
  Proof.
    intros Hr L. pose proof near as H1. pose proof far as H2. rewrite (span_is m), Hr in H1 by lia. pose proof (span_le m' ltac:(lia)) as H3.
    assert (E : 2 ^ expo m == 10 ^ (- k)) by (apply Qle_antisym; lra). apply two_is_ten in E as [E1 E2].
    assert (S0 : (0 < RoundP.sig m)%Z) by (pose proof (sig_min m ltac:(lia)); lia).
    apply (off_grid (RoundP.sig m) S0). eapply rounds_eq; [|apply (rounds_self m); lia]. rewrite (dval_sig m) by lia. rewrite E1, E2. reflexivity.
  Qed.

  (** only from a double to a greater one, and across a change of the spacing *)
  Lemma core : (m < m')%Z /\ dec f e < dec N (- k) /\ (irregular m = true \/ (expo m < expo m')%Z).
  Proof.
    destruct Rm as (_ & R & _).
    destruct (Z.eq_dec m m') as [Em|Hne]; [exfalso; apply (off_grid N); [pose proof N_large; lia|rewrite Em; exact Rx]|].
    destruct (Z_lt_ge_dec m' m) as [L|L].
    - exfalso. destruct (irregular m) eqn:Hi.
      + pose proof near as H1. pose proof far as H2. pose proof (span_le m' ltac:(lia)) as H3. rewrite (span_is m), Hi in H1 by lia.
        pose proof (two_le _ _ (below_irregular m m' ltac:(lia) Hi ltac:(lia))) as H4. pose proof (two_succ (expo m - 1)) as T. replace (expo m - 1 + 1)%Z with (expo m) in T by lia.
        pose proof (two_pos (expo m - 1)). lra.
      + apply same_spacing; [exact Hi|]. apply two_le, expo_mono. lia.
    - assert (H : dec f e <= dec N (- k)) by (apply (rounds_mono _ _ m m'); [lia|lia|exact R|exact Rx]).
      split; [lia|]. split; [apply Qle_lteq in H as [H|H]; [exact H|destruct (Off N H)]|].
      destruct (irregular m) eqn:Hi; [left; reflexivity|right]. pose proof (expo_mono m m' ltac:(lia)).
      destruct (Z.eq_dec (expo m) (expo m')) as [E|E]; [|lia]. exfalso. apply same_spacing; [exact Hi|]. rewrite E. apply Qle_refl.
  Qed.

  (** the two doubles are neighbours *)
  Lemma sig_top b : (0 <= b)%Z -> (RoundP.sig b < 2 ^ 53)%Z.
  Proof. intros H. unfold RoundP.sig. pose proof (Z.mod_pos_bound b (2 ^ 52) ltac:(lia)). destruct (_ =? _)%Z; lia. Qed.
  Lemma m'_low : (expo m < expo m')%Z -> (inject_Z (2 ^ 52) - (1 # 2)) * 2 ^ expo m' <= dec N (- k).
  Proof.
    intros L. destruct (rounds_near _ _ Hm' Rx) as [H _]. rewrite (dval_sig m') in H by lia.
    assert (S0 : (2 ^ 52 <= RoundP.sig m')%Z).
    { unfold RoundP.sig. unfold expo in L. pose proof (Z.mod_pos_bound m' (2 ^ 52) ltac:(lia)). destruct (Z.eqb_spec (m' / 2 ^ 52) 0); lia. }
    pose proof (two_pos (expo m')) as T. assert (U : inject_Z (2 ^ 52) * 2 ^ expo m' <= inject_Z (RoundP.sig m') * 2 ^ expo m').
    { apply Qmult_le_compat_r; [rewrite <- Zle_Qle; exact S0|lra]. }
    lra.
  Qed.
  Lemma x_near : dec N (- k) <= dval m + 2 ^ expo m * (1 # 2) + 2 ^ expo m' * (1 # 2).
  Proof.
    destruct Rm as (_ & R & _). destruct (rounds_near _ _ Hm R) as [_ H]. pose proof (half_up_near _ _ _ HN) as [H1 _]. pose proof far as H2. pose proof (span_le m' ltac:(lia)) as H3. lra.
  Qed.
  Lemma not_above n : (0 < n)%Z -> dec N (- k) < (dval (n + 1) + dval n) * (1 # 2) -> (m' <= n)%Z.
  Proof.
    intros Hn H. destruct (Z_le_gt_dec m' n) as [L|L]; [exact L|]. exfalso. destruct (rounds_ends _ _ Hm' Rx) as [H1 _].
    pose proof (dval_le (n + 1) m' ltac:(lia)). pose proof (dval_le n (m' - 1) ltac:(lia)). lra.
  Qed.
  Lemma top_next b : (0 <= b)%Z -> RoundP.sig b = (2 ^ 53 - 1)%Z -> ((b + 1) mod 2 ^ 52 = 0 /\ 2 * 2 ^ 52 <= b + 1 /\ expo (b + 1) = expo b + 1)%Z.
  Proof.
    intros Hb H. unfold RoundP.sig in H. unfold expo. pose proof (Z.div_mod b (2 ^ 52) ltac:(lia)) as D. pose proof (Z.mod_pos_bound b (2 ^ 52) ltac:(lia)) as B.
    assert (0 <= b / 2 ^ 52)%Z by (apply Z.div_pos; lia). destruct (Z.eqb_spec (b / 2 ^ 52) 0) as [E|E]; [lia|].
    assert (E1 : ((b + 1) / 2 ^ 52 = b / 2 ^ 52 + 1)%Z) by (symmetry; apply (Z.div_unique_pos _ _ _ 0); lia).
    rewrite E1. split; [symmetry; apply (Z.mod_unique_pos _ _ (b / 2 ^ 52 + 1)); lia|]. split; [|lia].
    assert (2 * 2 ^ 52 <= (b / 2 ^ 52 + 1) * 2 ^ 52)%Z by (apply Z.mul_le_mono_nonneg_r; lia). lia.
  Qed.
  Lemma below_top b : (0 <= b)%Z -> RoundP.sig b = (2 ^ 53 - 2)%Z -> (RoundP.sig (b + 1) = 2 ^ 53 - 1 /\ expo (b + 1) = expo b)%Z.
  Proof.
    intros Hb H. unfold RoundP.sig in *. unfold expo. pose proof (Z.div_mod b (2 ^ 52) ltac:(lia)) as D. pose proof (Z.mod_pos_bound b (2 ^ 52) ltac:(lia)) as B.
    destruct (Z.eqb_spec (b / 2 ^ 52) 0) as [E|E]; [lia|].
    assert (E1 : ((b + 1) / 2 ^ 52 = b / 2 ^ 52)%Z) by (symmetry; apply (Z.div_unique_pos _ _ _ (b mod 2 ^ 52 + 1)); lia).
    assert (E2 : ((b + 1) mod 2 ^ 52 = b mod 2 ^ 52 + 1)%Z) by (symmetry; apply (Z.mod_unique_pos _ _ (b / 2 ^ 52)); lia).
    rewrite E1, E2. destruct (Z.eqb_spec (b / 2 ^ 52) 0); lia.
  Qed.
  Lemma next : m' = (m + 1)%Z /\ (irregular m = true \/ RoundP.sig m = 2 ^ 53 - 1 /\ expo m' = expo m + 1)%Z.
  Proof.
    destruct core as (L & Hsx & Hc). pose proof x_near as Xn. pose proof (two_pos (expo m)) as T. pose proof (two_pos (expo m')) as T'.
    pose proof (dval_succ m ltac:(lia)) as S1. pose proof (expo_mono m m' ltac:(lia)) as Em.
    destruct (irregular m) eqn:Hi.
    - split; [|left; reflexivity]. destruct (Z.eq_dec (expo m) (expo m')) as [E|E].
      + assert (m' <= m + 1)%Z; [|lia]. apply not_above; [lia|]. rewrite <- E in Xn. pose proof (dval_lt (m + 1) (m + 1 + 1) ltac:(lia)). lra.
      + exfalso. pose proof (m'_low ltac:(lia)) as Lo. pose proof (two_le (expo m + 1) (expo m') ltac:(lia)) as V. rewrite two_succ in V.
        assert (Sg : RoundP.sig m = (2 ^ 52)%Z) by (unfold irregular in Hi; apply andb_prop in Hi as [Hi _]; apply Z.eqb_eq in Hi; exact Hi).
        rewrite (dval_sig m), Sg in Xn by lia. change (inject_Z (2 ^ 52)) with (4503599627370496 # 1) in *. lra.
    - destruct Hc as [Hc|Hc]; [discriminate|]. pose proof (m'_low Hc) as Lo. pose proof (sig_top m ltac:(lia)) as St.
      assert (dS : dval m == inject_Z (RoundP.sig m) * 2 ^ expo m) by (apply dval_sig; lia).
      assert (E1 : expo m' = (expo m + 1)%Z).
      { destruct (Z.eq_dec (expo m') (expo m + 1)) as [E|E]; [exact E|]. exfalso. pose proof (two_le (expo m + 1 + 1) (expo m') ltac:(lia)) as V. rewrite !two_succ in V.
        assert (U : dval m <= inject_Z (2 ^ 53) * 2 ^ expo m) by (rewrite dS; apply Qmult_le_compat_r; [rewrite <- Zle_Qle; lia|lra]).
        change (inject_Z (2 ^ 52)) with (4503599627370496 # 1) in *. change (inject_Z (2 ^ 53)) with (9007199254740992 # 1) in *. lra. }
      pose proof (two_succ (expo m)) as V. rewrite <- E1 in V.
      assert (Sm : (2 ^ 53 - 2 <= RoundP.sig m)%Z).
      { destruct (Z_lt_ge_dec (RoundP.sig m) (2 ^ 53 - 2)) as [L1|L1]; [|lia]. exfalso.
        assert (U : dval m <= inject_Z (2 ^ 53 - 3) * 2 ^ expo m) by (rewrite dS; apply Qmult_le_compat_r; [rewrite <- Zle_Qle; lia|lra]).
        change (inject_Z (2 ^ 52)) with (4503599627370496 # 1) in *. change (inject_Z (2 ^ 53 - 3)) with (9007199254740989 # 1) in *. lra. }
      destruct (Z.eq_dec (RoundP.sig m) (2 ^ 53 - 1)) as [Es|Es].
      + split; [|right; split; assumption]. destruct (top_next m ltac:(lia) Es) as (_ & _ & En).
        assert (m' <= m + 1)%Z; [|lia]. apply not_above; [lia|]. rewrite dval_succ, En, <- E1 by lia. lra.
      + exfalso. assert (Es2 : RoundP.sig m = (2 ^ 53 - 2)%Z) by lia. destruct (below_top m ltac:(lia) Es2) as [Es3 En3].
        destruct (top_next (m + 1) ltac:(lia) Es3) as (Mm & Bg & En4). pose proof (dval_succ (m + 1) ltac:(lia)) as S2. rewrite En3 in S2.
        assert (G2 : (m + 1 + 1 <= m')%Z).
        { destruct (Z_le_gt_dec (m + 1 + 1) m') as [L2|L2]; [exact L2|]. exfalso. pose proof (expo_mono m' (m + 1) ltac:(lia)). lia. }
        destruct (rounds_ends _ _ Hm' Rx) as [H1 _]. destruct (Z.eq_dec m' (m + 1 + 1)) as [E2|E2].
        * assert (Ir : irregular m' = true).
          { unfold irregular, RoundP.sig. rewrite E2, Mm. rewrite <- E2, E1. assert (2 <= m' / 2 ^ 52)%Z by (apply Z.div_le_lower_bound; lia).
            destruct (Z.eqb_spec (m' / 2 ^ 52) 0); [lia|]. change (2 ^ 52 + 0 =? 2 ^ 52)%Z with true. cbn [andb]. apply negb_true_iff, Z.eqb_neq. unfold expo. lia. }
          pose proof (span_is m' ltac:(lia)) as Sp. rewrite Ir in Sp. pose proof far as F.
          destruct Rm as (_ & R & _). destruct (rounds_near _ _ Hm R) as [_ H3]. pose proof (half_up_near _ _ _ HN) as [H4 _].
          replace (m' - 1)%Z with (m + 1)%Z in H1 by lia. rewrite E2 in H1 at 1. rewrite S2, S1 in H1. lra.
        * pose proof (dval_le (m + 1 + 1) m' ltac:(lia)). pose proof (dval_le (m + 1 + 1) (m' - 1) ltac:(lia)). lra.
  Qed.
  (** two neighbouring numbers of the grid read as the second double *)
  Lemma two_points : rounds_to (dec (N + 1) (- k)) m'.
  Proof.
    destruct core as (L & Hsx & _). destruct Rm as (_ & R & _). destruct Rm' as (_ & R' & _).
    pose proof (half_up_near _ _ _ HN) as [Hh _]. pose proof (ten_pos (- k)) as T. destruct apart as [A|A].
    - exfalso. pose proof (dec_succ (N - 1) (- k)) as E. replace (N - 1 + 1)%Z with N in E by lia.
      assert (Q1 : rounds_to (dec (N - 1) (- k)) m') by (apply (rounds_convex m' (dec f' e') (dec N (- k))); [exact Hm'|exact R'|exact Rx|split; lra]).
      pose proof (rounds_mono _ _ m m' ltac:(lia) ltac:(lia) R Q1). lra.
    - apply (rounds_convex m' (dec N (- k)) (dec f' e')); [exact Hm'|exact Rx|exact R'|]. rewrite dec_succ. split; lra.
  Qed.

  (** the ends, the spacings, and the grid *)
  Definition low (top : bool) : Z := if top then (2 ^ 54 - 1)%Z else (2 ^ 54 + 2)%Z.
  Definition high (top : bool) : Z := if top then (2 ^ 54 + 2)%Z else (2 ^ 54 + 6)%Z.
  Definition small (top : bool) : Z := if top then 2%Z else 3%Z.
  Definition large (top : bool) : Z := if top then 3%Z else 4%Z.
  Definition start (top : bool) (j : Z) : Z := if top then (j * 2 ^ 52 - 1)%Z else (j * 2 ^ 52)%Z.
  Lemma dval_power j : (1 <= j)%Z -> dval (j * 2 ^ 52) == inject_Z (2 ^ 54) * 2 ^ (j - 1077).
  Proof.
    intros Hj. rewrite dval_sig by lia. unfold RoundP.sig, expo. rewrite Z.div_mul, Z.mod_mul by lia. destruct (Z.eqb_spec j 0) as [E|E]; [lia|].
    replace (Z.max 1 j - 1075)%Z with (j - 1077 + 1 + 1)%Z by lia. rewrite !two_succ. change (inject_Z (2 ^ 52 + 0)) with (4503599627370496 # 1). change (inject_Z (2 ^ 54)) with (18014398509481984 # 1). ring.
  Qed.
  Lemma expo_power j : (1 <= j)%Z -> expo (j * 2 ^ 52) = (j - 1075)%Z.
  Proof. intros Hj. unfold expo. rewrite Z.div_mul by lia. lia. Qed.
  Lemma expo_power1 j : (1 <= j)%Z -> expo (j * 2 ^ 52 + 1) = (j - 1075)%Z.
  Proof. intros Hj. unfold expo. replace ((j * 2 ^ 52 + 1) / 2 ^ 52)%Z with j by (apply (Z.div_unique_pos _ _ _ 1); lia). lia. Qed.
  Lemma power_irregular j : (2 <= j)%Z -> irregular (j * 2 ^ 52) = true.
  Proof.
    intros Hj. unfold irregular, RoundP.sig. rewrite expo_power, Z.div_mul, Z.mod_mul by lia. destruct (Z.eqb_spec j 0) as [E|E]; [lia|].
    change (2 ^ 52 + 0 =? 2 ^ 52)%Z with true. cbn [andb]. apply negb_true_iff, Z.eqb_neq. lia.
  Qed.
  Lemma place : exists top j, (2 <= j <= 2046)%Z /\ m = start top j /\ m' = (m + 1)%Z /\
    inject_Z (low top) * 2 ^ (j - 1077) <= dec N (- k) /\ dec (N + 1) (- k) <= inject_Z (high top) * 2 ^ (j - 1077) /\
    inject_Z (small top) * 2 ^ (j - 1077) <= 10 ^ (- k) <= inject_Z (large top) * 2 ^ (j - 1077).
  Proof.
    destruct next as (Em & Hc). pose proof (rounds_ends _ _ Hm' Rx) as [Lo _]. pose proof (rounds_ends _ _ Hm' two_points) as [_ Hi]. pose proof far as F. pose proof near as Nr.
    destruct Hc as [Hc|[Hc He]].
    - destruct (irregular_is m ltac:(lia) Hc) as [Mm Mb]. pose proof (Z.div_mod m (2 ^ 52) ltac:(lia)) as D. rewrite Mm in D. set (j := (m / 2 ^ 52)%Z) in *.
      assert (Hj : (2 <= j <= 2046)%Z) by (unfold inf_bits in Hm; nia). exists false, j. split; [exact Hj|]. assert (Es : m = (j * 2 ^ 52)%Z) by lia. split; [exact Es|]. split; [exact Em|].
      rewrite Em in Lo, Hi, F. replace (m + 1 - 1)%Z with m in * by lia. rewrite Es in Lo, Hi, F, Nr.
      pose proof (dval_succ (j * 2 ^ 52) ltac:(lia)) as S1. pose proof (dval_succ (j * 2 ^ 52 + 1) ltac:(lia)) as S2.
      pose proof (span_le (j * 2 ^ 52 + 1) ltac:(lia)) as Sp. pose proof (span_is (j * 2 ^ 52) ltac:(lia)) as Sq. rewrite power_irregular in Sq by lia.
      rewrite expo_power1 in * by lia. rewrite expo_power in * by lia. rewrite (dval_power j) in * by lia.
      replace (j - 1075)%Z with (j - 1077 + 1 + 1)%Z in * by lia. rewrite !two_succ in *.
      change (inject_Z (low false)) with (18014398509481986 # 1). change (inject_Z (high false)) with (18014398509481990 # 1). change (inject_Z (small false)) with 3. change (inject_Z (large false)) with 4.
      change (inject_Z (2 ^ 54)) with (18014398509481984 # 1) in *. pose proof (two_pos (j - 1077)). repeat split; lra.
    - destruct (top_next m ltac:(lia) Hc) as (Mm & Mb & Ex). pose proof (Z.div_mod (m + 1) (2 ^ 52) ltac:(lia)) as D. rewrite Mm in D. set (j := ((m + 1) / 2 ^ 52)%Z) in *.
      assert (Hj : (2 <= j <= 2046)%Z) by (unfold inf_bits in Hm', Hm; nia). exists true, j. split; [exact Hj|]. assert (Es : m = (j * 2 ^ 52 - 1)%Z) by lia. split; [exact Es|]. split; [exact Em|].
      assert (Es' : m' = (j * 2 ^ 52)%Z) by lia. rewrite Es' in Lo, Hi, F, He.
      pose proof (dval_succ (j * 2 ^ 52) ltac:(lia)) as S1. pose proof (dval_succ m ltac:(lia)) as S2. rewrite Es in S2, Nr. replace (j * 2 ^ 52 - 1 + 1)%Z with (j * 2 ^ 52)%Z in S2 by lia.
      pose proof (span_is (j * 2 ^ 52) ltac:(lia)) as Sp. rewrite power_irregular in Sp by lia.
      assert (Sq : span (j * 2 ^ 52 - 1) == 2 ^ expo (j * 2 ^ 52 - 1)).
      { rewrite (span_is (j * 2 ^ 52 - 1)) by lia. destruct (irregular _) eqn:Hi2; [|reflexivity]. rewrite <- Es in Hi2. unfold irregular in Hi2. rewrite Hc in Hi2. discriminate. }
      rewrite <- Es in Sq, Nr, S2. rewrite expo_power in * by lia. assert (Ee : expo m = (j - 1077 + 1)%Z) by lia. rewrite Ee in *. rewrite (dval_power j) in * by lia.
      rewrite <- Es in Lo. replace (j - 1075)%Z with (j - 1077 + 1 + 1)%Z in * by lia. rewrite !two_succ in *.
      change (inject_Z (low true)) with (18014398509481983 # 1). change (inject_Z (high true)) with (18014398509481986 # 1). change (inject_Z (small true)) with 2. change (inject_Z (large true)) with 3.
      change (inject_Z (2 ^ 54)) with (18014398509481984 # 1) in *. pose proof (two_pos (j - 1077)). repeat split; lra.
  Qed.

  Lemma shortest_right b g j : (0 < b < inf_bits)%Z -> shortest b = Some (g, j) -> right_decimal b g j.
  Proof.
    intros Hb H. unfold shortest in H. assert (Hl : is_long b) by (unfold is_long, long_min, long_max; unfold inf_bits in Hb; lia).
    assert (Eb : (b mod 2 ^ 63 = b)%Z) by (apply Z.mod_small; unfold inf_bits in Hb; lia).
    pose proof (toDecimal_right b Hl) as T. cbv zeta in T. rewrite Eb in T. destruct (T Hb) as (g' & j' & E & R). rewrite E in H. injection H as <- <-. exact R.
  Qed.
  Lemma same10_ok g j h i : same10 g j h i = true -> dec g j == dec h i.
  Proof.
    unfold same10. destruct (Z.leb_spec j i) as [L|L]; intros H; apply Z.eqb_eq in H.
    - rewrite H, dec_shift by lia. replace (j + (i - j))%Z with i by lia. reflexivity.
    - rewrite <- H, dec_shift by lia. replace (i + (j - i))%Z with j by lia. reflexivity.
  Qed.
  Lemma less10_ok g j h i : less10 g j h i = true -> dec g j < dec h i.
  Proof.
    unfold less10. destruct (Z.leb_spec j i) as [L|L]; intros H; apply Z.ltb_lt in H; apply (dec_lt _ _ (Z.min i j)) in H.
    - replace (Z.min i j) with j in H by lia. rewrite dec_shift in H by lia. replace (j + (i - j))%Z with i in H by lia. exact H.
    - replace (Z.min i j) with i in H by lia. rewrite dec_shift in H by lia. replace (i + (j - i))%Z with j in H by lia. exact H.
  Qed.
  Lemma strayed : stray m k = true.
  Proof.
    destruct place as (top & j & Hj & Es & Em & Lo & Hi & Sm & La).
    destruct (flog10pow2_floor (j - 1075) ltac:(lia)) as [B1 B2]. destruct (regular_exact (j - 1075) ltac:(lia)) as (Hk & Hh & _).
    pose proof (border_ok j Hj) as Bo. unfold border in Bo. cbv zeta in Bo. set (b := flog10pow2 (j - 1075)) in *. set (h := hval (j - 1077) b) in *.
    assert (Eb : (- k)%Z = b).
    { replace (j - 1075)%Z with (j - 1077 + 1 + 1)%Z in B1, B2 by lia. rewrite !two_succ in B1, B2. pose proof (two_pos (j - 1077)) as P.
      assert (S2 : 2 <= inject_Z (small top)) by (destruct top; discriminate). assert (S4 : inject_Z (large top) <= 4) by (destruct top; discriminate).
      assert (U1 : 10 ^ (- k) < 10 ^ (b + 1)) by nra. assert (U2 : 10 ^ b < 10 ^ (- k + 1)) by (rewrite ten_add; change (10 ^ 1) with 10; nra).
      apply ten_lt_inv in U1. apply ten_lt_inv in U2. lia. }
    rewrite Eb in *. destruct (table_entry b Hk) as (a & c & E1 & E0 & _ & _ & G). assert (Eg : gval b = (a * 2 ^ 63 + c)%Z) by (unfold gval; rewrite E1, E0; reflexivity).
    rewrite <- Eg in G. set (g := gval b) in *. assert (H0 : (0 <= h)%Z) by (unfold h, hval in *; lia).
    pose proof (g_alpha (j - 1077) b g h G eq_refl H0) as [A1 A2]. rewrite !Z.shiftl_mul_pow2 in Bo by exact H0.
    set (G1 := ((g - 1) * 2 ^ h)%Z) in *. set (G2 := (g * 2 ^ h)%Z) in *.
    pose proof (aden_pos (j - 1077) b) as Dp. set (d := aden (j - 1077) b) in *. set (n := anum (j - 1077) b) in *.
    assert (Fr : 2 ^ (j - 1077) * inject_Z d == inject_Z n * 10 ^ b).
    { unfold n, d. rewrite alpha_frac. unfold alpha. pose proof (ten_cancel b) as C. rewrite <- (Qmult_1_r (2 ^ (j - 1077) * inject_Z (aden (j - 1077) b))), <- C. ring. }
    assert (cmp : forall u w, inject_Z u * 2 ^ (j - 1077) <= dec w b -> (u * n <= w * d)%Z).
    { intros u w H. rewrite Zle_Qle, !inject_Z_mult. pose proof (ten_pos b) as P. apply (Qmult_le_r _ _ (10 ^ b) P). unfold dec in H.
      setoid_replace (inject_Z u * inject_Z n * 10 ^ b) with (inject_Z u * (inject_Z n * 10 ^ b)) by ring. rewrite <- Fr.
      setoid_replace (inject_Z u * (2 ^ (j - 1077) * inject_Z d)) with (inject_Z u * 2 ^ (j - 1077) * inject_Z d) by ring.
      setoid_replace (inject_Z w * inject_Z d * 10 ^ b) with (inject_Z w * 10 ^ b * inject_Z d) by ring.
      apply Qmult_le_compat_r; [exact H|]. change 0 with (inject_Z 0). rewrite <- Zle_Qle. lia. }
    assert (cmp2 : forall u w, dec w b <= inject_Z u * 2 ^ (j - 1077) -> (w * d <= u * n)%Z).
    { intros u w H. rewrite Zle_Qle, !inject_Z_mult. pose proof (ten_pos b) as P. apply (Qmult_le_r _ _ (10 ^ b) P). unfold dec in H.
      setoid_replace (inject_Z u * inject_Z n * 10 ^ b) with (inject_Z u * (inject_Z n * 10 ^ b)) by ring. rewrite <- Fr.
      setoid_replace (inject_Z u * (2 ^ (j - 1077) * inject_Z d)) with (inject_Z u * 2 ^ (j - 1077) * inject_Z d) by ring.
      setoid_replace (inject_Z w * inject_Z d * 10 ^ b) with (inject_Z w * 10 ^ b * inject_Z d) by ring.
      apply Qmult_le_compat_r; [exact H|]. change 0 with (inject_Z 0). rewrite <- Zle_Qle. lia. }
    pose proof (cmp _ _ Lo) as Lo'. pose proof (cmp2 _ _ Hi) as Hi'. rewrite <- (dec_one b) in Sm, La. pose proof (cmp _ _ Sm) as Sm'. pose proof (cmp2 _ _ La) as La'.
    assert (St : settled (start top j) N b = true).
    { apply (passes_sound top j b G1 G2 N).
      - apply andb_prop in Bo as [Bo Bf]. apply andb_prop in Bo as [_ Bt]. destruct top; assumption.
      - change (if top then 2 else 3)%Z with (small top). change (if top then 3 else 4)%Z with (large top). assert (0 < small top)%Z by (destruct top; reflexivity). assert (0 < large top)%Z by (destruct top; reflexivity).
        split; [apply (Z.mul_le_mono_pos_r _ _ d Dp)|apply (Z.mul_lt_mono_pos_r d _ _ Dp)]; nia.
      - change (if top then 2 ^ 54 - 1 else 2 ^ 54 + 2)%Z with (low top). assert (0 < low top)%Z by (destruct top; reflexivity). apply (Z.mul_le_mono_pos_r _ _ d Dp); nia.
      - change (if top then 2 ^ 54 + 2 else 2 ^ 54 + 6)%Z with (high top). assert (0 < high top)%Z by (destruct top; reflexivity). apply (Z.mul_lt_mono_pos_r d _ _ Dp); nia. }
    rewrite <- Es in St. unfold settled in St. destruct Rm as (_ & R & _).
    assert (Sn : forall g1 j1, shortest (m + 1) = Some (g1, j1) -> same10 g1 j1 N b = true -> False).
    { intros g1 j1 Sh Sa. apply Ne. rewrite <- (same10_ok _ _ _ _ Sa). apply (right_unique m'); [exact Rm'|]. rewrite Em. apply shortest_right; [rewrite <- Em; exact Hm'|exact Sh]. }
    assert (Sl : forall g1 j1, shortest m = Some (g1, j1) -> less10 (2 * g1) j1 (2 * N - 1) b = true -> False).
    { intros g1 j1 Sh Sa. apply less10_ok in Sa. pose proof (right_unique m f e g1 j1 Rm (shortest_right m g1 j1 Hm Sh)) as U. pose proof (half_up_near _ _ _ HN) as [H4 _]. rewrite Eb in H4.
      rewrite U in H4. unfold dec in *. rewrite inject_Z_mult in Sa. unfold Z.sub in Sa. rewrite inject_Z_plus, inject_Z_mult in Sa. change (inject_Z 2) with 2 in Sa. change (inject_Z (- (1))) with (- (1)) in Sa. lra. }
    replace (- b)%Z with k in St by lia. destruct (stray m k); [reflexivity|]. exfalso.
    destruct (shortest (m + 1)) as [[g1 j1]|] eqn:Sh1; [destruct (same10 g1 j1 N b) eqn:Sa; [exact (Sn _ _ eq_refl Sa)|]|];
      destruct (shortest m) as [[g2 j2]|] eqn:Sh2; try discriminate; exact (Sl _ _ eq_refl St).
  Qed.
End Core.
