(** The irregular spacing (significand 2^52): the three products are checked directly for every exponent. *)
From Verif Require Import Base GTable MathM DecimalM MathP GCheck CertCheck.

Definition irr_ok (q k g h n : Z) : bool :=
  let u := n * 2 ^ h in
  let ug := u * g in
  let m := Z.shiftr ug 128 in
  if (m * 2 ^ 128 + 2 ^ 64 <=? ug - u) && (ug <? (m + 1) * 2 ^ 128) then true else n * anum q k =? 2 * m * aden q k.

Definition check_irr (q : Z) : bool :=
  let k := flog10threeQuartersPow2 q in
  let h := hval q k in
  let g := gval k in
  let gh := g * 2 ^ h in
  (2 <=? h) && (h <=? 5) && (4 * 2 ^ 127 <? 3 * (gh - 2 ^ h)) && (3 * gh <=? 40 * 2 ^ 127) && (K_MIN <=? k) && (k <=? K_MAX) &&
  irr_ok q k g h (2 ^ 54 - 1) && irr_ok q k g h (2 ^ 54) && irr_ok q k g h (2 ^ 54 + 2).

Fixpoint check_irrs (n : nat) (q : Z) : bool :=
  match n with O => true | S n' => check_irr q && check_irrs n' (q + 1) end.

Lemma irrs_ok : check_irrs 2045 (-1073) = true.
Proof. vm_compute. reflexivity. Qed.

Lemma check_irrs_nth n : forall q i, check_irrs n q = true -> (i < n)%nat -> check_irr (q + Z.of_nat i) = true.
Proof.
  induction n as [|n IH]; intros q i H Hi; [lia|]. cbn [check_irrs] in H. apply andb_prop in H as [H1 H2]. destruct i as [|i].
  - replace (q + Z.of_nat 0) with q by lia. exact H1.
  - replace (q + Z.of_nat (S i)) with (q + 1 + Z.of_nat i) by lia. apply IH; [exact H2|lia].
Qed.

Lemma irr_at q : -1073 <= q <= 971 -> check_irr q = true.
Proof.
  intros H. pose proof (check_irrs_nth 2045 (-1073) (Z.to_nat (q + 1073)) irrs_ok ltac:(lia)) as E.
  replace (-1073 + Z.of_nat (Z.to_nat (q + 1073))) with q in E by lia. exact E.
Qed.

Lemma gval_entry k a b : g1 k = Ok a -> g0 k = Ok b -> gval k = a * 2 ^ 63 + b.
Proof. intros H1 H2. unfold gval. rewrite H1, H2. reflexivity. Qed.

Lemma sticky_bounds w : 0 <= w -> 0 <= sticky w <= w / 2 ^ 63 + 1.
Proof.
  intros H. unfold sticky. assert (0 <= w / 2 ^ 63) by (apply Z.div_pos; lia).
  destruct (_ =? 0); [lia|]. rewrite lor_1_cases. destruct (Z.even _); lia.
Qed.

Lemma rop_bounds a b g cp : 0 <= a < 2 ^ 63 -> 0 <= b < 2 ^ 63 -> g = a * 2 ^ 63 + b -> g <= 2 ^ 126 -> 0 <= cp < 2 ^ 61 ->
  Z.even cp = true -> rop a b cp = sticky (g * cp / 2 ^ 64) /\ 0 <= rop a b cp <= 2 ^ 60 + 1.
Proof.
  intros Ha Hb -> Hg Hc He. rewrite rop_spec by (auto; lia). split; [reflexivity|].
  set (w := _ / 2 ^ 64). assert (0 <= w < 2 ^ 123) by (unfold w; split; [apply Z.div_pos; nia|apply Z.div_lt_upper_bound; nia]).
  pose proof (sticky_bounds w ltac:(lia)). assert (w / 2 ^ 63 < 2 ^ 60) by (apply Z.div_lt_upper_bound; lia). lia.
Qed.

(** the product [n * 2^h * g] computed by rop, against even numbers; what the checks say about the scale *)
Definition rop_exact (q k h a b n : Z) : Prop :=
  0 <= rop a b (n * 2 ^ h) <= 2 ^ 60 + 1 /\
  forall m, (rop a b (n * 2 ^ h) ?= 2 * m) = (n * anum q k ?= 2 * m * aden q k).

Lemma even_scaled n h : 2 <= h -> Z.even (n * 2 ^ h) = true.
Proof.
  intros H. rewrite Z.even_mul. replace h with (1 + (h - 1)) by lia. rewrite Z.pow_add_r, Z.even_mul by lia. cbn. apply orb_true_r.
Qed.

Lemma pow_h_bounds h : 2 <= h <= 5 -> 4 <= 2 ^ h <= 32.
Proof. intros H. split; [change 4 with (2 ^ 2)|change 32 with (2 ^ 5)]; apply Z.pow_le_mono_r; lia. Qed.

Lemma regular_exact q : -1074 <= q <= 971 ->
  let k := flog10pow2 q in let h := hval q k in
  K_MIN <= k <= K_MAX /\ 2 <= h <= 5 /\
  aden q k <= anum q k < 10 * aden q k /\
  exists a b, g1 k = Ok a /\ g0 k = Ok b /\ forall n, 0 < n < 2 ^ 54 -> rop_exact q k h a b (2 * n).
Proof.
  intros Hq k h. destruct (cert_at q Hq) as ([[[p1 q1] p2] q2] & C). unfold check_cert in C. fold k h in C.
  cbv zeta in C. apply andb_prop in C as [C Ck2]. apply andb_prop in C as [C Ck1]. apply andb_prop in C as [C Cx].
  split_bools C. to_prop. assert (Hk : K_MIN <= k <= K_MAX) by lia.
  destruct (table_entry k Hk) as (a & b & E1 & E0 & Ba & Bb & G). rewrite (gval_entry k a b E1 E0) in *.
  set (g := a * 2 ^ 63 + b) in *. pose proof (anum_pos q k) as PA. pose proof (aden_pos q k) as PB.
  pose proof (g_alpha q k g h G eq_refl ltac:(lia)) as [Lo Hi].
  match goal with H : (_ =? 1) = true |- _ => apply Z.eqb_eq in H; rename H into HD end.
  split; [exact Hk|]. split; [lia|]. split; [|exists a, b; split; [exact E1|]; split; [exact E0|]].
  - split; [|].
    + assert (2 ^ 127 * aden q k <= anum q k * 2 ^ 127) by nia. lia.
    + assert (anum q k * 2 ^ 127 < 10 * 2 ^ 127 * aden q k) by nia. lia.
  - intros n Hn. pose proof (pow_h_bounds h ltac:(lia)) as Hp.
    destruct (rop_bounds a b g (2 * n * 2 ^ h) Ba Bb eq_refl ltac:(apply G) ltac:(nia) ltac:(apply even_scaled; lia)) as [ER BR].
    split; [exact BR|]. intros m. rewrite ER.
    rewrite (cmp_cert (anum q k) (aden q k) g h PA PB ltac:(lia) Lo Hi p1 q1 p2 q2 n m HD ltac:(lia) ltac:(lia) ltac:(lia) ltac:(lia) ltac:(lia) ltac:(lia)); [|clear -Cx|exact Hn].
    + destruct (Z.compare_spec (n * anum q k) (m * aden q k)); symmetry; [apply Z.compare_eq_iff|apply Z.compare_lt_iff|apply Z.compare_gt_iff]; lia.
    + destruct (_ <=? _) eqn:E in Cx; to_prop; [left; lia|right]. apply Z.eqb_eq. exact Cx.
Qed.

Lemma irr_one q k g h n : 0 < n < 2 ^ 56 -> 2 <= h <= 5 -> g_ok k g -> h = hval q k -> irr_ok q k g h n = true ->
  forall m, (sticky (g * (n * 2 ^ h) / 2 ^ 64) ?= 2 * m) = (n * anum q k ?= 2 * m * aden q k).
Proof.
  intros Hn Hh G Eh C m. pose proof (pow_h_bounds h Hh) as Hp.
  pose proof (anum_pos q k) as PA. pose proof (aden_pos q k) as PB.
  pose proof (g_alpha q k g h G Eh ltac:(lia)) as [Lo Hi].
  unfold irr_ok in C. set (M := Z.shiftr _ _) in C. clearbody M.
  apply (cmp_of_bounds (anum q k) (aden q k) g h PA PB ltac:(lia) Lo Hi n m ltac:(lia)).
  - intros L. destruct (_ && _) eqn:E in C.
    + apply andb_prop in E as [C1 C2]. to_prop. clear C.
      (* 2M < n*alpha < 2M+2, hence m <= M *)
      assert (n * 2 ^ h * g * aden q k < (M + 1) * 2 ^ 128 * aden q k) by nia.
      assert (n * anum q k * 2 ^ 127 < n * 2 ^ h * g * aden q k) by nia.
      assert (m < M + 1) by nia. nia.
    + apply Z.eqb_eq in C. rewrite C in L. assert (m < M) by nia.
      assert (2 * M * 2 ^ 127 * aden q k < n * 2 ^ h * g * aden q k) by nia. nia.
  - intros L. destruct (_ && _) eqn:E in C.
    + apply andb_prop in E as [C1 C2]. to_prop. clear C.
      assert ((M * 2 ^ 128) * aden q k < n * 2 ^ h * (g - 1) * aden q k) by nia.
      assert (n * 2 ^ h * (g - 1) * aden q k <= n * anum q k * 2 ^ 127) by nia.
      assert (M < m) by nia. nia.
    + apply Z.eqb_eq in C. rewrite C in L. assert (M < m) by nia.
      assert (n * 2 ^ h * (g - 1) * aden q k <= 2 * M * 2 ^ 127 * aden q k) by nia.
      assert (n * 2 ^ h * (g - 1) <= 2 * M * 2 ^ 127) by nia. nia.
Qed.

Lemma irregular_exact q : -1073 <= q <= 971 ->
  let k := flog10threeQuartersPow2 q in let h := hval q k in
  K_MIN <= k <= K_MAX /\ 2 <= h <= 5 /\
  4 * aden q k < 3 * anum q k < 40 * aden q k /\
  exists a b, g1 k = Ok a /\ g0 k = Ok b /\
    rop_exact q k h a b (2 ^ 54 - 1) /\ rop_exact q k h a b (2 ^ 54) /\ rop_exact q k h a b (2 ^ 54 + 2).
Proof.
  intros Hq k h. pose proof (irr_at q Hq) as C. unfold check_irr in C. fold k h in C. cbv zeta in C.
  apply andb_prop in C as [C I3]. apply andb_prop in C as [C I2]. apply andb_prop in C as [C I1]. split_bools C. to_prop.
  assert (Hk : K_MIN <= k <= K_MAX) by lia.
  destruct (table_entry k Hk) as (a & b & E1 & E0 & Ba & Bb & G). rewrite (gval_entry k a b E1 E0) in *.
  set (g := a * 2 ^ 63 + b) in *. pose proof (anum_pos q k) as PA. pose proof (aden_pos q k) as PB.
  pose proof (g_alpha q k g h G eq_refl ltac:(lia)) as [Lo Hi]. pose proof (pow_h_bounds h ltac:(lia)) as Hp.
  split; [exact Hk|]. split; [lia|]. split; [|exists a, b; split; [exact E1|]; split; [exact E0|]].
  - split.
    + assert (4 * 2 ^ 127 * aden q k < 3 * anum q k * 2 ^ 127) by nia. lia.
    + assert (3 * anum q k * 2 ^ 127 < 40 * 2 ^ 127 * aden q k) by nia. lia.
  - assert (G' : g <= 2 ^ 126) by apply G.
    assert (H : forall n, 0 < n < 2 ^ 55 -> irr_ok q k g h n = true -> rop_exact q k h a b n).
    { intros n Hn I. destruct (rop_bounds a b g (n * 2 ^ h) Ba Bb eq_refl G' ltac:(nia) ltac:(apply even_scaled; lia)) as [ER BR].
      split; [exact BR|]. intros m. rewrite ER. apply irr_one; auto; lia. }
    repeat split; apply H; auto; lia.
Qed.
