(** Positional numerals: the mathematics behind Integer.toString and friends. *)
From Verif Require Import Base.

(** Digit values of [n >= 0] in base [b], most significant first, at least one digit. *)
Fixpoint digits_fuel (fuel : nat) (b n : Z) : list Z :=
  match fuel with
  | O => [n mod b]
  | S f => if n <? b then [n] else digits_fuel f b (n / b) ++ [n mod b]
  end.

Definition digits (b n : Z) : list Z := digits_fuel (Z.to_nat (Z.log2 n) + 1) b n.

(** value of a digit string *)
Definition of_digits (b : Z) (ds : list Z) : Z := fold_left (fun a d => a * b + d) ds 0.

(** the [k] low-order digits of [n] *)
Fixpoint fixdigs (b : Z) (k : nat) (n : Z) : list Z :=
  match k with
  | O => []
  | S k' => fixdigs b k' (n / b) ++ [n mod b]
  end.

(** '0'..'9','a'..'z' *)
Definition digit_char (d : Z) : Z := if d <? 10 then 48 + d else 87 + d.
Definition digit_val (c : Z) : Z := if c <? 58 then c - 48 else c - 87.

(** Number of decimal digits of [n >= 0] (1 for 0). *)
Definition ndigits (n : Z) : Z := zlen (digits 10 n).

Lemma zlen_one {A} (x : A) : zlen [x] = 1.
Proof. reflexivity. Qed.

Lemma of_digits_acc b ds a :
  fold_left (fun a d => a * b + d) ds a = a * b ^ (zlen ds) + of_digits b ds.
Proof.
  unfold of_digits. revert a. induction ds as [|d ds IH]; intros a; cbn [fold_left].
  - rewrite zlen_nil. cbn. lia.
  - rewrite IH. rewrite (IH (0 * b + d)). rewrite zlen_cons.
    rewrite Z.pow_add_r by (pose proof (zlen_nonneg ds); lia). cbn. ring.
Qed.

Lemma of_digits_app b xs ys :
  of_digits b (xs ++ ys) = of_digits b xs * b ^ (zlen ys) + of_digits b ys.
Proof.
  unfold of_digits at 1. rewrite fold_left_app. rewrite of_digits_acc. reflexivity.
Qed.

Lemma of_digits_cons b x ys :
  of_digits b (x :: ys) = x * b ^ (zlen ys) + of_digits b ys.
Proof. change (x :: ys) with ([x] ++ ys). rewrite of_digits_app. cbn [of_digits fold_left]. reflexivity. Qed.

Lemma of_digits_one b x : of_digits b [x] = x.
Proof. unfold of_digits; cbn. lia. Qed.

Lemma of_digits_snoc b xs x : of_digits b (xs ++ [x]) = of_digits b xs * b + x.
Proof. rewrite of_digits_app, of_digits_one. rewrite zlen_one. cbn. lia. Qed.

Lemma of_digits_zeros b n : of_digits b (rep 0 n) = 0.
Proof.
  unfold rep, of_digits. induction (Z.to_nat n); cbn; auto.
Qed.

Definition digits_ok (b : Z) (ds : list Z) : Prop := Forall (fun d => 0 <= d < b) ds.

Lemma of_digits_bound b ds : 2 <= b -> digits_ok b ds -> 0 <= of_digits b ds < b ^ (zlen ds).
Proof.
  intros Hb. induction ds as [|d ds IH] using rev_ind; intros H.
  - cbn. lia.
  - apply Forall_app in H as [H1 H2]. inversion H2; subst.
    rewrite of_digits_snoc, zlen_app, zlen_one.
    rewrite Z.pow_add_r by (pose proof (zlen_nonneg ds); lia).
    specialize (IH H1). rewrite Z.pow_1_r. nia.
Qed.

Lemma log2_div_lt b n : 2 <= b -> b <= n -> Z.log2 (n / b) < Z.log2 n.
Proof.
  intros Hb Hn.
  assert (n / b <= n / 2) by (apply Z.div_le_compat_l; lia).
  assert (Z.log2 (n / b) <= Z.log2 (n / 2)) by (apply Z.log2_le_mono; lia).
  assert (Z.log2 (n / 2) = Z.log2 n - 1).
  { replace (n / 2) with (Z.shiftr n 1) by (rewrite Z.shiftr_div_pow2 by lia; reflexivity).
    rewrite Z.log2_shiftr by lia.
    assert (1 <= Z.log2 n) by (apply Z.log2_le_pow2; cbn; lia). lia. }
  lia.
Qed.

Lemma digits_fuel_irrel b f1 f2 n :
  2 <= b -> 0 <= n -> Z.log2 n < Z.of_nat f1 -> Z.log2 n < Z.of_nat f2 ->
  digits_fuel f1 b n = digits_fuel f2 b n.
Proof.
  intros Hb. revert f2 n. induction f1 as [|f1 IH]; intros [|f2] n Hn H1 H2;
    try (pose proof (Z.log2_nonneg n); lia).
  cbn. destruct (n <? b) eqn:E; [reflexivity|]. apply Z.ltb_ge in E.
  pose proof (log2_div_lt b n Hb E).
  rewrite (IH f2); [reflexivity | apply Z.div_pos; lia | lia | lia].
Qed.

Lemma digits_unfold b n :
  2 <= b -> 0 <= n ->
  digits b n = if n <? b then [n] else digits b (n / b) ++ [n mod b].
Proof.
  intros Hb Hn. unfold digits.
  pose proof (Z.log2_nonneg n).
  replace (Z.to_nat (Z.log2 n) + 1)%nat with (S (Z.to_nat (Z.log2 n))) by lia.
  cbn [digits_fuel]. destruct (n <? b) eqn:E; [reflexivity|]. apply Z.ltb_ge in E.
  pose proof (log2_div_lt b n Hb E).
  f_equal. apply digits_fuel_irrel; try lia. apply Z.div_pos; lia.
Qed.

Lemma digits_ind b (P : Z -> list Z -> Prop) :
  2 <= b ->
  (forall n, 0 <= n < b -> P n [n]) ->
  (forall n, b <= n -> P (n / b) (digits b (n / b)) -> P n (digits b (n / b) ++ [n mod b])) ->
  forall n, 0 <= n -> P n (digits b n).
Proof.
  intros Hb H0 H1 n Hn. revert Hn.
  induction n as [n IH] using (well_founded_induction (Z.lt_wf 0)); intros Hn.
  rewrite digits_unfold by lia. destruct (n <? b) eqn:E.
  - apply Z.ltb_lt in E. apply H0. lia.
  - apply Z.ltb_ge in E. apply H1; [lia|]. apply IH.
    + split; [apply Z.div_pos; lia | apply Z.div_lt; lia].
    + apply Z.div_pos; lia.
Qed.

Lemma digits_value b n : 2 <= b -> 0 <= n -> of_digits b (digits b n) = n.
Proof.
  intros Hb Hn.
  apply (digits_ind b (fun n ds => of_digits b ds = n)); try lia.
  - intros; apply of_digits_one.
  - intros m Hm IH. rewrite of_digits_snoc, IH. rewrite (Z.div_mod m b) at 3 by lia. ring.
Qed.

Lemma digits_digits_ok b n : 2 <= b -> 0 <= n -> digits_ok b (digits b n).
Proof.
  intros Hb Hn.
  apply (digits_ind b (fun n ds => digits_ok b ds)); try lia.
  - intros; constructor; [lia|constructor].
  - intros m Hm IH. apply Forall_app; split; [exact IH|].
    constructor; [apply Z.mod_pos_bound; lia|constructor].
Qed.

Lemma digits_nonempty b n : 2 <= b -> 0 <= n -> 1 <= zlen (digits b n).
Proof.
  intros Hb Hn.
  apply (digits_ind b (fun n ds => 1 <= zlen ds)); try lia.
  - intros; rewrite zlen_one; lia.
  - intros m Hm IH. rewrite zlen_app, zlen_one. lia.
Qed.

Lemma digits_upper b n : 2 <= b -> 0 <= n -> n < b ^ zlen (digits b n).
Proof.
  intros Hb Hn. rewrite <- (digits_value b n) at 1 by lia.
  apply of_digits_bound; [lia|]. apply digits_digits_ok; lia.
Qed.

Lemma digits_lower b n : 2 <= b -> 0 < n -> b ^ (zlen (digits b n) - 1) <= n.
Proof.
  intros Hb Hn.
  apply (digits_ind b (fun n ds => 0 < n -> b ^ (zlen ds - 1) <= n)); try lia.
  - intros m Hm Hp. rewrite zlen_one. cbn. lia.
  - intros m Hm IH Hp. rewrite zlen_app, zlen_one.
    assert (0 < m / b) by (apply Z.div_str_pos; lia).
    assert (0 <= m / b) by lia.
    pose proof (digits_nonempty b (m / b) Hb H0).
    replace (zlen (digits b (m / b)) + 1 - 1) with (Z.succ (zlen (digits b (m / b)) - 1)) by lia.
    rewrite Z.pow_succ_r by lia. specialize (IH H).
    pose proof (Z.mul_div_le m b ltac:(lia)). nia.
Qed.

Lemma digits_length_unique b n k :
  2 <= b -> 0 < n -> 1 <= k -> b ^ (k - 1) <= n < b ^ k -> zlen (digits b n) = k.
Proof.
  intros Hb Hn Hk [H1 H2].
  pose proof (digits_upper b n Hb ltac:(lia)) as Hu.
  pose proof (digits_lower b n Hb Hn) as Hl.
  pose proof (digits_nonempty b n Hb ltac:(lia)) as Hne.
  destruct (Z.lt_trichotomy (zlen (digits b n)) k) as [H|[H|H]]; [|exact H|].
  - assert (b ^ zlen (digits b n) <= b ^ (k - 1)) by (apply Z.pow_le_mono_r; lia). lia.
  - assert (b ^ k <= b ^ (zlen (digits b n) - 1)) by (apply Z.pow_le_mono_r; lia). lia.
Qed.

(** the leading digit is non-zero *)
Lemma digits_head b n : 2 <= b -> 0 < n -> exists d r, digits b n = d :: r /\ 0 < d < b.
Proof.
  intros Hb Hn.
  apply (digits_ind b (fun n ds => 0 < n -> exists d r, ds = d :: r /\ 0 < d < b)); try lia.
  - intros m Hm Hp. exists m, []. split; [reflexivity|lia].
  - intros m Hm IH Hp. assert (0 < m / b) by (apply Z.div_str_pos; lia).
    destruct (IH H) as (d & r & E & Hd). rewrite E. exists d, (r ++ [m mod b]). auto.
Qed.

Lemma digits_0 b : 2 <= b -> digits b 0 = [0].
Proof. intros. rewrite digits_unfold by lia. destruct (0 <? b) eqn:E; [reflexivity|]. apply Z.ltb_ge in E. lia. Qed.

(** ** fixed-width digits *)

Lemma fixdigs_length b k n : zlen (fixdigs b k n) = Z.of_nat k.
Proof.
  revert n; induction k; intros n; cbn [fixdigs]; [reflexivity|].
  rewrite zlen_app, IHk, zlen_one. lia.
Qed.

Lemma fixdigs_ok b k n : 2 <= b -> digits_ok b (fixdigs b k n).
Proof.
  intros Hb. revert n; induction k; intros n; cbn [fixdigs]; [constructor|].
  apply Forall_app; split; [apply IHk|]. constructor; [apply Z.mod_pos_bound; lia|constructor].
Qed.

Lemma fixdigs_value b k n : 2 <= b -> 0 <= n -> of_digits b (fixdigs b k n) = n mod b ^ Z.of_nat k.
Proof.
  intros Hb. revert n; induction k; intros n Hn; cbn [fixdigs].
  - cbn. rewrite Z.mod_1_r. reflexivity.
  - rewrite of_digits_snoc, IHk by (apply Z.div_pos; lia).
    replace (Z.of_nat (S k)) with (1 + Z.of_nat k) by lia.
    rewrite Z.pow_add_r by lia. rewrite Z.pow_1_r.
    rewrite Z.rem_mul_r by (try lia; apply Z.pow_pos_nonneg; lia). lia.
Qed.

Lemma of_digits_inj b xs ys :
  2 <= b -> digits_ok b xs -> digits_ok b ys -> zlen xs = zlen ys ->
  of_digits b xs = of_digits b ys -> xs = ys.
Proof.
  intros Hb. revert ys. induction xs as [|x xs IH] using rev_ind; intros ys Hx Hy Hl Hv.
  - symmetry. apply zlen_0_nil. symmetry. exact Hl.
  - destruct ys as [|y0 ys0] using rev_ind.
    + change (zlen (@nil Z)) with 0 in Hl. rewrite zlen_app, zlen_one in Hl. pose proof (zlen_nonneg xs). lia.
    + clear IHys0. apply Forall_app in Hx as [Hx1 Hx2]. apply Forall_app in Hy as [Hy1 Hy2].
      inversion Hx2; subst. inversion Hy2; subst.
      rewrite !of_digits_snoc in Hv. rewrite !zlen_app, !zlen_one in Hl.
      assert (of_digits b xs = of_digits b ys0 /\ x = y0) as [E1 E2].
      { apply (Z.div_mod_unique b); [left; lia | left; lia | lia]. }
      rewrite (IH ys0); auto; try lia. congruence.
Qed.

(** zero-padding a numeral to [k] places gives the fixed-width digits *)
Lemma fixdigs_pad b k n :
  2 <= b -> 0 <= n -> n < b ^ Z.of_nat k ->
  zlen (digits b n) <= Z.of_nat k ->
  rep 0 (Z.of_nat k - zlen (digits b n)) ++ digits b n = fixdigs b k n.
Proof.
  intros Hb Hn Hk Hl. apply (of_digits_inj b); auto.
  - apply Forall_app; split; [|apply digits_digits_ok; lia].
    apply Forall_forall. intros x Hx. apply in_rep in Hx. lia.
  - apply fixdigs_ok; lia.
  - rewrite zlen_app, zlen_rep, fixdigs_length. lia.
  - rewrite of_digits_app, of_digits_zeros, digits_value, fixdigs_value by lia.
    rewrite Z.mod_small by lia. lia.
Qed.

Lemma digits_len_le b n k : 2 <= b -> 0 <= n -> 1 <= k -> n < b ^ k -> zlen (digits b n) <= k.
Proof.
  intros Hb Hn Hk H. destruct (Z.eq_dec n 0) as [->|Hz].
  - rewrite digits_0 by lia. rewrite zlen_one. lia.
  - pose proof (digits_lower b n Hb ltac:(lia)).
    destruct (Z_le_gt_dec (zlen (digits b n)) k) as [?|G]; [assumption|].
    assert (b ^ k <= b ^ (zlen (digits b n) - 1)) by (apply Z.pow_le_mono_r; lia). lia.
Qed.

Lemma digits_fixdigs b n : 2 <= b -> 0 <= n -> digits b n = fixdigs b (Z.to_nat (zlen (digits b n))) n.
Proof.
  intros Hb Hn. pose proof (zlen_nonneg (digits b n)).
  rewrite <- fixdigs_pad; try lia.
  - rewrite Z2Nat.id by lia. rewrite Z.sub_diag. rewrite rep_nonpos by lia. reflexivity.
  - rewrite Z2Nat.id by lia. apply digits_upper; lia.
Qed.

(** splitting off low-order digits *)
Lemma fixdigs_app b k m n :
  2 <= b -> 0 <= n ->
  fixdigs b (k + m) n = fixdigs b k (n / b ^ Z.of_nat m) ++ fixdigs b m n.
Proof.
  intros Hb. revert n. induction m; intros n Hn; cbn [fixdigs].
  - rewrite Nat.add_0_r. change (b ^ Z.of_nat 0) with 1. rewrite Z.div_1_r, app_nil_r. reflexivity.
  - rewrite Nat.add_succ_r. cbn [fixdigs]. rewrite IHm by (apply Z.div_pos; lia).
    rewrite <- app_assoc. f_equal. f_equal.
    rewrite Z.div_div by (try lia; apply Z.pow_pos_nonneg; lia).
    f_equal. replace (Z.of_nat (S m)) with (1 + Z.of_nat m) by lia.
    rewrite Z.pow_add_r by lia. rewrite Z.pow_1_r. reflexivity.
Qed.

Lemma digits_split b n m :
  2 <= b -> 0 <= n -> b ^ Z.of_nat m <= n ->
  digits b n = digits b (n / b ^ Z.of_nat m) ++ fixdigs b m n.
Proof.
  intros Hb Hn Hm.
  assert (0 < b ^ Z.of_nat m) by (apply Z.pow_pos_nonneg; lia).
  assert (0 < n / b ^ Z.of_nat m) by (apply Z.div_str_pos; lia).
  set (q := n / b ^ Z.of_nat m) in *.
  rewrite (digits_fixdigs b n) by lia.
  rewrite (digits_fixdigs b q) by lia.
  transitivity (fixdigs b (Z.to_nat (zlen (digits b q)) + m) n);
    [f_equal | rewrite fixdigs_app by lia; reflexivity].
  assert (zlen (digits b n) = zlen (digits b q) + Z.of_nat m).
  { apply digits_length_unique; try lia.
    - pose proof (digits_nonempty b q Hb ltac:(lia)). lia.
    - pose proof (digits_lower b q Hb ltac:(lia)). pose proof (digits_upper b q Hb ltac:(lia)).
      pose proof (digits_nonempty b q Hb ltac:(lia)).
      replace (zlen (digits b q) + Z.of_nat m - 1) with ((zlen (digits b q) - 1) + Z.of_nat m) by lia.
      rewrite !Z.pow_add_r by lia.
      pose proof (Z.mul_div_le n (b ^ Z.of_nat m) ltac:(lia)).
      pose proof (Z.mul_succ_div_gt n (b ^ Z.of_nat m) ltac:(lia)).
      fold q in H4, H5. nia. }
  pose proof (zlen_nonneg (digits b q)). lia.
Qed.

Lemma digit_val_char d : 0 <= d < 36 -> digit_val (digit_char d) = d.
Proof.
  unfold digit_val, digit_char; intros. destruct (d <? 10) eqn:E.
  - apply Z.ltb_lt in E. replace (48 + d <? 58) with true by (symmetry; apply Z.ltb_lt; lia). lia.
  - apply Z.ltb_ge in E. replace (87 + d <? 58) with false by (symmetry; apply Z.ltb_ge; lia). lia.
Qed.

(** ** Texts of numbers (Integer.toString(int), Long.toString(long,radix) for n >= 0, BigInteger.toString) *)
Definition numeral (b n : Z) : list Z := map digit_char (digits b n).

(** decimal text of any integer, with '-' *)
Definition dec_text (n : Z) : list Z :=
  if n <? 0 then ch "-" :: numeral 10 (- n) else numeral 10 n.

Definition of_numeral (b : Z) (s : list Z) : Z := of_digits b (map digit_val s).

Lemma of_numeral_numeral b n : 2 <= b <= 36 -> 0 <= n -> of_numeral b (numeral b n) = n.
Proof.
  intros Hb Hn. unfold of_numeral, numeral. rewrite map_map.
  rewrite (map_ext_in _ (fun x => x)).
  - rewrite map_id. apply digits_value; lia.
  - intros d Hd. apply digit_val_char.
    pose proof (digits_digits_ok b n ltac:(lia) Hn) as Hok.
    unfold digits_ok in Hok. rewrite Forall_forall in Hok. apply Hok in Hd. lia.
Qed.

Lemma zlen_numeral b n : zlen (numeral b n) = zlen (digits b n).
Proof. unfold numeral. apply zlen_map. Qed.
