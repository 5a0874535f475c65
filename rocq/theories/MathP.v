(** Facts about the arithmetic helpers: MultiplyHigh (C27), rop, shifts. *)
From Verif Require Import Base GTable MathM DecimalM.

Lemma wrap64_mod x : (wrap64 x) mod 2 ^ 64 = x mod 2 ^ 64.
Proof. unfold wrap64. apply wrapN_mod. lia. Qed.

Lemma wrap64_eqm x y : x mod 2 ^ 64 = y mod 2 ^ 64 -> wrap64 x = wrap64 y.
Proof. unfold wrap64. apply wrapN_eqm. lia. Qed.

Lemma wrap64_small x : - 2 ^ 63 <= x < 2 ^ 63 -> wrap64 x = x.
Proof. intros H. apply wrap64_id. unfold is_long, long_min, long_max. lia. Qed.

Lemma lushr_spec x n : 0 < n < 64 -> lushr x n = (x mod 2 ^ 64) / 2 ^ n.
Proof.
  intros H. unfold lushr. rewrite (Z.mod_small n 64) by lia. apply wrap64_small.
  pose proof (Z.mod_pos_bound x (2 ^ 64) ltac:(lia)).
  assert (0 < 2 ^ n) by (apply Z.pow_pos_nonneg; lia).
  assert (2 <= 2 ^ n) by (change 2 with (2 ^ 1) at 1; apply Z.pow_le_mono_r; lia).
  split; [apply Z.le_trans with 0; [lia|apply Z.div_pos; lia]|].
  apply Z.div_lt_upper_bound; [lia|]. nia.
Qed.

Lemma lshr_spec x n : 0 <= n < 64 -> lshr x n = x / 2 ^ n.
Proof. intros H. unfold lshr. rewrite (Z.mod_small n 64) by lia. reflexivity. Qed.

Lemma land_mask x n : 0 <= n -> Z.land x (2 ^ n - 1) = x mod 2 ^ n.
Proof. intros H. rewrite <- Z.land_ones by lia. rewrite Z.ones_equiv. reflexivity. Qed.

(** ** C27 *)

Lemma mulhigh_range x y : is_long x -> is_long y -> - 2 ^ 62 <= (x * y) / 2 ^ 64 <= 2 ^ 62.
Proof.
  unfold is_long, long_min, long_max. intros Hx Hy.
  assert (- (2 ^ 63 * 2 ^ 63) <= x * y <= 2 ^ 63 * 2 ^ 63) by nia.
  split; [apply Z.div_le_lower_bound|apply Z.div_le_upper_bound]; lia.
Qed.

Lemma slow_is_high x y : is_long x -> is_long y -> slowMultiplyHigh x y = multiplyHigh x y.
Proof.
  intros Hx Hy. unfold slowMultiplyHigh, multiplyHigh.
  pose proof (mulhigh_range x y Hx Hy) as HR. unfold is_long, long_min, long_max in Hx, Hy.
  rewrite !(lshr_spec x 32), !(lshr_spec y 32) by lia.
  change 4294967295 with (2 ^ 32 - 1). rewrite !land_mask by lia.
  set (x1 := x / 2 ^ 32). set (x2 := x mod 2 ^ 32). set (y1 := y / 2 ^ 32). set (y2 := y mod 2 ^ 32).
  assert (Ex : x = 2 ^ 32 * x1 + x2) by (apply Z.div_mod; lia).
  assert (Ey : y = 2 ^ 32 * y1 + y2) by (apply Z.div_mod; lia).
  assert (B2 : 0 <= x2 < 2 ^ 32) by (apply Z.mod_pos_bound; lia).
  assert (B3 : 0 <= y2 < 2 ^ 32) by (apply Z.mod_pos_bound; lia).
  assert (B0 : - 2 ^ 31 <= x1 < 2 ^ 31) by lia. assert (B1 : - 2 ^ 31 <= y1 < 2 ^ 31) by lia.
  clearbody x1 x2 y1 y2.
  rewrite lushr_spec by lia. rewrite wrap64_mod. rewrite (Z.mod_small (x2 * y2)) by nia.
  set (c := x2 * y2 / 2 ^ 32). assert (Ec : x2 * y2 = 2 ^ 32 * c + (x2 * y2) mod 2 ^ 32) by (apply Z.div_mod; lia).
  pose proof (Z.mod_pos_bound (x2 * y2) (2 ^ 32) ltac:(lia)) as Bl. set (lo := (x2 * y2) mod 2 ^ 32) in *.
  assert (Bc : 0 <= c < 2 ^ 32) by nia. clearbody c lo.
  rewrite (wrap64_small (x1 * y2)) by nia. rewrite (wrap64_small (x1 * y2 + c)) by nia.
  set (t := x1 * y2 + c). assert (Bt : - 2 ^ 63 <= t < 2 ^ 63) by (unfold t; nia).
  rewrite (lshr_spec t 32) by lia. set (z0 := t / 2 ^ 32). set (z1 := t mod 2 ^ 32).
  assert (Et : t = 2 ^ 32 * z0 + z1) by (apply Z.div_mod; lia).
  assert (Bz1 : 0 <= z1 < 2 ^ 32) by (apply Z.mod_pos_bound; lia).
  rewrite (wrap64_small (x2 * y1)) by nia. rewrite (wrap64_small (z1 + x2 * y1)) by nia.
  rewrite lshr_spec by lia. set (w := (z1 + x2 * y1) / 2 ^ 32).
  assert (Ew : z1 + x2 * y1 = 2 ^ 32 * w + (z1 + x2 * y1) mod 2 ^ 32) by (apply Z.div_mod; lia).
  pose proof (Z.mod_pos_bound (z1 + x2 * y1) (2 ^ 32) ltac:(lia)) as Bw. set (l2 := (z1 + x2 * y1) mod 2 ^ 32) in *.
  assert (Bwr : - 2 ^ 32 <= w <= 2 ^ 32) by nia. assert (Bz0 : - 2 ^ 32 <= z0 <= 2 ^ 32) by lia.
  rewrite (wrap64_small (x1 * y1)) by nia. rewrite (wrap64_small (x1 * y1 + z0)) by nia.
  assert (E : x1 * y1 + z0 + w = x * y / 2 ^ 64).
  { apply (Z.div_unique_pos _ _ _ (2 ^ 32 * l2 + lo)); [lia|]. subst t. subst x y. nia. }
  rewrite wrap64_small; [exact E|]. rewrite E. lia.
Qed.

(** ** rop *)

Definition sticky (w : Z) : Z := if w mod 2 ^ 63 =? 0 then w / 2 ^ 63 else Z.lor (w / 2 ^ 63) 1.

Lemma rop_spec a b cp : 0 <= a < 2 ^ 63 -> 0 <= b < 2 ^ 63 -> 0 <= cp < 2 ^ 62 -> Z.even cp = true ->
  rop a b cp = sticky (((a * 2 ^ 63 + b) * cp) / 2 ^ 64).
Proof.
  intros Ha Hb Hc He. apply Z.even_spec in He as [c' ->]. unfold rop, multiplyHigh.
  rewrite !lushr_spec by lia. rewrite !wrap64_mod.
  set (x1 := b * (2 * c') / 2 ^ 64). set (y := a * (2 * c')).
  assert (Bx1 : 0 <= x1 < 2 ^ 62) by (unfold x1; split; [apply Z.div_pos|apply Z.div_lt_upper_bound]; nia).
  set (y0 := y mod 2 ^ 64). set (y1 := y / 2 ^ 64).
  assert (Ey : y = 2 ^ 64 * y1 + y0) by (apply Z.div_mod; lia).
  assert (By0 : 0 <= y0 < 2 ^ 64) by (apply Z.mod_pos_bound; lia).
  assert (By1 : 0 <= y1 < 2 ^ 62) by (unfold y in Ey; nia).
  assert (Hy0 : exists h, y0 = 2 * h) by (exists (a * c' - 2 ^ 63 * y1); unfold y in Ey; nia).
  destruct Hy0 as (h & Eh). rewrite Eh. replace (2 * h / 2 ^ 1) with h by (rewrite Z.pow_1_r, Z.mul_comm, Z.div_mul; lia).
  rewrite (Z.mod_small (h + x1)) by lia.
  set (z := h + x1) in *. assert (Bz : 0 <= z < 2 ^ 64) by (unfold z; lia).
  assert (EW : (a * 2 ^ 63 + b) * (2 * c') / 2 ^ 64 = y1 * 2 ^ 63 + z).
  { symmetry. apply (Z.div_unique_pos _ _ _ ((b * (2 * c')) mod 2 ^ 64)); [apply Z.mod_pos_bound; lia|].
    pose proof (Z.div_mod (b * (2 * c')) (2 ^ 64) ltac:(lia)) as E. fold x1 in E. unfold z. unfold y in Ey. nia. }
  rewrite EW. unfold sticky.
  replace ((y1 * 2 ^ 63 + z) / 2 ^ 63) with (y1 + z / 2 ^ 63) by (rewrite Z.div_add_l; lia).
  replace ((y1 * 2 ^ 63 + z) mod 2 ^ 63) with (z mod 2 ^ 63) by (rewrite Z.add_comm, Z.mod_add; lia).
  assert (Bq : 0 <= z / 2 ^ 63 <= 1).
  { split; [apply Z.div_pos; lia|]. assert (z / 2 ^ 63 < 2) by (apply Z.div_lt_upper_bound; lia). lia. }
  rewrite (wrap64_small (y1 + z / 2 ^ 63)) by lia.
  change MASK_63 with (2 ^ 63 - 1). rewrite land_mask by lia.
  replace (wrap64 z mod 2 ^ 63) with (z mod 2 ^ 63).
  2:{ pose proof (wrap64_mod z) as E. 
      assert (G : forall u, u mod 2 ^ 63 = (u mod 2 ^ 64) mod 2 ^ 63).
      { intros u. rewrite (Z.div_mod u (2 ^ 64)) at 1 by lia. rewrite Z.add_comm.
        replace (2 ^ 64 * (u / 2 ^ 64)) with (2 * (u / 2 ^ 64) * 2 ^ 63) by lia. rewrite Z.mod_add by lia. reflexivity. }
      rewrite (G z), (G (wrap64 z)), E. reflexivity. }
  pose proof (Z.mod_pos_bound z (2 ^ 63) ltac:(lia)) as Bm.
  rewrite (Z.mod_small (z mod 2 ^ 63 + _)) by lia.
  destruct (z mod 2 ^ 63 =? 0) eqn:E.
  - apply Z.eqb_eq in E. rewrite E. change ((0 + (2 ^ 63 - 1)) / 2 ^ 63) with 0. apply Z.lor_0_r.
  - apply Z.eqb_neq in E. replace ((z mod 2 ^ 63 + (2 ^ 63 - 1)) / 2 ^ 63) with 1; [reflexivity|].
    apply Z.div_unique with (z mod 2 ^ 63 - 1); lia.
Qed.

Lemma lor_1_cases n : Z.lor n 1 = if Z.even n then n + 1 else n.
Proof.
  destruct n as [|[p|p|]|[p|p|]]; try reflexivity. cbn. destruct p; reflexivity.
Qed.

(** comparing a sticky-rounded number with an even number is comparing the number itself *)
Lemma sticky_lt w m : 2 * m * 2 ^ 63 < w -> 2 * m < sticky w.
Proof.
  intros H. unfold sticky. destruct (w mod 2 ^ 63 =? 0) eqn:E.
  - apply Z.eqb_eq in E. pose proof (Z.div_mod w (2 ^ 63) ltac:(lia)). lia.
  - assert (L : 2 * m <= w / 2 ^ 63) by (apply Z.div_le_lower_bound; lia).
    rewrite lor_1_cases. destruct (Z.even (w / 2 ^ 63)) eqn:Ev; [lia|].
    assert (w / 2 ^ 63 <> 2 * m) by (intros C; rewrite C, Z.even_mul in Ev; discriminate). lia.
Qed.

Lemma sticky_gt w m : w < 2 * m * 2 ^ 63 -> sticky w < 2 * m.
Proof.
  intros H. unfold sticky. assert (L : w / 2 ^ 63 < 2 * m) by (apply Z.div_lt_upper_bound; lia).
  destruct (w mod 2 ^ 63 =? 0); [exact L|]. rewrite lor_1_cases. destruct (Z.even (w / 2 ^ 63)) eqn:Ev; [|exact L].
  apply Z.even_spec in Ev as [u Eu]. lia.
Qed.

Lemma sticky_eq m : sticky (2 * m * 2 ^ 63) = 2 * m.
Proof. unfold sticky. rewrite Z.mod_mul by lia. cbn [Z.eqb]. apply Z.div_mul. lia. Qed.
