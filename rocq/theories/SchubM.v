(** DoubleToDecimal.toDecimal(q, c, dk) with exact arithmetic instead of rop: the same function. *)
From Verif Require Import Base GTable MathM DecimalM MathP GCheck CertCheck IrrCheck.

(** the value c * A / B, its rounding interval cbl * A / 4B .. cbr * A / 4B, closed iff c is even *)
Section Ideal.
  Variables c A B cbl cbr : Z.
  Definition above_left (m : Z) : bool := if Z.even c then cbl * A <=? 4 * m * B else cbl * A <? 4 * m * B.
  Definition below_right (m : Z) : bool := if Z.even c then 4 * m * B <=? cbr * A else 4 * m * B <? cbr * A.
  Definition ideal (k dk : Z) : Z * Z :=
    let s := c * A / B in
    let s10 := 10 * (s / 10) in
    if (100 <=? s) && xorb (above_left s10) (below_right (s10 + 10)) then
      (if above_left s10 then s10 else s10 + 10, k)
    else if xorb (above_left s) (below_right (s + 1)) then (if above_left s then s else s + 1, k + dk)
    else
      match 2 * c * A ?= (2 * s + 1) * B with
      | Lt => (s, k + dk)
      | Eq => (if Z.even s then s else s + 1, k + dk)
      | Gt => (s + 1, k + dk)
      end.
End Ideal.

Definition regular (q c : Z) : bool := negb (c =? C_MIN) || (q =? Q_MIN).
Definition scale (q c : Z) : Z := if regular q c then flog10pow2 q else flog10threeQuartersPow2 q.
Definition left_end (q c : Z) : Z := if regular q c then 4 * c - 2 else 4 * c - 1.

Lemma lshl_small x n : 0 <= n < 64 -> - 2 ^ 63 <= x * 2 ^ n < 2 ^ 63 -> lshl x n = x * 2 ^ n.
Proof. intros Hn H. unfold lshl. rewrite (Z.mod_small n 64) by lia. apply wrap64_small. exact H. Qed.

Lemma wrap32_small x : - 2 ^ 31 <= x < 2 ^ 31 -> wrap32 x = x.
Proof. intros H. apply wrap32_id. unfold is_int, int_min, int_max. lia. Qed.

Lemma land_1 x : Z.land x 1 = if Z.even x then 0 else 1.
Proof. change 1 with (2 ^ 1 - 1) at 1. rewrite land_mask by lia. rewrite Z.pow_1_r, Zmod_even. reflexivity. Qed.

Lemma wrap32_even x : Z.even (wrap32 x) = Z.even x.
Proof.
  assert (E : (wrap32 x) mod 2 ^ 32 = x mod 2 ^ 32) by (unfold wrap32; apply wrapN_mod; lia).
  assert (G : forall u, Z.even u = Z.even (u mod 2 ^ 32)).
  { intros u. rewrite (Z.div_mod u (2 ^ 32)) at 1 by lia. rewrite Z.even_add, Z.even_mul.
    change (Z.even (2 ^ 32)) with true. cbn [orb]. destruct (Z.even (u mod 2 ^ 32)); reflexivity. }
  rewrite (G (wrap32 x)), E. symmetry. apply G.
Qed.

(** the scale and the products of both spacings together *)
Lemma exact_products q c : -1074 <= q <= 971 -> 0 < c < 2 ^ 53 ->
  let k := scale q c in let h := hval q k in
  K_MIN <= k <= K_MAX /\ 2 <= h <= 5 /\
  (aden q k <= anum q k /\ 3 * anum q k < 40 * aden q k) /\
  (if regular q c then aden q k <= anum q k < 10 * aden q k else 4 * aden q k < 3 * anum q k) /\
  exists a b, g1 k = Ok a /\ g0 k = Ok b /\
    rop_exact q k h a b (4 * c) /\ rop_exact q k h a b (left_end q c) /\ rop_exact q k h a b (4 * c + 2).
Proof.
  intros Hq Hc. unfold scale, left_end. destruct (regular q c) eqn:R; cbv zeta.
  - destruct (regular_exact q Hq) as (H1 & H2 & H3 & a & b & E1 & E0 & H). set (k := flog10pow2 q) in *. set (h := hval q k) in *.
    pose proof (aden_pos q k). split; [exact H1|]. split; [exact H2|]. split; [lia|]. split; [lia|]. exists a, b. split; [exact E1|]. split; [exact E0|].
    split; [|split].
    + replace (4 * c) with (2 * (2 * c)) by ring. apply H. lia.
    + replace (4 * c - 2) with (2 * (2 * c - 1)) by ring. apply H. lia.
    + replace (4 * c + 2) with (2 * (2 * c + 1)) by ring. apply H. lia.
  - unfold regular in R. apply orb_false_elim in R as [R1 R2]. apply negb_false_iff, Z.eqb_eq in R1. apply Z.eqb_neq in R2.
    unfold Q_MIN in R2. destruct (irregular_exact q ltac:(lia)) as (H1 & H2 & H3 & a & b & E1 & E0 & Hl & Hm & Hr). set (k := flog10threeQuartersPow2 q) in *. set (h := hval q k) in *.
    pose proof (aden_pos q k). split; [exact H1|]. split; [exact H2|]. split; [lia|]. split; [lia|]. exists a, b. split; [exact E1|]. split; [exact E0|].
    subst c. repeat split; try apply Hl; try apply Hm; apply Hr.
Qed.

Lemma cmp_le x y z w : (x ?= y) = (z ?= w) -> (x <=? y) = (z <=? w).
Proof. intros H. unfold Z.leb. rewrite H. reflexivity. Qed.
Lemma cmp_lt x y z w : (x ?= y) = (z ?= w) -> (x <? y) = (z <? w).
Proof. intros H. unfold Z.ltb. rewrite H. reflexivity. Qed.
Lemma cmp_ge x y z w : (x ?= y) = (z ?= w) -> (y <=? x) = (w <=? z).
Proof. intros H. unfold Z.leb. rewrite (Z.compare_antisym x y), H, <- Z.compare_antisym. reflexivity. Qed.
Lemma cmp_gt x y z w : (x ?= y) = (z ?= w) -> (y <? x) = (w <? z).
Proof. intros H. unfold Z.ltb. rewrite (Z.compare_antisym x y), H, <- Z.compare_antisym. reflexivity. Qed.

Lemma tenth s : 0 <= s < 2 ^ 58 -> multiplyHigh s (lshl 115292150460684698 4) = s / 10.
Proof.
  intros H. change (lshl 115292150460684698 4) with 1844674407370955168. unfold multiplyHigh. symmetry.
  apply (Z.div_unique_pos _ _ _ (s * 1844674407370955168 - 2 ^ 64 * (s / 10))); [|ring].
  pose proof (Z.div_mod s 10 ltac:(lia)). pose proof (Z.mod_pos_bound s 10 ltac:(lia)). lia.
Qed.

Lemma toDecimal4_ideal q c dk : -1074 <= q <= 971 -> 0 < c < 2 ^ 53 -> -1 <= dk <= 0 ->
  toDecimal4 q c dk = Ok (ideal c (anum q (scale q c)) (aden q (scale q c)) (left_end q c) (4 * c + 2) (scale q c) dk).
Proof.
  intros Hq Hc Hdk. destruct (exact_products q c Hq Hc) as (Hk & Hh & Ha & Hr & a & b & E1 & E0 & (Bm & Cm) & (Bl & Cl) & (Br & Cr)).
  unfold K_MIN, K_MAX in Hk. set (k := scale q c) in *. set (h := hval q k) in *.
  set (A := anum q k) in *. set (B := aden q k) in *.
  pose proof (aden_pos q k) as PB. pose proof (anum_pos q k) as PA. fold A in PA. fold B in PB.
  pose proof (pow_h_bounds h Hh) as Hp.
  unfold toDecimal4. cbv zeta. rewrite (lshl_small c 2) by lia. change (2 ^ 2) with 4.
  replace (c * 4) with (4 * c) by ring. rewrite (wrap64_small (4 * c + 2)), (wrap64_small (4 * c - 2)), (wrap64_small (4 * c - 1)) by lia.
  fold (regular q c).
  replace (if regular q c then (4 * c - 2, flog10pow2 q) else (4 * c - 1, flog10threeQuartersPow2 q)) with (left_end q c, k)
    by (unfold left_end, k, scale; destruct (regular q c); reflexivity).
  rewrite (wrap32_small (- k)) by lia. fold (gexp k).
  assert (Eh : wrap32 (wrap32 (q + gexp k) + 2) = h).
  { unfold h, hval in *. rewrite (wrap32_small (q + gexp k)) by lia. apply wrap32_small. lia. }
  rewrite Eh, E1, E0. cbn [bind].
  assert (BL : 0 < left_end q c < 2 ^ 55) by (unfold left_end; destruct (regular q c); lia).
  rewrite (lshl_small (4 * c) h), (lshl_small (left_end q c) h), (lshl_small (4 * c + 2) h) by nia.
  set (vb := rop a b (4 * c * 2 ^ h)) in *. set (vbl := rop a b (left_end q c * 2 ^ h)) in *. set (vbr := rop a b ((4 * c + 2) * 2 ^ h)) in *.
  clearbody vb vbl vbr. rewrite land_1, wrap32_even.
  rewrite (lshr_spec vb 2) by lia. change (2 ^ 2) with 4.
  assert (Es : vb / 4 = c * A / B).
  { apply Z.div_unique with (c * A - B * (vb / 4)); [left|ring].
    pose proof (Z.div_mod vb 4 ltac:(lia)). pose proof (Z.mod_pos_bound vb 4 ltac:(lia)).
    assert (L1 : 2 * (2 * (vb / 4)) <= vb) by lia. assert (L2 : vb < 2 * (2 * (vb / 4 + 1))) by lia.
    apply Z.leb_le in L1. rewrite (cmp_ge _ _ _ _ (Cm _)) in L1. apply Z.leb_le in L1.
    apply Z.ltb_lt in L2. rewrite (cmp_lt _ _ _ _ (Cm _)) in L2. apply Z.ltb_lt in L2. lia. }
  unfold ideal. rewrite <- Es. set (s := vb / 4) in *. assert (Bs : 0 <= s) by (apply Z.div_pos; lia).
  assert (Bs' : s < 2 ^ 58).
  { rewrite Es. apply Z.div_lt_upper_bound; [lia|]. assert (c * (3 * A) <= 2 ^ 53 * (3 * A)) by (apply Z.mul_le_mono_nonneg_r; lia). lia. }
  rewrite tenth by lia. pose proof (Z.div_mod s 10 ltac:(lia)). pose proof (Z.mod_pos_bound s 10 ltac:(lia)).
  assert (B10 : 0 <= 10 * (s / 10) <= s) by lia.
  rewrite (wrap64_small (10 * (s / 10))) by lia. set (s10 := 10 * (s / 10)) in *. clearbody s10.
  rewrite (wrap64_small (s10 + 10)), (wrap64_small (s + 1)) by lia.
  rewrite (lshl_small s10 2), (lshl_small (s10 + 10) 2), (lshl_small s 2), (lshl_small (s + 1) 2), (wrap64_small (s + (s + 1))), (lshl_small (s + (s + 1)) 1) by lia.
  set (out := if Z.even c then 0 else 1). assert (Bo : 0 <= out <= 1) by (unfold out; destruct (Z.even c); lia).
  change (2 ^ 2) with 4. change (2 ^ 1) with 2.
  rewrite (wrap64_small (vbl + out)), (wrap64_small ((s10 + 10) * 4 + out)), (wrap64_small ((s + 1) * 4 + out)), (wrap64_small (vb - _)) by lia.
  assert (LL : forall m, (vbl + out <=? m * 4) = above_left c A B (left_end q c) m).
  { intros m. unfold above_left, out. specialize (Cl (2 * m)). replace (2 * (2 * m)) with (m * 4) in Cl by ring.
    replace (4 * m * B) with (m * 4 * B) by ring. destruct (Z.even c).
    - rewrite Z.add_0_r. apply cmp_le. exact Cl.
    - rewrite <- (cmp_lt _ _ _ _ Cl). apply eq_true_iff_eq. rewrite Z.leb_le, Z.ltb_lt. lia. }
  assert (RR : forall m, (m * 4 + out <=? vbr) = below_right c A B (4 * c + 2) m).
  { intros m. unfold below_right, out. specialize (Cr (2 * m)). replace (2 * (2 * m)) with (m * 4) in Cr by ring.
    replace (4 * m * B) with (m * 4 * B) by ring. destruct (Z.even c).
    - rewrite Z.add_0_r. apply cmp_ge. exact Cr.
    - rewrite <- (cmp_gt _ _ _ _ Cr). apply eq_true_iff_eq. rewrite Z.leb_le, Z.ltb_lt. lia. }
  rewrite !LL, !RR. rewrite (wrap32_small (k + dk)) by lia.
  destruct ((100 <=? s) && _); [reflexivity|].
  destruct (xorb _ _) eqn:X; [reflexivity|].
  specialize (Cm (2 * s + 1)).
  assert (CC : (2 * c * A ?= (2 * s + 1) * B) = (vb ?= 2 * (2 * s + 1))).
  { rewrite Cm. destruct (Z.compare_spec (4 * c * A) (2 * (2 * s + 1) * B)); [apply Z.compare_eq_iff|apply Z.compare_lt_iff|apply Z.compare_gt_iff]; lia. }
  rewrite CC. rewrite land_1. replace ((s + (s + 1)) * 2) with (2 * (2 * s + 1)) by ring.
  destruct (Z.compare_spec vb (2 * (2 * s + 1))) as [E|E|E].
  - rewrite E, Z.sub_diag. cbn [Z.ltb Z.compare orb]. rewrite Z.eqb_refl. cbn [andb]. destruct (Z.even s); reflexivity.
  - replace (vb - _ <? 0) with true by (symmetry; apply Z.ltb_lt; lia). reflexivity.
  - replace (vb - _ <? 0) with false by (symmetry; apply Z.ltb_ge; lia).
    replace (vb - _ =? 0) with false by (symmetry; apply Z.eqb_neq; lia). reflexivity.
Qed.
