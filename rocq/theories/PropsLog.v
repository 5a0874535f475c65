(** C93: the logarithms of MathUtils.java over the whole of their documented ranges. *)
From Coq Require Import QArith Qpower Lqa.
From Verif Require Import Base MathM MathP RoundP CastP NearP FloatQ LogP.
Open Scope Z_scope.

(** in these ranges none of the operations overflows; outside, the product with the constant soon does *)
Lemma flog10pow2_is e : -10000000 <= e <= 10000000 -> flog10pow2 e = e * 661971961083 / 2199023255552.
Proof.
  intros H. unfold flog10pow2, C_10, Q_10. rewrite wrap64_small by lia. rewrite lshr_spec by lia. change (2 ^ 41) with 2199023255552.
  rewrite FmtP.wrap32_small; [reflexivity|]. pose proof (Z.div_mod (e * 661971961083) 2199023255552). pose proof (Z.mod_pos_bound (e * 661971961083) 2199023255552). lia.
Qed.
Lemma flog10threeQuartersPow2_is e : -10000000 <= e <= 10000000 -> flog10threeQuartersPow2 e = (e * 661971961083 - 274743187321) / 2199023255552.
Proof.
  intros H. unfold flog10threeQuartersPow2, C_10, A_10, Q_10. rewrite (wrap64_small (e * _)) by lia. rewrite wrap64_small by lia. rewrite lshr_spec by lia. change (2 ^ 41) with 2199023255552.
  replace (e * 661971961083 + -274743187321) with (e * 661971961083 - 274743187321) by lia. rewrite FmtP.wrap32_small; [reflexivity|]. pose proof (Z.div_mod (e * 661971961083 - 274743187321) 2199023255552). pose proof (Z.mod_pos_bound (e * 661971961083 - 274743187321) 2199023255552). lia.
Qed.
Lemma flog2pow10_is e : -10000000 <= e <= 10000000 -> flog2pow10 e = e * 913124641741 / 274877906944.
Proof.
  intros H. unfold flog2pow10, C_2, Q_2. rewrite wrap64_small by lia. rewrite lshr_spec by lia. change (2 ^ 38) with 274877906944.
  rewrite FmtP.wrap32_small; [reflexivity|]. pose proof (Z.div_mod (e * 913124641741) 274877906944). pose proof (Z.mod_pos_bound (e * 913124641741) 274877906944). lia.
Qed.

Open Scope Q_scope.

(** at most one integer is the floor of the logarithm *)
Lemma ten_exponent_unique x k l : 10 ^ k <= x < 10 ^ (k + 1) -> 10 ^ l <= x < 10 ^ (l + 1) -> k = l.
Proof.
  intros [H1 H2] [H3 H4]. destruct (Z.lt_trichotomy k l) as [L|[E|L]]; [|exact E|].
  - pose proof (ten_le (k + 1) l ltac:(lia)). lra.
  - pose proof (ten_le (l + 1) k ltac:(lia)). lra.
Qed.
Lemma two_exponent_unique x k l : 2 ^ k <= x < 2 ^ (k + 1) -> 2 ^ l <= x < 2 ^ (l + 1) -> k = l.
Proof.
  intros [H1 H2] [H3 H4]. destruct (Z.lt_trichotomy k l) as [L|[E|L]]; [|exact E|].
  - pose proof (two_le (k + 1) l ltac:(lia)). lra.
  - pose proof (two_le (l + 1) k ltac:(lia)). lra.
Qed.

Theorem C93_flog10pow2 : forall e k : Z, (-6432162 <= e <= 6432162)%Z -> flog10pow2 e = k <-> 10 ^ k <= 2 ^ e < 10 ^ (k + 1).
Proof.
  intros e k He. assert (G : 10 ^ flog10pow2 e <= 2 ^ e < 10 ^ (flog10pow2 e + 1)).
  { rewrite flog10pow2_is by lia. set (l := (e * 661971961083 / 2199023255552)%Z).
    assert (L1 : (l * 2199023255552 <= e * 661971961083)%Z) by (unfold l; pose proof (Z.mul_div_le (e * 661971961083) 2199023255552); lia).
    assert (L2 : (e * 661971961083 < (l + 1) * 2199023255552)%Z) by (unfold l; pose proof (Z.mul_succ_div_gt (e * 661971961083) 2199023255552); lia).
    destruct (Z.eq_dec e 0) as [E|N]; [subst e; change l with 0%Z; split; reflexivity || (vm_compute; discriminate)|]. split.
    - apply Qlt_le_weak, more_two. unfold LD, LT, Dp, Tp. destruct (Z.leb_spec 0 e) as [L|L]; [lia|].
      destruct (Z.lt_ge_cases (l * 18446744073709551616) (e * 5553023288523357133)) as [X|X]; [lia|]. pose proof (between_two (- e) (- l)). lia.
    - apply less_two. unfold LD, LT, Dp, Tp. destruct (Z.leb_spec 0 e) as [L|L]; [|lia].
      destruct (Z.lt_ge_cases (e * 5553023288523357133) ((l + 1) * 18446744073709551616)) as [X|X]; [lia|]. pose proof (between_two e (l + 1)). lia. }
  split; [intros <-; exact G|]. intros H. exact (ten_exponent_unique _ _ _ G H).
Qed.

Theorem C93_flog10threeQuartersPow2 : forall e k : Z, (-3606689 <= e <= 3150619)%Z -> flog10threeQuartersPow2 e = k <-> 10 ^ k <= (3 # 4) * 2 ^ e < 10 ^ (k + 1).
Proof.
  intros e k He. assert (G : 10 ^ flog10threeQuartersPow2 e <= (3 # 4) * 2 ^ e < 10 ^ (flog10threeQuartersPow2 e + 1)).
  { rewrite flog10threeQuartersPow2_is by lia. set (c := (e * 661971961083 - 274743187321)%Z). set (l := (c / 2199023255552)%Z).
    assert (L1 : (l * 2199023255552 <= c)%Z) by (unfold l; pose proof (Z.mul_div_le c 2199023255552); lia).
    assert (L2 : (c < (l + 1) * 2199023255552)%Z) by (unfold l; pose proof (Z.mul_succ_div_gt c 2199023255552); lia). unfold c in *. clearbody l. split.
    - apply Qlt_le_weak, more_quarters. unfold LD, LT, LB, Dp, Tp, Bp. destruct (Z.leb_spec 0 e) as [L|L]; [lia|].
      destruct (Z.lt_ge_cases (l * 18446744073709551616) (e * 5553023288523357133 - 2304712899105915766)) as [X|X]; [lia|]. pose proof (between_quarters_below_neg e l). lia.
    - apply less_quarters. unfold LD, LT, LB, Dp, Tp, Bp. destruct (Z.leb_spec 0 e) as [L|L].
      + destruct (Z.lt_ge_cases (e * 5553023288523357133 - 2304712899105915765) ((l + 1) * 18446744073709551616)) as [X|X]; [lia|]. pose proof (between_quarters_above e (l + 1)). lia.
      + destruct (Z.lt_ge_cases (e * 5553023288523357132 - 2304712899105915765) ((l + 1) * 18446744073709551616)) as [X|X]; [lia|]. pose proof (between_quarters_above_neg e (l + 1)). lia. }
  split; [intros <-; exact G|]. intros H. exact (ten_exponent_unique _ _ _ G H).
Qed.

Theorem C93_flog2pow10 : forall e k : Z, (-1838394 <= e <= 1838394)%Z -> flog2pow10 e = k <-> 2 ^ k <= 10 ^ e < 2 ^ (k + 1).
Proof.
  intros e k He. assert (G : 2 ^ flog2pow10 e <= 10 ^ e < 2 ^ (flog2pow10 e + 1)).
  { rewrite flog2pow10_is by lia. set (l := (e * 913124641741 / 274877906944)%Z).
    assert (L1 : (l * 274877906944 <= e * 913124641741)%Z) by (unfold l; pose proof (Z.mul_div_le (e * 913124641741) 274877906944); lia).
    assert (L2 : (e * 913124641741 < (l + 1) * 274877906944)%Z) by (unfold l; pose proof (Z.mul_succ_div_gt (e * 913124641741) 274877906944); lia).
    destruct (Z.eq_dec e 0) as [E|N]; [subst e; change l with 0%Z; split; reflexivity || (vm_compute; discriminate)|]. split.
    - apply Qlt_le_weak, less_two. unfold LD, LT, Dp, Tp. destruct (Z.leb_spec 0 l) as [L|L]; [lia|].
      destruct (Z.lt_ge_cases (l * 5553023288523357132) (e * 18446744073709551616)) as [X|X]; [lia|]. pose proof (between_ten (- e) (- l)). lia.
    - apply more_two. unfold LD, LT, Dp, Tp. destruct (Z.leb_spec 0 (l + 1)) as [L|L]; [|lia].
      destruct (Z.lt_ge_cases (e * 18446744073709551616) ((l + 1) * 5553023288523357132)) as [X|X]; [lia|]. pose proof (between_ten e (l + 1)). lia. }
  split; [intros <-; exact G|]. intros H. exact (two_exponent_unique _ _ _ G H).
Qed.

(** the documented limits are the best possible: one further, and the result is wrong *)
Theorem C93_limits :
  10 ^ (flog10pow2 6432163 + 1) < 2 ^ 6432163 /\ 2 ^ (-6432163) < 10 ^ flog10pow2 (-6432163) /\
  10 ^ (flog10threeQuartersPow2 3150620 + 1) < (3 # 4) * 2 ^ 3150620 /\ (3 # 4) * 2 ^ (-3606690) < 10 ^ flog10threeQuartersPow2 (-3606690) /\
  2 ^ (flog2pow10 1838395 + 1) < 10 ^ 1838395 /\ 10 ^ (-1838395) < 2 ^ flog2pow10 (-1838395).
Proof.
  repeat match goal with |- _ /\ _ => split end;
    [apply more_two|apply less_two|apply more_quarters|apply less_quarters|apply less_two|apply more_two]; reflexivity.
Qed.

(** the constants are what the comments beside them say (MathUtils.java:51-58) *)
Theorem C93_constants :
  10 ^ C_10 <= 2 ^ (2 ^ Q_10)%Z < 10 ^ (C_10 + 1) /\ 10 ^ A_10 <= (3 # 4) ^ (2 ^ Q_10)%Z < 10 ^ (A_10 + 1) /\ 2 ^ C_2 <= 10 ^ (2 ^ Q_2)%Z < 2 ^ (C_2 + 1).
Proof.
  repeat match goal with |- _ /\ _ => split end.
  - apply Qlt_le_weak, more_two. reflexivity.
  - apply less_two. reflexivity.
  - apply Qlt_le_weak, more_quarter; [discriminate|reflexivity].
  - apply less_quarter; [discriminate|reflexivity].
  - apply Qlt_le_weak, less_two. reflexivity.
  - apply more_two. reflexivity.
Qed.

(** the values at some exponents *)
Example C93_values : flog10pow2 6432162 = 1936273%Z /\ flog10pow2 10 = 3%Z /\ flog10pow2 (-10) = (-4)%Z /\ flog10threeQuartersPow2 4 = 1%Z /\ flog10threeQuartersPow2 (-3606689) = (-1085722)%Z /\
  flog2pow10 3 = 9%Z /\ flog2pow10 (-1838394) = (-6107013)%Z.
Proof. vm_compute. repeat split. Qed.

Print Assumptions C93_flog10pow2.
Print Assumptions C93_flog10threeQuartersPow2.
Print Assumptions C93_flog2pow10.
Print Assumptions C93_limits.
Print Assumptions C93_constants.
