(** The decimals that read as a double form an interval around it. *)
From Coq Require Import QArith Qabs Qpower Lqa.
From Verif Require Import Base DecSpec.
Open Scope Q_scope.

Definition sig (b : Z) : Z := if (b / 2 ^ 52 =? 0)%Z then (b mod 2 ^ 52)%Z else (2 ^ 52 + b mod 2 ^ 52)%Z.
Definition expo (b : Z) : Z := (Z.max 1 (b / 2 ^ 52) - 1075)%Z.

Lemma dval_sig b : (0 <= b)%Z -> dval b == inject_Z (sig b) * 2 ^ expo b.
Proof.
  intros H. unfold dval, sig, expo. assert (0 <= b / 2 ^ 52)%Z by (apply Z.div_pos; lia).
  destruct (Z.eqb_spec (b / 2 ^ 52) 0) as [E|E].
  - rewrite E. reflexivity.
  - replace (Z.max 1 (b / 2 ^ 52)) with (b / 2 ^ 52)%Z by lia. reflexivity.
Qed.

Lemma two_pos n : 0 < 2 ^ n.
Proof. apply Qpower_0_lt. reflexivity. Qed.
Lemma ten_pos n : 0 < 10 ^ n.
Proof. apply Qpower_0_lt. reflexivity. Qed.

Lemma two_succ n : 2 ^ (n + 1) == 2 * 2 ^ n.
Proof. rewrite Qpower_plus by discriminate. rewrite Qpower_1_r. ring. Qed.

Lemma dval_succ b : (0 <= b)%Z -> dval (b + 1) == dval b + 2 ^ expo b.
Proof.
  intros H. rewrite !dval_sig by lia.
  pose proof (Z.div_mod b (2 ^ 52) ltac:(lia)) as D. pose proof (Z.mod_pos_bound b (2 ^ 52) ltac:(lia)) as M.
  set (e := (b / 2 ^ 52)%Z) in *. set (m := (b mod 2 ^ 52)%Z) in *. assert (He : (0 <= e)%Z) by (apply Z.div_pos; lia).
  destruct (Z_lt_ge_dec (m + 1) (2 ^ 52)) as [L|L].
  - assert (E1 : ((b + 1) / 2 ^ 52 = e)%Z) by (symmetry; apply (Z.div_unique_pos _ _ _ (m + 1)); lia).
    assert (E2 : ((b + 1) mod 2 ^ 52 = m + 1)%Z) by (symmetry; apply (Z.mod_unique_pos _ _ e); lia).
    assert (Es : sig (b + 1) = (sig b + 1)%Z) by (unfold sig; rewrite E1, E2; fold e m; destruct (e =? 0)%Z; lia).
    assert (Ee : expo (b + 1) = expo b) by (unfold expo; rewrite E1; reflexivity).
    rewrite Es, Ee, inject_Z_plus. ring.
  - assert (Em : m = (2 ^ 52 - 1)%Z) by lia.
    assert (E1 : ((b + 1) / 2 ^ 52 = e + 1)%Z) by (symmetry; apply (Z.div_unique_pos _ _ _ 0); lia).
    assert (E2 : ((b + 1) mod 2 ^ 52 = 0)%Z) by (symmetry; apply (Z.mod_unique_pos _ _ (e + 1)); lia).
    unfold sig, expo. rewrite E1, E2. fold e m. rewrite Em.
    replace (e + 1 =? 0)%Z with false by (symmetry; apply Z.eqb_neq; lia).
    destruct (Z.eqb_spec e 0) as [E|E].
    + rewrite E. change (Z.max 1 (0 + 1)) with 1%Z. change (Z.max 1 0) with 1%Z. set (u := 2 ^ _).
      change (inject_Z (2 ^ 52 + 0)) with (4503599627370496 # 1). change (inject_Z (2 ^ 52 - 1)) with (4503599627370495 # 1). ring.
    + replace (Z.max 1 (e + 1) - 1075)%Z with (Z.max 1 e - 1075 + 1)%Z by lia. rewrite two_succ. set (u := 2 ^ _).
      change (inject_Z (2 ^ 52 + 0)) with (4503599627370496 # 1). change (inject_Z (2 ^ 52 + (2 ^ 52 - 1))) with (9007199254740991 # 1). ring.
Qed.

Lemma dval_lt_nat n : forall b, (0 <= b)%Z -> dval b < dval (b + Z.of_nat (S n)).
Proof.
  induction n as [|n IH]; intros b H.
  - change (Z.of_nat 1) with 1%Z. rewrite dval_succ by exact H. pose proof (two_pos (expo b)). lra.
  - apply Qlt_trans with (dval (b + Z.of_nat (S n))); [apply IH; exact H|].
    replace (b + Z.of_nat (S (S n)))%Z with (b + Z.of_nat (S n) + 1)%Z by lia. rewrite dval_succ by lia.
    pose proof (two_pos (expo (b + Z.of_nat (S n)))). lra.
Qed.

Lemma dval_lt b b' : (0 <= b < b')%Z -> dval b < dval b'.
Proof.
  intros H. pose proof (dval_lt_nat (Z.to_nat (b' - b - 1)) b ltac:(lia)) as L.
  replace (b + Z.of_nat (S (Z.to_nat (b' - b - 1))))%Z with b' in L by lia. exact L.
Qed.

Lemma dval_le b b' : (0 <= b <= b')%Z -> dval b <= dval b'.
Proof.
  intros H. destruct (Z.eq_dec b b') as [->|N]; [apply Qle_refl|]. apply Qlt_le_weak. apply dval_lt. lia.
Qed.

(** nearer to v than to v' *)
Lemma near_below x v v' : v' < v -> (Qabs (x - v) <= Qabs (x - v') <-> (v + v') / 2 <= x).
Proof.
  intros H. assert (E : (v + v') / 2 == (v + v') * (1 # 2)) by reflexivity. rewrite E. clear E.
  apply (Qabs_case (x - v)); apply (Qabs_case (x - v')); intros; split; intros; lra.
Qed.
Lemma near_above x v v' : v < v' -> (Qabs (x - v) <= Qabs (x - v') <-> x <= (v + v') / 2).
Proof.
  intros H. assert (E : (v + v') / 2 == (v + v') * (1 # 2)) by reflexivity. rewrite E. clear E.
  apply (Qabs_case (x - v)); apply (Qabs_case (x - v')); intros; split; intros; lra.
Qed.
Lemma tie_mid x v v' : ~ v == v' -> (Qabs (x - v) == Qabs (x - v') <-> x == (v + v') / 2).
Proof.
  intros H. assert (E : (v + v') / 2 == (v + v') * (1 # 2)) by reflexivity. rewrite E. clear E.
  apply (Qabs_case (x - v)); apply (Qabs_case (x - v')); intros; split; intros; try lra; exfalso; apply H; lra.
Qed.

Definition between (closed : bool) (lo hi x : Q) : Prop := if closed then lo <= x <= hi else lo < x < hi.

Lemma rounds_to_iff x b : (0 < b < inf_bits)%Z ->
  (rounds_to x b <-> between (Z.even b) ((dval b + dval (b - 1)) / 2) ((dval b + dval (b + 1)) / 2) x).
Proof.
  intros Hb. pose proof (dval_lt (b - 1) b ltac:(lia)) as L1. pose proof (dval_lt b (b + 1) ltac:(lia)) as L2. split.
  - intros R. destruct (R (b - 1)%Z ltac:(lia)) as [R1 T1]. destruct (R (b + 1)%Z ltac:(lia)) as [R2 T2].
    apply near_below in R1; [|exact L1]. apply near_above in R2; [|exact L2]. unfold between. destruct (Z.even b) eqn:E.
    + split; assumption.
    + split; apply Qle_lteq in R1 as [R1|R1]; apply Qle_lteq in R2 as [R2|R2]; try assumption; exfalso.
      * assert (Tm : x == (dval b + dval (b - 1)) / 2) by (symmetry; exact R1). rewrite <- tie_mid in Tm by lra. specialize (T1 ltac:(lia) Tm). discriminate.
      * rewrite R2 in R1. assert (E1 : (dval b + dval (b - 1)) / 2 == (dval b + dval (b - 1)) * (1 # 2)) by reflexivity.
        assert (E2 : (dval b + dval (b + 1)) / 2 == (dval b + dval (b + 1)) * (1 # 2)) by reflexivity. rewrite E1, E2 in R1. lra.
      * rewrite <- tie_mid in R2 by lra. specialize (T2 ltac:(lia) R2). discriminate.
      * rewrite <- tie_mid in R2 by lra. specialize (T2 ltac:(lia) R2). discriminate.
  - intros I b' Hb'.
    assert (E1 : forall u v, (u + v) / 2 == (u + v) * (1 # 2)) by (intros; reflexivity).
    assert (I' : (dval b + dval (b - 1)) / 2 <= x <= (dval b + dval (b + 1)) / 2).
    { unfold between in I. destruct (Z.even b); [exact I|]. destruct I. split; apply Qlt_le_weak; assumption. }
    destruct I' as [I1 I2]. rewrite E1 in I1, I2.
    destruct (Z_lt_ge_dec b' b) as [L|G]; [|destruct (Z.eq_dec b' b) as [->|N]].
    + pose proof (dval_le b' (b - 1) ltac:(lia)) as L3. pose proof (dval_lt b' b ltac:(lia)) as L4. split.
      * apply near_below; [exact L4|]. rewrite E1. lra.
      * intros _ T. apply tie_mid in T; [|lra]. rewrite E1 in T. unfold between in I. destruct (Z.even b); [reflexivity|].
        destruct I as [I _]. rewrite E1 in I. lra.
    + split; [apply Qle_refl|]. intros N. contradiction.
    + pose proof (dval_le (b + 1) b' ltac:(lia)) as L3. pose proof (dval_lt b b' ltac:(lia)) as L4. split.
      * apply near_above; [exact L4|]. rewrite E1. lra.
      * intros _ T. apply tie_mid in T; [|lra]. rewrite E1 in T. unfold between in I. destruct (Z.even b); [reflexivity|].
        destruct I as [_ I]. rewrite E1 in I. lra.
Qed.

(** ** the two interval ends, as multiples of a quarter of the spacing *)

Lemma dval_pred b : (0 < b)%Z ->
  dval (b - 1) == if ((sig b =? 2 ^ 52) && negb (expo b =? -1074))%Z%bool then dval b - 2 ^ (expo b - 1) else dval b - 2 ^ expo b.
Proof.
  intros H. pose proof (dval_succ (b - 1) ltac:(lia)) as S. replace (b - 1 + 1)%Z with b in S by lia.
  assert (G : expo (b - 1) = if ((sig b =? 2 ^ 52) && negb (expo b =? -1074))%Z%bool then (expo b - 1)%Z else expo b).
  { unfold expo, sig.
    pose proof (Z.div_mod b (2 ^ 52) ltac:(lia)) as D. pose proof (Z.mod_pos_bound b (2 ^ 52) ltac:(lia)) as M.
    set (e := (b / 2 ^ 52)%Z) in *. set (m := (b mod 2 ^ 52)%Z) in *. assert (He : (0 <= e)%Z) by (apply Z.div_pos; lia).
    destruct (Z_lt_ge_dec 0 m) as [L|L].
    - assert (E1 : ((b - 1) / 2 ^ 52 = e)%Z) by (symmetry; apply (Z.div_unique_pos _ _ _ (m - 1)); lia). rewrite E1.
      replace (((if (e =? 0)%Z then m else (2 ^ 52 + m)%Z) =? 2 ^ 52)%Z) with false; [reflexivity|].
      symmetry. apply Z.eqb_neq. destruct (e =? 0)%Z; lia.
    - assert (Em : m = 0%Z) by lia. assert (E1 : ((b - 1) / 2 ^ 52 = e - 1)%Z) by (symmetry; apply (Z.div_unique_pos _ _ _ (2 ^ 52 - 1)); lia). rewrite E1, Em.
      destruct (Z.eqb_spec e 0) as [E|E]; [lia|]. replace (2 ^ 52 + 0 =? 2 ^ 52)%Z with true by reflexivity. cbn [andb].
      destruct (Z.eqb_spec (Z.max 1 e - 1075) (-1074)) as [E2|E2]; cbn [negb]; lia. }
  rewrite G in S. destruct (_ && _)%bool; lra.
Qed.

Lemma sig_even b : Z.even (sig b) = Z.even b.
Proof.
  unfold sig. assert (E : Z.even b = Z.even (b mod 2 ^ 52)).
  { rewrite (Z.div_mod b (2 ^ 52)) at 1 by lia. rewrite Z.even_add, Z.even_mul. change (Z.even (2 ^ 52)) with true. cbn [orb].
    destruct (Z.even (b mod 2 ^ 52)); reflexivity. }
  rewrite E. destruct (_ =? 0)%Z; [reflexivity|]. rewrite Z.even_add. change (Z.even (2 ^ 52)) with true. destruct (Z.even (b mod 2 ^ 52)); reflexivity.
Qed.
