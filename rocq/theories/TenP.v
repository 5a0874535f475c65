(** The largest power of ten that is a java.math.BigInteger, without computing it: 10^n is enclosed between dyadic
    numbers of about 80 bits by repeated squaring. *)
From Verif Require Import Base.

Definition trim_lo (x : Z * Z) : Z * Z := let (m, e) := x in let k := Z.max 0 (Z.log2 m - 80) in (m / 2 ^ k, e + k).
Definition trim_hi (x : Z * Z) : Z * Z := let (m, e) := x in let k := Z.max 0 (Z.log2 m - 80) in (- ((- m) / 2 ^ k), e + k).
Fixpoint ten_lo (p : positive) : Z * Z :=
  match p with
  | xH => (10, 0)
  | xO p => let (m, e) := ten_lo p in trim_lo (m * m, 2 * e)
  | xI p => let (m, e) := ten_lo p in trim_lo (10 * (m * m), 2 * e)
  end.
Fixpoint ten_hi (p : positive) : Z * Z :=
  match p with
  | xH => (10, 0)
  | xO p => let (m, e) := ten_hi p in trim_hi (m * m, 2 * e)
  | xI p => let (m, e) := ten_hi p in trim_hi (10 * (m * m), 2 * e)
  end.

Lemma pow_even x p : x ^ Z.pos p~0 = x ^ Z.pos p * x ^ Z.pos p.
Proof. rewrite <- Z.pow_add_r by lia. f_equal. lia. Qed.
Lemma pow_odd x p : x ^ Z.pos p~1 = x * (x ^ Z.pos p * x ^ Z.pos p).
Proof. rewrite <- Z.pow_add_r by lia. rewrite <- Z.pow_succ_r by lia. f_equal. lia. Qed.

Lemma trim_lo_le m e v : 0 <= m -> 0 <= e -> m * 2 ^ e <= v ->
  let (m', e') := trim_lo (m, e) in 0 <= m' /\ 0 <= e' /\ m' * 2 ^ e' <= v.
Proof.
  intros Hm He Hv. cbn [trim_lo]. set (k := Z.max 0 (Z.log2 m - 80)). assert (0 <= k) by lia. clearbody k.
  pose proof (Z.pow_pos_nonneg 2 k ltac:(lia) ltac:(lia)). pose proof (Z.pow_pos_nonneg 2 e ltac:(lia) ltac:(lia)).
  split; [apply Z.div_pos; lia|]. split; [lia|]. rewrite Z.pow_add_r by lia.
  pose proof (Z.mul_div_le m (2 ^ k) ltac:(lia)). set (a := m / 2 ^ k) in *. set (b := 2 ^ k) in *. set (c := 2 ^ e) in *. clearbody a b c. nia.
Qed.

Lemma trim_hi_ge m e v : 0 <= m -> 0 <= e -> v <= m * 2 ^ e ->
  let (m', e') := trim_hi (m, e) in 0 <= m' /\ 0 <= e' /\ v <= m' * 2 ^ e'.
Proof.
  intros Hm He Hv. cbn [trim_hi]. set (k := Z.max 0 (Z.log2 m - 80)). assert (0 <= k) by lia. clearbody k.
  pose proof (Z.pow_pos_nonneg 2 k ltac:(lia) ltac:(lia)). pose proof (Z.pow_pos_nonneg 2 e ltac:(lia) ltac:(lia)).
  pose proof (Z.mul_div_le (- m) (2 ^ k) ltac:(lia)). rewrite Z.pow_add_r by lia. set (a := - m / 2 ^ k) in *. set (b := 2 ^ k) in *. set (c := 2 ^ e) in *. clearbody a b c.
  split; [nia|]. split; [lia|]. nia.
Qed.

Lemma ten_lo_le p : let (m, e) := ten_lo p in 0 <= m /\ 0 <= e /\ m * 2 ^ e <= 10 ^ Z.pos p.
Proof.
  induction p as [p H|p H|]; cbn [ten_lo]; [| |cbn; lia]; destruct (ten_lo p) as [m e]; destruct H as (H1 & H2 & H3).
  - apply trim_lo_le; [nia|lia|]. rewrite pow_odd. replace (2 * e) with (e + e) by lia. rewrite Z.pow_add_r by lia.
    pose proof (Z.pow_pos_nonneg 2 e ltac:(lia) ltac:(lia)). set (a := 2 ^ e) in *. set (t := 10 ^ Z.pos p) in *. clearbody a t. assert (0 <= m * a) by nia.
    assert ((m * a) * (m * a) <= t * t) by nia. nia.
  - apply trim_lo_le; [nia|lia|]. rewrite pow_even. replace (2 * e) with (e + e) by lia. rewrite Z.pow_add_r by lia.
    pose proof (Z.pow_pos_nonneg 2 e ltac:(lia) ltac:(lia)). set (a := 2 ^ e) in *. set (t := 10 ^ Z.pos p) in *. clearbody a t. assert (0 <= m * a) by nia.
    assert ((m * a) * (m * a) <= t * t) by nia. nia.
Qed.

Lemma ten_hi_ge p : let (m, e) := ten_hi p in 0 <= m /\ 0 <= e /\ 10 ^ Z.pos p <= m * 2 ^ e.
Proof.
  induction p as [p H|p H|]; cbn [ten_hi]; [| |cbn; lia]; destruct (ten_hi p) as [m e]; destruct H as (H1 & H2 & H3).
  - apply trim_hi_ge; [nia|lia|]. rewrite pow_odd. replace (2 * e) with (e + e) by lia. rewrite Z.pow_add_r by lia.
    pose proof (Z.pow_pos_nonneg 2 e ltac:(lia) ltac:(lia)). pose proof (Z.pow_pos_nonneg 10 (Z.pos p) ltac:(lia) ltac:(lia)).
    set (a := 2 ^ e) in *. set (t := 10 ^ Z.pos p) in *. clearbody a t.
    assert (t * t <= (m * a) * (m * a)) by nia. nia.
  - apply trim_hi_ge; [nia|lia|]. rewrite pow_even. replace (2 * e) with (e + e) by lia. rewrite Z.pow_add_r by lia.
    pose proof (Z.pow_pos_nonneg 2 e ltac:(lia) ltac:(lia)). pose proof (Z.pow_pos_nonneg 10 (Z.pos p) ltac:(lia) ltac:(lia)).
    set (a := 2 ^ e) in *. set (t := 10 ^ Z.pos p) in *. clearbody a t.
    assert (t * t <= (m * a) * (m * a)) by nia. nia.
Qed.

Lemma ten_above_by p k : (let (m, e) := ten_lo p in (0 <=? k - e) && (2 ^ (k - e) <? m)) = true -> 2 ^ k < 10 ^ Z.pos p.
Proof.
  pose proof (ten_lo_le p) as H. destruct (ten_lo p) as [m e]. intros C. destruct H as (H1 & H2 & H3).
  apply andb_prop in C as [C1 C2]. apply Z.leb_le in C1. apply Z.ltb_lt in C2.
  replace (2 ^ k) with (2 ^ (k - e) * 2 ^ e) by (rewrite <- Z.pow_add_r by lia; f_equal; lia).
  pose proof (Z.pow_pos_nonneg 2 e ltac:(lia) ltac:(lia)). set (a := 2 ^ e) in *. set (b := 2 ^ (k - e)) in *. set (t := 10 ^ Z.pos p) in *. clearbody a b t. nia.
Qed.

Lemma ten_below_by p k : (let (m, e) := ten_hi p in (0 <=? k - e) && (m <? 2 ^ (k - e))) = true -> 10 ^ Z.pos p < 2 ^ k.
Proof.
  pose proof (ten_hi_ge p) as H. destruct (ten_hi p) as [m e]. intros C. destruct H as (H1 & H2 & H3).
  apply andb_prop in C as [C1 C2]. apply Z.leb_le in C1. apply Z.ltb_lt in C2.
  replace (2 ^ k) with (2 ^ (k - e) * 2 ^ e) by (rewrite <- Z.pow_add_r by lia; f_equal; lia).
  pose proof (Z.pow_pos_nonneg 2 e ltac:(lia) ltac:(lia)). set (a := 2 ^ e) in *. set (b := 2 ^ (k - e)) in *. set (t := 10 ^ Z.pos p) in *. clearbody a b t. nia.
Qed.

Lemma ten_above : 2 ^ 2147483647 < 10 ^ 646456993.
Proof. apply ten_above_by. vm_compute. reflexivity. Qed.

Lemma ten_below : 10 ^ 646456992 < 2 ^ 2147483647.
Proof. apply ten_below_by. vm_compute. reflexivity. Qed.

(** the powers of ten below 2^(2^31 - 1) *)
Lemma ten_range_gen N B n : 10 ^ N < B -> B < 10 ^ (N + 1) -> 0 <= n -> (10 ^ n < B <-> n <= N).
Proof.
  intros Hl Hh Hn. split; intros H.
  - destruct (Z_le_gt_dec n N) as [|G]; [assumption|]. exfalso. pose proof (Z.pow_le_mono_r 10 (N + 1) n ltac:(lia) ltac:(lia)). lia.
  - pose proof (Z.pow_le_mono_r 10 n N ltac:(lia) H). lia.
Qed.

Lemma ten_range n : 0 <= n -> (10 ^ n < 2 ^ 2147483647 <-> n <= 646456992).
Proof. apply ten_range_gen; [exact ten_below|exact ten_above]. Qed.

Lemma ten_digits_gen N K n u : 2 ^ K < 10 ^ (N + 1) -> 0 < u -> Z.log2 u < K -> 10 ^ n <= u -> n <= N.
Proof.
  intros H Hu Hl Hn. destruct (Z_le_gt_dec n N) as [|G]; [assumption|]. exfalso. pose proof (Z.log2_spec u Hu) as [_ S].
  pose proof (Z.pow_le_mono_r 2 (Z.succ (Z.log2 u)) K ltac:(lia) ltac:(lia)).
  pose proof (Z.pow_le_mono_r 10 (N + 1) n ltac:(lia) ltac:(lia)). lia.
Qed.

Lemma ten_digits n u : 0 < u -> Z.log2 u < 2147483647 -> 10 ^ n <= u -> n <= 646456992.
Proof. apply ten_digits_gen. exact ten_above. Qed.
