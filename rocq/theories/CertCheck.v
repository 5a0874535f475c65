(** The products computed by rop are exact enough: comparing them with even numbers gives the same result as comparing
    the exact products with the powers of two and ten. One certificate per binary exponent. *)
From Verif Require Import Base GTable MathM DecimalM MathP GCheck CertTable.

(** 2^q / 10^k *)
Definition anum (q k : Z) : Z := 2 ^ Z.max 0 q * 10 ^ Z.max 0 (- k).
Definition aden (q k : Z) : Z := 2 ^ Z.max 0 (- q) * 10 ^ Z.max 0 k.

Lemma anum_pos q k : 0 < anum q k.
Proof. unfold anum. apply Z.mul_pos_pos; apply Z.pow_pos_nonneg; lia. Qed.
Lemma aden_pos q k : 0 < aden q k.
Proof. unfold aden. apply Z.mul_pos_pos; apply Z.pow_pos_nonneg; lia. Qed.

Definition gval (k : Z) : Z := match g1 k, g0 k with Ok a, Ok b => a * 2 ^ 63 + b | _, _ => 0 end.
Definition hval (q k : Z) : Z := q + gexp k + 2.

(** what the checks establish about [g] and the exact quotient *)
Lemma g_alpha q k g h : g_ok k g -> h = hval q k -> 0 <= h ->
  (g - 1) * 2 ^ h * aden q k <= anum q k * 2 ^ 127 /\ anum q k * 2 ^ 127 < g * 2 ^ h * aden q k.
Proof.
  intros ((G1 & G2) & _ & _) Eh Hh. unfold hval in Eh.
  assert (D : 0 < gden k) by (unfold gden; apply Z.mul_pos_pos; apply Z.pow_pos_nonneg; lia).
  assert (E : anum q k * 2 ^ 127 * gden k = aden q k * 2 ^ h * gnum k).
  { unfold anum, aden, gnum, gden.
    transitivity ((10 ^ Z.max 0 (- k) * 10 ^ Z.max 0 k) * (2 ^ Z.max 0 q * 2 ^ 127 * 2 ^ Z.max 0 (gexp k - 125))); [ring|].
    transitivity ((10 ^ Z.max 0 (- k) * 10 ^ Z.max 0 k) * (2 ^ Z.max 0 (- q) * 2 ^ h * 2 ^ Z.max 0 (125 - gexp k))); [|ring].
    f_equal. rewrite <- !Z.pow_add_r by lia. f_equal. lia. }
  assert (P : 0 < aden q k * 2 ^ h) by (apply Z.mul_pos_pos; [apply aden_pos|apply Z.pow_pos_nonneg; lia]).
  split.
  - apply (Z.mul_le_mono_pos_r _ _ (gden k) D). rewrite E.
    replace ((g - 1) * 2 ^ h * aden q k * gden k) with (aden q k * 2 ^ h * ((g - 1) * gden k)) by ring.
    apply Z.mul_le_mono_nonneg_l; lia.
  - apply (Z.mul_lt_mono_pos_r (gden k) _ _ D). rewrite E.
    replace (g * 2 ^ h * aden q k * gden k) with (aden q k * 2 ^ h * (g * gden k)) by ring.
    apply Z.mul_lt_mono_pos_l; lia.
Qed.

(** ** regular spacing: all significands at once *)

Definition check_cert (q : Z) (c : Z * Z * Z * Z) : bool :=
  let '(p1, q1, p2, q2) := c in
  let k := flog10pow2 q in
  let h := hval q k in
  let g := gval k in
  let T := 2 ^ 127 in
  let gh := g * 2 ^ h in
  let u := q1 * gh in
  let v := p1 * T in
  (2 <=? h) && (h <=? 5) && (p2 * q1 - p1 * q2 =? 1) && (1 <=? q1) && (1 <=? q2) && (2 ^ 54 <=? q1 + q2) && (q1 <=? 2 ^ 64) &&
  (T <=? gh - 2 ^ h) && (gh <=? 10 * T) && (q2 * gh <? p2 * T) && (v <=? u) &&
  (if v + 2 ^ 63 <=? u then v <=? u - q1 * 2 ^ h else q1 * anum q k =? p1 * aden q k) && (K_MIN <=? k) && (k <=? K_MAX).
Fixpoint check_certs (q : Z) (l : list (Z * Z * Z * Z)) : bool :=
  match l with [] => true | c :: r => check_cert q c && check_certs (q + 1) r end.

Lemma certs_ok : check_certs (-1074) cert_table = true.
Proof. vm_compute. reflexivity. Qed.
Lemma certs_length : List.length cert_table = 2046%nat.
Proof. vm_compute. reflexivity. Qed.

Lemma check_certs_nth l : forall q i, check_certs q l = true -> (i < List.length l)%nat ->
  check_cert (q + Z.of_nat i) (nth i l (0, 0, 0, 0)) = true.
Proof.
  induction l as [|c r IH]; intros q i H Hi; cbn [List.length] in Hi; [lia|].
  cbn [check_certs] in H. apply andb_prop in H as [H1 H2]. destruct i as [|i].
  - replace (q + Z.of_nat 0) with q by lia. exact H1.
  - replace (q + Z.of_nat (S i)) with (q + 1 + Z.of_nat i) by lia. apply IH; [exact H2|lia].
Qed.

Lemma cert_at q : -1074 <= q <= 971 -> exists c, check_cert q c = true.
Proof.
  intros H. exists (nth (Z.to_nat (q + 1074)) cert_table (0, 0, 0, 0)).
  pose proof (check_certs_nth cert_table (-1074) (Z.to_nat (q + 1074)) certs_ok ltac:(rewrite certs_length; lia)) as E.
  replace (-1074 + Z.of_nat (Z.to_nat (q + 1074))) with q in E by lia. exact E.
Qed.

(** neighbouring fractions have no fraction with a small denominator between them *)
Lemma neighbours p1 q1 p2 q2 n m : p2 * q1 - p1 * q2 = 1 -> 1 <= q1 -> 1 <= q2 -> 0 < n < q1 + q2 ->
  m * q1 <= p1 * n \/ p2 * n <= m * q2.
Proof.
  intros D H1 H2 Hn. destruct (Z_le_gt_dec (m * q1) (p1 * n)) as [L|L]; [auto|].
  destruct (Z_le_gt_dec (p2 * n) (m * q2)) as [L'|L']; [auto|]. exfalso.
  assert (E : n = q1 * (p2 * n - m * q2) + q2 * (m * q1 - p1 * n)) by (replace n with (n * (p2 * q1 - p1 * q2)) at 1 by (rewrite D; lia); ring).
  nia.
Qed.

Section Compare.
  Variables A B g h : Z.
  Hypothesis HA : 0 < A.
  Hypothesis HB : 0 < B.
  Hypothesis Hh : 0 <= h <= 6.
  Hypothesis Hlo : (g - 1) * 2 ^ h * B <= A * 2 ^ 127.
  Hypothesis Hhi : A * 2 ^ 127 < g * 2 ^ h * B.

  Lemma pow_h : 1 <= 2 ^ h <= 64.
  Proof. split; [change 1 with (2 ^ 0); apply Z.pow_le_mono_r; lia|change 64 with (2 ^ 6); apply Z.pow_le_mono_r; lia]. Qed.

  (** the three ways the computed product [W] compares *)
  Lemma cmp_of_bounds n m : 0 < n < 2 ^ 57 ->
    (2 * m * B < n * A -> 2 * m * 2 ^ 127 + 2 ^ 64 <= n * 2 ^ h * g) ->
    (n * A < 2 * m * B -> n * 2 ^ h * g < 2 * m * 2 ^ 127) ->
    (sticky (g * (n * 2 ^ h) / 2 ^ 64) ?= 2 * m) = (n * A ?= 2 * m * B).
  Proof.
    intros Hn H1 H2. pose proof pow_h as Hp. replace (g * (n * 2 ^ h)) with (n * 2 ^ h * g) by ring.
    destruct (Z.compare_spec (n * A) (2 * m * B)) as [E|E|E].
    - replace (n * 2 ^ h * g / 2 ^ 64) with (2 * m * 2 ^ 63); [rewrite sticky_eq; apply Z.compare_refl|].
      apply (Z.div_unique_pos _ _ _ (n * 2 ^ h * g - 2 * m * 2 ^ 63 * 2 ^ 64)); [|ring].
      assert (L1 : n * A * 2 ^ 127 < n * (g * 2 ^ h * B)) by nia.
      assert (L2 : n * ((g - 1) * 2 ^ h * B) <= n * A * 2 ^ 127) by nia.
      rewrite E in L1, L2.
      assert (L3 : 2 * m * 2 ^ 127 < n * 2 ^ h * g) by nia.
      assert (L4 : n * 2 ^ h * g - n * 2 ^ h <= 2 * m * 2 ^ 127) by nia.
      assert (n * 2 ^ h < 2 ^ 63) by nia. lia.
    - apply Z.compare_lt_iff. apply sticky_gt. apply Z.div_lt_upper_bound; [lia|]. specialize (H2 E). lia.
    - apply Z.compare_gt_iff. apply sticky_lt. specialize (H1 E).
      assert (2 * m * 2 ^ 63 + 1 <= n * 2 ^ h * g / 2 ^ 64) by (apply Z.div_le_lower_bound; lia). lia.
  Qed.

  Lemma cmp_cert p1 q1 p2 q2 n m :
    p2 * q1 - p1 * q2 = 1 -> 1 <= q1 -> 1 <= q2 -> 2 ^ 54 <= q1 + q2 -> q1 <= 2 ^ 64 ->
    q2 * (g * 2 ^ h) < p2 * 2 ^ 127 -> p1 * 2 ^ 127 <= q1 * (g * 2 ^ h) ->
    (p1 * 2 ^ 127 + 2 ^ 63 <= q1 * (g * 2 ^ h) /\ p1 * 2 ^ 127 <= q1 * (g * 2 ^ h) - q1 * 2 ^ h) \/ q1 * A = p1 * B ->
    0 < n < 2 ^ 54 ->
    (sticky (g * (2 * n * 2 ^ h) / 2 ^ 64) ?= 2 * m) = (n * A ?= m * B).
  Proof.
    intros D H1 H2 HN H64 C2 C1 Cx Hn. pose proof pow_h as Hp.
    assert (Lo : p1 * B <= q1 * A).
    { destruct Cx as [[_ Cx]|Cx]; [|lia].
      assert (q1 * (g - 1) * 2 ^ h * B <= q1 * A * 2 ^ 127) by nia. nia. }
    assert (Hi : q2 * A < p2 * B).
    { assert (q2 * A * 2 ^ 127 < q2 * (g * 2 ^ h) * B) by nia. nia. }
    replace (n * A ?= m * B) with (2 * n * A ?= 2 * m * B).
    2:{ destruct (Z.compare_spec (n * A) (m * B)); [apply Z.compare_eq_iff|apply Z.compare_lt_iff|apply Z.compare_gt_iff]; lia. }
    apply cmp_of_bounds; [lia| |].
    - intros E. assert (E' : m * B < n * A) by lia.
      destruct (neighbours p1 q1 p2 q2 n m D H1 H2 ltac:(lia)) as [L|L].
      2:{ exfalso. assert (p2 * B * n <= m * q2 * B) by nia. nia. }
      destruct (Z_le_gt_dec (m * q1 + 1) (p1 * n)) as [L'|L'].
      + assert (X : n * (q1 * (g * 2 ^ h)) >= n * (p1 * 2 ^ 127)) by nia.
        assert (Y : q1 * (n * 2 ^ h * g - m * 2 ^ 127) >= 2 ^ 127) by nia.
        assert (n * 2 ^ h * g - m * 2 ^ 127 >= 2 ^ 63) by nia. lia.
      + assert (Em : m * q1 = p1 * n) by lia.
        assert (Dv : (q1 | n)).
        { exists (p2 * n - q2 * m). replace n with (n * (p2 * q1 - p1 * q2)) at 1 by (rewrite D; lia).
          replace (n * (p2 * q1 - p1 * q2)) with (n * p2 * q1 - q2 * (p1 * n)) by ring. rewrite <- Em. ring. }
        destruct Dv as [j Ej]. assert (Ejm : m = p1 * j) by (subst n; nia).
        assert (Hj : 1 <= j) by nia.
        destruct Cx as [[Cx _]|Cx].
        * subst n m. nia.
        * exfalso. subst n m. nia.
    - intros E. assert (E' : n * A < m * B) by lia.
      destruct (neighbours p1 q1 p2 q2 n m D H1 H2 ltac:(lia)) as [L|L].
      { exfalso. assert (m * q1 * B <= p1 * n * B) by nia. nia. }
      assert (X : n * 2 ^ h * g * q2 < m * q2 * 2 ^ 127) by nia.
      assert (n * 2 ^ h * g < m * 2 ^ 127) by nia. lia.
  Qed.
End Compare.
