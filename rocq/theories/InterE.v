(** C104: %e at the level of texts. *)
From Coq Require Import QArith.
From Verif Require Import Base Digits ContextM CompilerM SeqSpec FmtSpec FmtP DecSpec FloatSpec FloatP FloatQ FPDecP DoubleP HexP BoundP ExactSpec BigSpec WholeSpec FlagP InterSpec InterP InterP2 InterP3.
Open Scope Z_scope.

Definition least_exp (q : fspec) : Z := if 9 <=? prec_or 6 q then 3 else 4.
Lemma exp_shortest q : shortest_exp q = least_body q + least_exp q + (if q_plus q || q_space q then 1 else 0).
Proof. unfold shortest_exp, least_exp. rewrite shortest_least. lia. Qed.
Lemma exp_longest q : longest_exp q = least_body q + 12.
Proof. reflexivity. Qed.

(** ** The same texts *)
Lemma plainest_e_field q t : 3 <= zlen t -> justify (plainest_e q) t = justify q t.
Proof. intros H. symmetry. rewrite !justify_just. unfold plainest_e. cbv zeta. cbn [q_width q_left]. apply just_plainest; lia. Qed.
Lemma plainest_e_prec q : prec_or 6 (plainest_e q) = prec_or 6 q. Proof. reflexivity. Qed.
Lemma plainest_e_body q N : body_of (plainest_e q) N = body_of q N.
Proof.
  unfold body_of. change (prec_or 6 (plainest_e q)) with (prec_or 6 q). change (q_alt (plainest_e q)) with (q_alt q && (prec_or 6 q =? 0)). unfold alt_text.
  destruct (q_alt q); cbn [andb]; [|reflexivity]. destruct (Z.eqb_spec (prec_or 6 q) 0); [reflexivity|]. rewrite app_nil_r. reflexivity.
Qed.
Lemma blank_joins n t : zlen t < n -> spaces (n - zlen (32 :: t)) ++ 32 :: t = spaces (n - zlen t) ++ t.
Proof. intros H. rewrite zlen_cons. rewrite (spaces_ne (n - zlen t)) by lia. rewrite <- app_assoc. cbn [app]. do 2 f_equal. lia. Qed.

Lemma plainest_e_finite q neg t : prec_fine q -> least_body q + least_exp q <= zlen t <= least_body q + 12 -> finite_text (plainest_e q) neg t = finite_text q neg t.
Proof.
  intros Hp Ht. pose proof (exp_shortest q) as Sl. pose proof (exp_longest q) as Ll. pose proof (least_body_pos q Hp) as L1. pose proof (sign_len q neg) as Ls. pose proof (zlen_nonneg (sign_text q neg)) as L0.
  assert (L3 : 3 <= zlen t) by (unfold least_exp in Ht; destruct (9 <=? _); lia).
  destruct (q_left q || (q_zero q && negb (q_left q) && (shortest_exp q <? q_width q)) || (q_width q <=? longest_exp q)) eqn:V.
  - assert (Sg : sign_text (plainest_e q) neg = sign_text q neg).
    { unfold sign_text. change (q_plus (plainest_e q)) with (q_plus q). unfold plainest_e. cbv zeta. cbn [q_space]. rewrite V. destruct neg, (q_plus q), (q_space q); reflexivity. }
    unfold finite_text, pad_number. rewrite Sg. clear Sg V.
    change (q_zero (plainest_e q)) with (q_zero q && negb (q_left q) && (shortest_exp q <? q_width q)).
    change (q_left (plainest_e q)) with (q_left q && (3 <? q_width q)). change (q_width (plainest_e q)) with (width_above 3 (q_width q)).
    assert (J : justify (plainest_e q) (sign_text q neg ++ t) = justify q (sign_text q neg ++ t)) by (apply plainest_e_field; rewrite zlen_app; lia).
    destruct (q_zero q && negb (q_left q)) eqn:Z0; cbn [andb]; [|exact J].
    apply andb_true_iff in Z0 as [_ Z0]. apply negb_true_iff in Z0. rewrite Z0. cbn [andb negb]. rewrite andb_true_r. destruct (Z.ltb_spec (shortest_exp q) (q_width q)).
    + unfold width_above. destruct (Z.leb_spec (q_width q) 3); [|reflexivity]. exfalso. unfold least_exp in *. destruct (9 <=? _), (q_plus q || q_space q); lia.
    + rewrite J. rewrite justify_fits by (rewrite zlen_app; lia). rewrite zeros_neg by lia. reflexivity.
  - apply orb_false_iff in V as [V V3]. apply orb_false_iff in V as [V1 V2]. apply Z.leb_gt in V3. rewrite V1 in V2. cbn [negb] in V2. rewrite andb_true_r in V2.
    assert (Z0 : q_zero q = false).
    { apply andb_false_iff in V2 as [V2|V2]; [exact V2|]. apply Z.ltb_ge in V2. exfalso. unfold least_exp in *. destruct (9 <=? _), (q_plus q || q_space q); lia. }
    unfold finite_text, pad_number. change (q_zero (plainest_e q)) with (q_zero q && negb (q_left q) && (shortest_exp q <? q_width q)). rewrite Z0. cbn [andb].
    rewrite plainest_e_field by (rewrite zlen_app; pose proof (zlen_nonneg (sign_text (plainest_e q) neg)); lia).
    assert (Sp : q_space (plainest_e q) = false).
    { unfold plainest_e. cbv zeta. cbn [q_space]. rewrite V1, Z0. cbn [andb orb]. replace (q_width q <=? longest_exp q) with false by (symmetry; apply Z.leb_gt; lia). apply andb_false_r. }
    unfold sign_text. rewrite Sp. change (q_plus (plainest_e q)) with (q_plus q). destruct neg, (q_plus q); try reflexivity. destruct (q_space q); [|reflexivity].
    unfold justify. rewrite V1. change (txt " " ++ t) with (32 :: t). cbn [app]. symmetry. apply blank_joins. lia.
Qed.

(** ** How long they are *)
Lemma digits_len q N : prec_fine q -> 0 <= N < 10 ^ (prec_or 6 q + 1) -> zlen (body_of q N) = least_body q.
Proof.
  intros Hp HN. rewrite body_len by exact Hp. pose proof (prec_or_nonneg q Hp) as P. pose proof (lead_digits N 1 (prec_or 6 q) ltac:(lia) P ltac:(lia) ltac:(lia)).
  pose proof (Z.pow_pos_nonneg 10 _ ltac:(lia) P). pose proof (numeral_nonempty 10 (N / 10 ^ prec_or 6 q) ltac:(lia) ltac:(apply Z.div_pos; lia)). lia.
Qed.
Lemma exp_len x : Z.abs x < 10 ^ 10 -> 4 <= zlen (exp_text x) <= 12.
Proof. intros H. unfold exp_text. rewrite !zlen_cons, zlen_min_digits. pose proof (zlen_numeral_lt (Z.abs x) 10 ltac:(lia) ltac:(lia)). lia. Qed.
Lemma exp_body_len q f e : prec_fine q -> 0 <= f < 10 ^ 17 -> -325 <= e <= 292 -> least_body q + least_exp q <= zlen (e_body q f e) <= least_body q + 12.
Proof.
  intros Hp Hf He. pose proof (prec_or_nonneg q Hp) as P. unfold e_body. cbv zeta. destruct (sig0 f e (prec_or 6 q + 1)) as [S X] eqn:E. destruct (sig0_bounds f e (prec_or 6 q + 1) S X Hf He ltac:(lia) E) as [BS BX].
  fold (body_of q S). rewrite zlen_app, digits_len by (assumption || lia). pose proof (exp_len X ltac:(lia)). unfold least_exp. destruct (9 <=? _); lia.
Qed.
Lemma sig_digits_bounds f e P S X : 0 < f -> 1 <= P -> FloatSpec.sig f e P = (S, X) -> 0 <= S < 10 ^ P /\ ndigits f + e - 1 <= X <= ndigits f + e.
Proof.
  intros Hf HP E. pose proof (sig_right f e P S X Hf HP E) as (X0 & N & _ & _ & _ & B). pose proof (pow10_gt (P - 1) ltac:(lia)). split; [lia|].
  unfold FloatSpec.sig in E. cbv zeta in E. destruct (_ =? _); apply pair_eq in E as [_ <-]; lia.
Qed.
Lemma big_body_len q f e : prec_fine q -> prec_or 6 q <= 65536 -> 0 <= f -> - 2147483647 <= e -> last_exp f e (prec_or 6 q + 1) <= 2147483648 ->
  least_body q + least_exp q <= zlen (be_body q f e) <= least_body q + 12.
Proof.
  intros Hp Hp2 Hf He Hl. pose proof (prec_or_nonneg q Hp) as P. unfold be_body. cbv zeta. unfold last_exp in Hl. destruct (Z.eqb_spec f 0) as [F|F].
  - fold (body_of q 0). assert (0 < 10 ^ (prec_or 6 q + 1)) by (apply Z.pow_pos_nonneg; lia). rewrite zlen_app, digits_len by (assumption || lia). pose proof (exp_len e ltac:(lia)). unfold least_exp. destruct (9 <=? _); lia.
  - destruct (FloatSpec.sig f e (prec_or 6 q + 1)) as [S X] eqn:E. destruct (sig_digits_bounds f e (prec_or 6 q + 1) S X ltac:(lia) ltac:(lia) E) as [BS BX]. fold (body_of q S). rewrite zlen_app, digits_len by assumption.
    destruct (ndigits_bounds f ltac:(lia)) as (N1 & _ & _). unfold kept in Hl. assert (BX2 : Z.abs X < 10 ^ 10) by lia. pose proof (exp_len X BX2). unfold big_exp_text, least_exp.
    destruct ((X =? 9) && (kept f (prec_or 6 q + 1) =? 10)) eqn:K; [|destruct (9 <=? _); lia].
    apply andb_true_iff in K as [_ K]. apply Z.eqb_eq in K. unfold kept in K. change (zlen (txt "e+9")) with 3. destruct (Z.leb_spec 9 (prec_or 6 q)); lia.
Qed.

(** ** What tells them apart *)
Record ealike (t u : list Z) : Prop := mkEalike {
  ea_len : zlen t = zlen u; ea_count : forall c, c < 65 -> count c t = count c u; ea_first : blank_first t = blank_first u; ea_last : blank_last t = blank_last u }.
Lemma count_upper' c t : c < 65 -> count c (map ascii_upper t) = count c t.
Proof.
  intros H. induction t as [|x t IH]; cbn [count map]; [reflexivity|]. rewrite IH. f_equal.
  destruct (upper_keeps x) as [-> |[B ->]]; [reflexivity|]. destruct (Z.eqb_spec (x - 32) c), (Z.eqb_spec x c); lia || reflexivity.
Qed.
Lemma ealike_upper (up : bool) t u : (if up then map ascii_upper t else t) = (if up then map ascii_upper u else u) -> ealike t u.
Proof.
  intros E. pose proof (alike_upper up t u E) as A. constructor; [apply A| |apply A|apply A]. intros c Hc. destruct up; [|subst; reflexivity].
  apply (f_equal (count c)) in E. rewrite !count_upper' in E by exact Hc. exact E.
Qed.

(** 11...1 *)
Fixpoint ones (k : nat) : Z := match k with O => 0 | S k' => 10 * ones k' + 1 end.
Lemma ones_bounds k : 0 <= 9 * ones k < 10 ^ Z.of_nat k.
Proof. induction k as [|k IH]; [cbn; lia|]. cbn [ones]. rewrite Nat2Z.inj_succ, Z.pow_succ_r by lia. lia. Qed.
Lemma ones_low k : 10 ^ Z.of_nat k <= ones (S k).
Proof. induction k as [|k IH]; [cbn; lia|]. cbn [ones] in *. rewrite Nat2Z.inj_succ, Z.pow_succ_r by lia. lia. Qed.
Lemma ones_add j k : ones (j + k) = ones j * 10 ^ Z.of_nat k + ones k.
Proof. induction k as [|k IH]; [rewrite Nat.add_0_r; cbn [ones Z.of_nat]; rewrite Z.pow_0_r; lia|]. rewrite Nat.add_succ_r. cbn [ones]. rewrite IH, Nat2Z.inj_succ, Z.pow_succ_r by lia. ring. Qed.
Lemma ones_ndigits k : ndigits (ones (S k)) = Z.of_nat (S k).
Proof.
  pose proof (ones_low k). pose proof (ones_bounds (S k)). pose proof (Z.pow_pos_nonneg 10 (Z.of_nat k) ltac:(lia) ltac:(lia)).
  apply ndigits_unique; [lia|lia|]. replace (Z.of_nat (S k) - 1) with (Z.of_nat k) by lia. lia.
Qed.
Lemma ones_digits k : fixdigs 10 k (ones k) = repeat 1 k.
Proof.
  induction k as [|k IH]; [reflexivity|]. cbn [fixdigs ones]. replace ((10 * ones k + 1) / 10) with (ones k) by (rewrite Z.mul_comm, Z.div_add_l by lia; change (1 / 10) with 0; lia).
  replace ((10 * ones k + 1) mod 10) with 1 by (rewrite Z.add_comm, Z.mul_comm, Z.mod_add by lia; reflexivity). rewrite IH. clear. induction k as [|k IH]; [reflexivity|]. cbn. f_equal. exact IH.
Qed.
Lemma fixdigs_mod k n m : 0 <= n -> 0 <= m -> fixdigs 10 k (m * 10 ^ Z.of_nat k + n) = fixdigs 10 k n.
Proof.
  revert n. induction k as [|k IH]; intros n Hn Hm; [reflexivity|]. cbn [fixdigs]. rewrite Nat2Z.inj_succ, Z.pow_succ_r by lia.
  replace (m * (10 * 10 ^ Z.of_nat k) + n) with (n + (m * 10 ^ Z.of_nat k) * 10) by ring. rewrite Z.div_add, Z.mod_add by lia. rewrite (Z.add_comm (n / 10)). rewrite IH; [reflexivity|apply Z.div_pos; lia|exact Hm].
Qed.
Lemma ones_sig K P e : (1 <= P <= K)%nat -> FloatSpec.sig (ones K) e (Z.of_nat P) = (ones P, Z.of_nat K + e - 1).
Proof.
  intros H. unfold FloatSpec.sig. cbv zeta. destruct K as [|K]; [lia|]. rewrite ones_ndigits.
  assert (E : hup (ones (S K)) (Z.of_nat (S K) - Z.of_nat P) = ones P).
  { unfold hup. destruct (Z.leb_spec (Z.of_nat (S K) - Z.of_nat P) 0) as [L|L].
    - replace (S K) with P by lia. rewrite Z.sub_diag. change (10 ^ (- 0)) with 1. lia.
    - replace (S K) with (P + (S K - P))%nat at 1 by lia. rewrite ones_add. replace (Z.of_nat (S K) - Z.of_nat P) with (Z.of_nat (S K - P)) by lia. set (k := (S K - P)%nat).
      pose proof (ones_bounds k) as B. pose proof (Z.pow_pos_nonneg 10 (Z.of_nat k) ltac:(lia) ltac:(lia)) as T. rewrite <- Z.add_assoc, Z.div_add_l by lia.
      rewrite Z.div_small; [lia|]. pose proof (Z.div_pos (10 ^ Z.of_nat k) 2 ltac:(lia) ltac:(lia)). pose proof (Z.mul_div_le (10 ^ Z.of_nat k) 2 ltac:(lia)). lia. }
  rewrite E. pose proof (ones_bounds P). destruct (Z.eqb_spec (ones P) (10 ^ Z.of_nat P)); [lia|reflexivity].
Qed.

Lemma digit_counts q t n : t = 49 :: (if n =? 0 then (if q_alt q then [46] else []) else 46 :: rep 49 n) -> 0 <= n ->
  count 49 t = n + 1 /\ count 46 t = (if (n =? 0) && negb (q_alt q) then 0 else 1) /\ count 43 t = 0.
Proof.
  intros -> Hn. destruct (Z.eqb_spec n 0) as [->|N]; [destruct (q_alt q); cbn; auto|]. cbn [count andb]. rewrite !count_rep. cbn [Z.eqb Pos.eqb]. lia.
Qed.
Lemma ones_body q : prec_fine q -> body_of q (ones (S (Z.to_nat (prec_or 6 q)))) = 49 :: (if prec_or 6 q =? 0 then (if q_alt q then [46] else []) else 46 :: rep 49 (prec_or 6 q)).
Proof.
  intros Hp. pose proof (prec_or_nonneg q Hp) as P. set (p := prec_or 6 q) in *. set (k := Z.to_nat p). assert (Ek : p = Z.of_nat k) by lia.
  assert (E : ones (S k) = 1 * 10 ^ p + ones k) by (change (S k) with (1 + k)%nat; rewrite ones_add, <- Ek; reflexivity). pose proof (ones_bounds k) as B. rewrite <- Ek in B.
  assert (D : ones (S k) / 10 ^ p = 1) by (rewrite E, Z.div_add_l by lia; rewrite Z.div_small by lia; reflexivity).
  assert (F : fraction p (ones (S k)) = rep 49 p).
  { unfold fraction. fold k. rewrite E, Ek, fixdigs_mod by lia. rewrite ones_digits. unfold rep. rewrite Nat2Z.id. clear. induction k as [|k IH]; [reflexivity|]. cbn [repeat map]. rewrite IH. reflexivity. }
  unfold body_of. fold p. unfold alt_text, decimal_text. rewrite D, F. change (numeral 10 1) with [49]. change (ch ".") with 46. destruct (p =? 0), (q_alt q); cbn [app]; rewrite ?app_nil_r; reflexivity.
Qed.
Definition e_probe (q q' : fspec) : nat := S (Z.to_nat (prec_or 6 q + prec_or 6 q')).
Lemma ones_be q K : prec_fine q -> (S (Z.to_nat (prec_or 6 q)) <= K)%nat -> be_body q (ones K) (1 - Z.of_nat K) = body_of q (ones (S (Z.to_nat (prec_or 6 q)))) ++ exp_text 0.
Proof.
  intros Hp HK. pose proof (prec_or_nonneg q Hp) as P. unfold be_body. cbv zeta. destruct K as [|K]; [lia|]. pose proof (ones_low K). pose proof (Z.pow_pos_nonneg 10 (Z.of_nat K) ltac:(lia) ltac:(lia)).
  destruct (Z.eqb_spec (ones (S K)) 0); [lia|]. replace (prec_or 6 q + 1) with (Z.of_nat (S (Z.to_nat (prec_or 6 q)))) by lia. rewrite ones_sig by lia.
  replace (Z.of_nat (S K) + (1 - Z.of_nat (S K)) - 1) with 0 by lia. reflexivity.
Qed.

Lemma finite_count q t c : c <> 32 -> count c (finite_text q false t) = count c (sign_text q false) + count c t +
  (if (c =? 48) && (q_zero q && negb (q_left q)) then Z.max 0 (q_width q - zlen (sign_text q false) - zlen t) else 0).
Proof.
  intros Hc. unfold finite_text, pad_number. destruct (q_zero q && negb (q_left q)).
  - rewrite !count_app. unfold zeros. rewrite count_rep. change (ch "0") with 48. rewrite andb_true_r, (Z.eqb_sym 48 c). destruct (c =? 48); lia.
  - rewrite andb_false_r, justify_just, count_just, count_app by exact Hc. lia.
Qed.
Lemma finite_len q t : zlen (finite_text q false t) = Z.max (q_width q) (zlen (sign_text q false) + zlen t).
Proof.
  unfold finite_text, pad_number. destruct (q_zero q && negb (q_left q)); [rewrite !zlen_app, zeros_len; pose proof (zlen_nonneg t); lia|]. rewrite justify_just, just_len, zlen_app. reflexivity.
Qed.
Lemma finite_first q t : blank_first t = false -> t <> [] -> q_left q = true \/ q_zero q && negb (q_left q) = true -> blank_first (finite_text q false t) = q_space q && negb (q_plus q).
Proof.
  intros Hb Hn H. assert (S : forall u, blank_first u = false -> blank_first (sign_text q false ++ u) = q_space q && negb (q_plus q)).
  { intros u Hu. unfold sign_text. destruct (q_plus q), (q_space q); try reflexivity. exact Hu. }
  unfold finite_text, pad_number. destruct H as [H|H]; rewrite H.
  - cbn [negb]. rewrite andb_false_r. unfold justify. rewrite H, <- app_assoc. apply S. destruct t; [contradiction|]. cbn [app]. rewrite blank_first_eq in *. exact Hb.
  - apply S. set (n := _ - _). destruct (Z_le_gt_dec n 0) as [L|L]; [rewrite zeros_neg by exact L; exact Hb|]. unfold zeros. replace n with ((n - 1) + 1) by lia. rewrite rep_succ by lia. reflexivity.
Qed.

Definition zero_exp (q : fspec) (x : Z) : list Z := body_of q 0 ++ exp_text x.
Lemma zero_exp_be q x : be_body q 0 x = zero_exp q x. Proof. reflexivity. Qed.
Lemma nine_be q : 9 <= prec_or 6 q -> be_body q (10 ^ 9) 0 = body_of q (10 ^ 0 * 10 ^ prec_or 6 q) ++ txt "e+9".
Proof.
  intros P. assert (N : ndigits (10 ^ 9) = 10) by reflexivity.
  assert (E : FloatSpec.sig (10 ^ 9) 0 (prec_or 6 q + 1) = (10 ^ prec_or 6 q, 9)).
  { unfold FloatSpec.sig. cbv zeta. rewrite N. unfold hup. destruct (Z.leb_spec (10 - (prec_or 6 q + 1)) 0); [|lia]. rewrite <- Z.pow_add_r by lia.
    replace (9 + - (10 - (prec_or 6 q + 1))) with (prec_or 6 q) by lia. rewrite Z.pow_add_r by lia. change (10 ^ 1) with 10.
    assert (0 < 10 ^ prec_or 6 q) by (apply Z.pow_pos_nonneg; lia). destruct (Z.eqb_spec (10 ^ prec_or 6 q) (10 ^ prec_or 6 q * 10)); [lia|reflexivity]. }
  unfold be_body. cbv zeta. change (10 ^ 9 =? 0) with false. cbv iota. rewrite E. fold (body_of q (10 ^ prec_or 6 q)).
  assert (X : big_exp_text (10 ^ 9) (prec_or 6 q + 1) 9 = txt "e+9"); [|rewrite X; rewrite Z.pow_0_r, Z.mul_1_l; reflexivity].
  unfold big_exp_text, kept. rewrite N. replace (Z.min 10 (prec_or 6 q + 1)) with 10 by lia. reflexivity.
Qed.
Definition e_filled (q : fspec) : bool := q_zero q && negb (q_left q) && (shortest_exp q <? q_width q).
(** zeros in the shortest text *)
Lemma filled_count q t c : prec_fine q -> zlen t = least_body q + least_exp q -> count 48 t = c ->
  count 48 (finite_text q false t) = c + (if e_filled q then q_width q - shortest_exp q else 0).
Proof.
  intros Hp L C. rewrite finite_count, C by lia. cbn [Z.eqb Pos.eqb andb]. rewrite L. unfold e_filled. pose proof (exp_shortest q) as E.
  assert (S : zlen (sign_text q false) = if q_plus q || q_space q then 1 else 0) by (unfold sign_text; destruct (q_plus q), (q_space q); reflexivity).
  assert (S0 : count 48 (sign_text q false) = 0) by (unfold sign_text; destruct (q_plus q), (q_space q); reflexivity). rewrite S, S0.
  destruct (q_zero q && negb (q_left q)); cbn [andb]; [|lia]. destruct (Z.ltb_spec (shortest_exp q) (q_width q)); lia.
Qed.

Lemma plainest_e_unique q q' : prec_fine q -> prec_fine q' -> 0 <= q_width q -> 0 <= q_width q' ->
  ealike (justify q (txt "NaN")) (justify q' (txt "NaN")) ->
  (forall x, x = 0 \/ x = - 2147483647 -> ealike (finite_text q false (be_body q 0 x)) (finite_text q' false (be_body q' 0 x))) ->
  ealike (finite_text q false (be_body q (10 ^ 9) 0)) (finite_text q' false (be_body q' (10 ^ 9) 0)) ->
  (let K := e_probe q q' in ealike (finite_text q false (be_body q (ones K) (1 - Z.of_nat K))) (finite_text q' false (be_body q' (ones K) (1 - Z.of_nat K)))) ->
  plainest_e q = plainest_e q'.
Proof.
  intros Hp Hp' Hw Hw' Hn Hz H9 H1. cbv zeta in H1. pose proof (prec_or_nonneg q Hp) as P0. pose proof (prec_or_nonneg q' Hp') as P0'.
  pose proof (least_body_pos q Hp) as Lp. pose proof (least_body_pos q' Hp') as Lp'.
  rewrite !ones_be in H1 by (assumption || (unfold e_probe; lia)).
  destruct (digit_counts q _ _ (ones_body q Hp) P0) as (A1 & A2 & A3). destruct (digit_counts q' _ _ (ones_body q' Hp') P0') as (B1 & B2 & B3).
  assert (Sc : forall q c, c <> 32 -> c <> 43 -> count c (sign_text q false) = 0).
  { intros r c N1 N2. assert (O : forall a, a <> c -> count c [a] = 0) by (intros a Ha; cbn [count]; destruct (Z.eqb_spec a c); [contradiction|reflexivity]).
    unfold sign_text. destruct (q_plus r), (q_space r); try reflexivity; (apply (O 43) || apply (O 32)); lia. }
  assert (Sl : forall q, zlen (sign_text q false) = if q_plus q || q_space q then 1 else 0) by (intros r; unfold sign_text; destruct (q_plus r), (q_space r); reflexivity).
  assert (Pl0 : forall q, count 43 (sign_text q false) = if q_plus q then 1 else 0) by (intros r; unfold sign_text; destruct (q_plus r), (q_space r); reflexivity).
  assert (Pp : prec_or 6 q = prec_or 6 q').
  { pose proof (ea_count _ _ H1 49 ltac:(lia)) as E. rewrite !finite_count, !count_app, !Sc, A1, B1 in E by lia. cbn [Z.eqb Pos.eqb andb] in E. lia. }
  assert (Al : q_alt q && (prec_or 6 q =? 0) = q_alt q' && (prec_or 6 q' =? 0)).
  { pose proof (ea_count _ _ H1 46 ltac:(lia)) as E. rewrite !finite_count, !count_app, !Sc, A2, B2 in E by lia. cbn [Z.eqb Pos.eqb andb] in E. rewrite <- Pp in *.
    destruct (prec_or 6 q =? 0), (q_alt q), (q_alt q'); cbn [andb negb] in *; lia || reflexivity. }
  assert (Pl : q_plus q = q_plus q').
  { pose proof (ea_count _ _ H1 43 ltac:(lia)) as E. rewrite !finite_count, !count_app, !Pl0, A3, B3 in E by lia. cbn [Z.eqb Pos.eqb andb] in E. destruct (q_plus q), (q_plus q'); lia || reflexivity. }
  clear H1 A1 A2 A3 B1 B2 B3.
  assert (Lb : least_body q = least_body q').
  { unfold least_body. rewrite <- Pp in *. destruct (prec_or 6 q =? 0); [|reflexivity]. rewrite !andb_true_r in Al. rewrite Al. reflexivity. }
  assert (Le : least_exp q = least_exp q') by (unfold least_exp; rewrite Pp; reflexivity).
  pose proof (exp_shortest q) as Sh. pose proof (exp_shortest q') as Sh'. pose proof (exp_longest q) as Lg. pose proof (exp_longest q') as Lg'.
  assert (L3 : 3 <= least_exp q <= 4) by (unfold least_exp; destruct (9 <=? _); lia).
  (* the width and the side *)
  pose proof (ea_len _ _ Hn) as N1. pose proof (ea_last _ _ Hn) as N2. rewrite !justify_just, !just_len in N1. change (zlen (txt "NaN")) with 3 in N1.
  rewrite !justify_just, !just_blank_last in N2 by (reflexivity || discriminate). change (zlen (txt "NaN")) with 3 in N2. clear Hn.
  (* zeros *)
  assert (Fl : e_filled q = e_filled q').
  { assert (C : exists t t', ealike (finite_text q false t) (finite_text q' false t') /\ zlen t = least_body q + least_exp q /\ zlen t' = least_body q' + least_exp q' /\ count 48 t = count 48 t').
    { destruct (Z.leb_spec 9 (prec_or 6 q)) as [G|G].
      - exists (be_body q (10 ^ 9) 0), (be_body q' (10 ^ 9) 0). split; [exact H9|]. rewrite !nine_be by lia. destruct (body_power q 0 Hp ltac:(lia)) as (C1 & _ & C3 & _). destruct (body_power q' 0 Hp' ltac:(lia)) as (D1 & _ & D3 & _).
        rewrite !zlen_app, C3, D3, !count_app, C1, D1. change (zlen (txt "e+9")) with 3. unfold least_exp. rewrite <- Pp. replace (9 <=? prec_or 6 q) with true by (symmetry; apply Z.leb_le; exact G). repeat split; lia.
      - exists (be_body q 0 0), (be_body q' 0 0). split; [apply Hz; auto|]. rewrite !zero_exp_be. unfold zero_exp. destruct (body_zero q Hp) as (C1 & C3 & _). destruct (body_zero q' Hp') as (D1 & D3 & _).
        rewrite !zlen_app, C3, D3, !count_app, C1, D1. change (zlen (exp_text 0)) with 4. unfold least_exp. rewrite <- Pp. replace (9 <=? prec_or 6 q) with false by (symmetry; apply Z.leb_gt; exact G). repeat split; lia. }
    destruct C as (t & t' & C & L & L' & E). pose proof (ea_count _ _ C 48 ltac:(lia)) as C4. rewrite (filled_count q t _ Hp L eq_refl), (filled_count q' t' _ Hp' L' eq_refl) in C4.
    destruct (e_filled q) eqn:X, (e_filled q') eqn:Y; try reflexivity; exfalso.
    - unfold e_filled in X. rewrite !andb_true_iff in X. destruct X as [_ X]. apply Z.ltb_lt in X. lia.
    - unfold e_filled in Y. rewrite !andb_true_iff in Y. destruct Y as [_ Y]. apply Z.ltb_lt in Y. lia. }
  (* the blank *)
  assert (Sp : q_space q && negb (q_plus q) && (q_left q || e_filled q || (q_width q <=? longest_exp q)) = q_space q' && negb (q_plus q') && (q_left q' || e_filled q' || (q_width q' <=? longest_exp q'))).
  { rewrite <- Fl, <- Pl, Lg', <- Lb, <- Lg. destruct (q_plus q) eqn:Q; [rewrite !andb_false_r; reflexivity|]. cbn [negb]. rewrite !andb_true_r.
    assert (Long : q_width q <= longest_exp q -> q_width q' <= longest_exp q -> q_space q = q_space q').
    { intros W1 W2. pose proof (ea_len _ _ (Hz (- 2147483647) ltac:(auto))) as E. rewrite !finite_len, !zero_exp_be, !Sl in E. unfold zero_exp in E. rewrite !zlen_app in E.
      destruct (body_zero q Hp) as (_ & C3 & _). destruct (body_zero q' Hp') as (_ & D3 & _). rewrite C3, D3 in E. change (zlen (exp_text (- 2147483647))) with 12 in E. rewrite <- Pl, Q in E. cbn [orb] in E.
      destruct (q_space q), (q_space q'); reflexivity || lia. }
    assert (First : q_left q = true \/ q_zero q && negb (q_left q) = true -> q_left q' = true \/ q_zero q' && negb (q_left q') = true -> q_space q = q_space q').
    { intros W1 W2. pose proof (ea_first _ _ (Hz 0 ltac:(auto))) as E. assert (Ne : forall q, prec_fine q -> be_body q 0 0 <> [] /\ blank_first (be_body q 0 0) = false).
      { intros r Hr. rewrite zero_exp_be. unfold zero_exp. destruct (body_of r 0) as [|c b] eqn:B; [split; [discriminate|reflexivity]|]. split; [discriminate|].
        cbn [app]. rewrite blank_first_eq. unfold body_of, alt_text, decimal_text in B. rewrite Z.div_0_l in B by (pose proof (prec_or_nonneg r Hr); assert (0 < 10 ^ prec_or 6 r) by (apply Z.pow_pos_nonneg; lia); lia).
        change (numeral 10 0) with [48] in B. cbn [app] in B. destruct (q_alt r); injection B as <- _; reflexivity. }
      destruct (Ne q Hp) as [X1 X2]. destruct (Ne q' Hp') as [Y1 Y2]. rewrite !finite_first in E by assumption. rewrite <- Pl, Q in E. cbn [negb] in E. rewrite !andb_true_r in E. exact E. }
    assert (FZ : e_filled q = true -> q_zero q && negb (q_left q) = true) by (unfold e_filled; intros X; apply andb_true_iff in X as [X _]; exact X).
    assert (FZ' : e_filled q = true -> q_zero q' && negb (q_left q') = true) by (rewrite Fl; unfold e_filled; intros X; apply andb_true_iff in X as [X _]; exact X).
    destruct (Z_le_gt_dec (q_width q) 3) as [Wd|Wd].
    - rewrite Long by lia. destruct (q_space q'); cbn [andb]; [|reflexivity]. replace (q_width q <=? longest_exp q) with true by (symmetry; apply Z.leb_le; lia).
      replace (q_width q' <=? longest_exp q) with true by (symmetry; apply Z.leb_le; lia). rewrite !orb_true_r. reflexivity.
    - assert (Ew : q_width q' = q_width q) by lia. rewrite Ew in *. replace (3 <? q_width q) with true in N2 by (symmetry; apply Z.ltb_lt; lia). rewrite !andb_true_r in N2. rewrite <- N2.
      destruct (q_left q) eqn:Ql; [rewrite !orb_true_l, !andb_true_r; apply First; left; congruence|]. cbn [orb].
      destruct (e_filled q) eqn:Qf; [rewrite !orb_true_l, !andb_true_r; apply First; right; [apply FZ|apply FZ']; reflexivity|]. cbn [orb].
      destruct (Z.leb_spec (q_width q) (longest_exp q)); [rewrite !andb_true_r; apply Long; lia|rewrite !andb_false_r; reflexivity]. }
  unfold plainest_e. cbv zeta. fold (e_filled q) (e_filled q'). rewrite Sp, N2, Al, Fl, Pl, Pp. f_equal. apply above_unique; lia.
Qed.
