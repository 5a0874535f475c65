(** Proofs for C99: floating point. *)
From Coq Require Import QArith Qabs Qpower Lqa Lia.
From Verif Require PropsLog.
From Verif Require Import Base Digits SeqM SeqSpec ContextM CompilerM GrammarSpec FormatterM BigDecM TraitsM ImplM FmtSpec FmtP DecSpec RoundP FloatSpec BigSpec FPDecP DirSpec ScaleSpec ValueSpec WholeSpec
  ScaleP FloatQ CastP DoubleP HexP ReadSpec ReadP ReadFSpec ReadFP ReadFP2 ReadFP3 BigReadP SigP IntP AgainP2 AgainP3 FloatArgP PropsFloat PropsRead ScanP3 PortSpec FloatP CompilerP PortP PortP2 PortP3 PortP4 JavaSpec JavaP.
Open Scope Z_scope.

(** ** Infinities *)

Lemma inf_java s q neg : 0 <= q_width q -> (in_case s (j_inf q neg) = in_case s (justify q (sign_text q neg ++ txt "Infinity")) <-> ~ (neg = false /\ blank_sign q 8)).
Proof.
  intros Hw. unfold j_inf. rewrite !case_justify. unfold sign_text, blank_sign. destruct neg; [split; [intros _ [E _]; discriminate|reflexivity]|].
  destruct (q_plus q); [split; [intros _ (_ & E & _); discriminate|reflexivity]|]. destruct (q_space q); [|split; [intros _ (_ & _ & E & _); discriminate|reflexivity]]. cbn [app].
  assert (H : exists t, in_case s (txt "Infinity") = ch "I" :: t /\ zlen t = 7 /\ in_case s (txt " " ++ txt "Infinity") = 32 :: ch "I" :: t).
  { unfold in_case. destruct (is_upper s); eexists; (split; [reflexivity|]; split; reflexivity). }
  destruct H as (t & E1 & L & E2). rewrite E1, E2. rewrite (justify_blank q t (ch "I") ltac:(discriminate) Hw).
  replace (zlen (ch "I" :: t)) with 8 by (unfold zlen in *; cbn [length]; lia). tauto.
Qed.

(** ** Digits *)

Lemma java_digits_unique x P S X S' X' : 1 <= P -> java_digits x P S X -> java_digits x P S' X' -> S = S' /\ X = X'.
Proof.
  intros HP [(A & -> & ->)|A] [(B & -> & ->)|B]; [split; reflexivity|apply sig_positive in B; lra|apply sig_positive in A; lra|exact (sig_half_up_unique _ _ _ _ _ _ HP A B)].
Qed.
Lemma sig0_java b f e P S X : 1 <= P -> its_digits b f e -> sig0 f e P = (S, X) -> java_digits (dec f e) P S X /\ 0 <= S.
Proof.
  intros HP Hi Es. pose proof (its_nonneg _ _ _ (digits_decimal _ _ _ Hi)) as F0. unfold sig0 in Es. destruct (Z.eqb_spec f 0) as [->|Nz].
  - apply pair_eq in Es as [<- <-]. split; [|lia]. left. split; [apply dec_zero|]. split; reflexivity.
  - pose proof (sig_right f e P S X ltac:(lia) HP Es) as H. split; [right; exact H|]. destruct H as (? & ? & _ & _ & _ & B). pose proof (Z.pow_pos_nonneg 10 (P - 1) ltac:(lia) ltac:(lia)). lia.
Qed.
Lemma sig0_is b f e P S X : 1 <= P -> its_digits b f e -> java_digits (dec f e) P S X -> sig0 f e P = (S, X) /\ 0 <= S.
Proof.
  intros HP Hi Hj. destruct (sig0 f e P) as [S' X'] eqn:Es. destruct (sig0_java b f e P S' X' HP Hi Es) as [H0 H1].
  destruct (java_digits_unique _ _ _ _ _ _ HP H0 Hj) as [-> ->]. split; [reflexivity|exact H1].
Qed.

(** ** %f, %e *)

Lemma f_java q b f e N : its_digits b f e -> half_up_at (dec f e) (prec_or 6 q) N -> finite_text q (b <? 0) (pointed q N (prec_or 6 q)) = c_f q (b <? 0) f e.
Proof.
  intros Hi HN. pose proof (its_nonneg _ _ _ (digits_decimal _ _ _ Hi)) as F0. rewrite (half_up_unique _ _ _ _ HN (hup_half_up f e (prec_or 6 q) F0)). reflexivity.
Qed.
Lemma e_java q b f e S X : 0 <= prec_or 6 q -> its_digits b f e -> java_digits (dec f e) (prec_or 6 q + 1) S X ->
  finite_text q (b <? 0) (pointed q S (prec_or 6 q) ++ exp_text X) = c_e q (b <? 0) f e.
Proof.
  intros Hp Hi Hj. destruct (sig0_is b f e (prec_or 6 q + 1) S X ltac:(lia) Hi Hj) as [E _]. unfold c_e, e_body. rewrite E. reflexivity.
Qed.

(** ** %g *)

Lemma drop_one k N : (k = O \/ N mod 10 <> 0) <-> drop_zeros k N = (N, Z.of_nat k).
Proof.
  destruct k as [|k]; [split; [reflexivity|left; reflexivity]|]. cbn [drop_zeros]. destruct (Z.eqb_spec (N mod 10) 0) as [E|E]; [|split; [reflexivity|right; exact E]].
  split; [intros [F|F]; [discriminate|tauto]|]. intros H. exfalso. assert (L : forall k N, snd (drop_zeros k N) <= Z.of_nat k).
  { clear. induction k as [|k IH]; intros N; [cbn; lia|]. cbn [drop_zeros]. destruct (N mod 10 =? 0); [specialize (IH (N / 10)); lia|cbn [snd]; lia]. }
  specialize (L k (N / 10)). rewrite H in L. cbn [snd] in L. lia.
Qed.
Lemma drop_bounds k N : 0 <= N -> 0 <= fst (drop_zeros k N) /\ 0 <= snd (drop_zeros k N).
Proof.
  revert N. induction k as [|k IH]; intros N H; [cbn; lia|]. cbn [drop_zeros]. destruct (N mod 10 =? 0); [apply IH, Z.div_pos; lia|cbn [fst snd]; lia].
Qed.

Lemma short_java s q neg S k tail x : 0 <= S -> 0 <= k -> exp_reads 10 (ch "e") tail x ->
  (in_case s (finite_text q neg (short_text S k ++ tail)) = in_case s (finite_text q neg (decimal_text S k ++ tail)) <-> ~ (S mod 10 = 0 /\ 0 < k)).
Proof.
  intros HS Hk Ht. unfold short_text. destruct (drop_zeros (Z.to_nat k) S) as [M r] eqn:Ed. pose proof (drop_bounds (Z.to_nat k) S HS) as B. rewrite Ed in B. cbn [fst snd] in B.
  split.
  - intros E [E0 K0]. apply (f_equal (read_float 10 (ch "e"))) in E. rewrite !case_read10 in E.
    pose proof (finite_reads q neg false M r tail x (proj1 B) (proj2 B) Ht) as R1. pose proof (finite_reads q neg false S k tail x HS Hk Ht) as R2. cbv iota in R1, R2. rewrite R1, R2 in E.
    injection E as -> ->. assert (D : drop_zeros (Z.to_nat k) S = (S, Z.of_nat (Z.to_nat k))) by (rewrite Ed, Z2Nat.id by exact Hk; reflexivity). apply drop_one in D as [D|D]; [lia|tauto].
  - intros N. assert (D : drop_zeros (Z.to_nat k) S = (S, Z.of_nat (Z.to_nat k))).
    { apply drop_one. destruct (Z.eq_dec k 0) as [->|]; [left; reflexivity|right]. intros F. apply N. split; [exact F|lia]. }
    rewrite Z2Nat.id in D by exact Hk. rewrite Ed in D. apply pair_eq in D as [-> ->]. reflexivity.
Qed.

Definition g_java (q : fspec) (neg : bool) (S X : Z) : list Z :=
  finite_text q neg (if (-4 <=? X) && (X <? g_prec q) then decimal_text S (g_prec q - 1 - X) else decimal_text S (g_prec q - 1) ++ exp_text X).
Lemma j_g_java s q b f e S X : q_alt q = false -> 1 <= g_prec q -> its_digits b f e -> java_digits (dec f e) (g_prec q) S X ->
  (in_case s (j_g q (b <? 0) f e) = in_case s (g_java q (b <? 0) S X) <->
   ~ (S mod 10 = 0 /\ if (-4 <=? X) && (X <? g_prec q) then X + 1 < g_prec q else 1 < g_prec q)).
Proof.
  intros Ha HP Hi Hj. destruct (sig0_is b f e _ S X HP Hi Hj) as [E S0]. unfold j_g, g_irregular, c_g, g_body, g_java. rewrite E, Ha. cbn [andb]. unfold g_text. rewrite Ha.
  destruct ((-4 <=? X) && (X <? g_prec q)) eqn:Ex.
  - apply andb_prop in Ex as [_ E2]. apply Z.ltb_lt in E2. pose proof (short_java s q (b <? 0) S (g_prec q - 1 - X) [] 0 S0 ltac:(lia) no_exp_reads) as H. rewrite !app_nil_r in H. rewrite H.
    split; intros N [F1 F2]; apply N; (split; [exact F1|lia]).
  - rewrite (short_java s q (b <? 0) S (g_prec q - 1) (exp_text X) X S0 ltac:(lia) (exp_text_reads X)). split; intros N [F1 F2]; apply N; (split; [exact F1|lia]).
Qed.

(** ** %a *)

Lemma drop_hex_min p : forall M, let (G, k) := FloatSpec.drop_hex (S p) M in k = 1 \/ G mod 16 <> 0.
Proof.
  induction p as [|p IH]; intros M; [left; reflexivity|]. change (FloatSpec.drop_hex (S (S p)) M) with (if M mod 16 =? 0 then FloatSpec.drop_hex (S p) (M / 16) else (M, Z.of_nat (S (S p)))).
  destruct (Z.eqb_spec (M mod 16) 0) as [E|E]; [apply IH|right; exact E].
Qed.

Lemma parts_of m c x : 0 <= m -> bin_parts m = (c, x) -> if m <? 2 ^ 52 then c < 2 ^ 52 /\ x = (if m =? 0 then 0 else -1022) else 2 ^ 52 <= c.
Proof.
  intros Hm. unfold bin_parts. destruct (Z.ltb_spec m (2 ^ 52)) as [L|L].
  - rewrite Z.div_small by lia. cbn [Z.eqb]. intros H. apply pair_eq in H as [<- <-]. split; [exact L|reflexivity].
  - assert (1 <= m / 2 ^ 52) by (apply Z.div_le_lower_bound; lia). destruct (Z.eqb_spec (m / 2 ^ 52) 0) as [E|E]; [lia|]. intros H'. apply pair_eq in H' as [<- _]. pose proof (Z.mod_pos_bound m (2 ^ 52) ltac:(lia)). lia.
Qed.

Lemma hex_string_exists m : 0 <= m < inf_bits -> exists M k x, hex_string m M k x /\ 0 <= M /\ (forall q, q_prec q = None -> a_body q m = hex_text M k ++ bin_exp_text x).
Proof.
  intros Hm. destruct (bin_parts m) as [c x] eqn:Eb. destruct (bin_parts_range m c x ltac:(lia) Eb) as (Rc & _). pose proof (parts_of m c x ltac:(lia) Eb) as Hc.
  pose proof (bin_parts_value m c x ltac:(lia) Eb) as V. pose proof (drop_hex_spec 12 c ltac:(lia)) as D. pose proof (drop_hex_min 12 c) as Dm.
  assert (T : forall q, q_prec q = None -> a_body q m = (let (M, k) := FloatSpec.drop_hex 13 c in hex_text M k ++ bin_exp_text x)) by (intros q Ep; unfold a_body; rewrite Ep, Eb; reflexivity).
  destruct (FloatSpec.drop_hex 13 c) as [M k]. destruct D as (K & EM & HM). change (Z.of_nat 13) with 13 in *. exists M, k, x. split; [|split; [exact HM|exact T]].
  pose proof (Z.pow_pos_nonneg 16 k ltac:(lia) ltac:(lia)) as Pk. pose proof (Z.pow_pos_nonneg 16 (13 - k) ltac:(lia) ltac:(lia)) as Pk'.
  assert (T52 : 16 ^ k * 16 ^ (13 - k) = 2 ^ 52) by (rewrite <- Z.pow_add_r by lia; replace (k + (13 - k)) with 13 by lia; reflexivity).
  split; [|split; [lia|split; [exact Dm|]]].
  - assert (E13 : (16 ^ 13 == 16 ^ k * 16 ^ (13 - k))%Q) by (rewrite <- sixteen_add; replace (k + (13 - k)) with 13 by lia; reflexivity).
    rewrite E13, EM, inject_Z_mult, two_16, Qmult_assoc in V by lia. apply (Qmult_inj_r _ _ (16 ^ (13 - k))); [pose proof (sixteen_pos (13 - k)); lra|]. etransitivity; [exact V|]. ring.
  - destruct (m <? 2 ^ 52); [destruct Hc as [Hc ->]; split; [nia|reflexivity]|]. change (2 ^ 53) with (2 * 2 ^ 52) in Rc. nia.
Qed.

Lemma hex_decade m M k x : 2 ^ 52 <= m -> hex_string m M k x -> (2 ^ x <= dval m < 2 ^ (x + 1))%Q.
Proof.
  intros Hm (V & K & _ & B). replace (m <? 2 ^ 52) with false in B by (symmetry; apply Z.ltb_ge; lia).
  assert (A1 : (16 ^ k <= inject_Z M)%Q) by (rewrite <- two_16 by lia; rewrite <- Zle_Qle; lia). assert (A2 : (inject_Z M < 2 * 16 ^ k)%Q) by (rewrite <- two_16 by lia; change 2%Q with (inject_Z 2); rewrite <- inject_Z_mult, <- Zlt_Qlt; lia).
  pose proof (sixteen_pos k) as Sp. pose proof (two_pos x) as Tp. rewrite two_add. change (2 ^ 1)%Q with 2%Q. split.
  - apply (Qmult_le_r _ _ (16 ^ k)); [exact Sp|]. rewrite V, Qmult_comm. apply Qmult_le_compat_r; lra.
  - apply (Qmult_lt_r _ _ (16 ^ k)); [exact Sp|]. rewrite V. setoid_replace (2 ^ x * 2 * 16 ^ k)%Q with (2 * 16 ^ k * 2 ^ x)%Q by ring. apply Qmult_lt_r; assumption.
Qed.
Lemma two_decade v x y : (2 ^ x <= v < 2 ^ (x + 1))%Q -> (2 ^ y <= v < 2 ^ (y + 1))%Q -> x = y.
Proof. apply PropsLog.two_exponent_unique. Qed.

Lemma hex_min_unique M k M' k' : 1 <= k -> 1 <= k' -> 0 <= M -> 0 <= M' -> (k = 1 \/ M mod 16 <> 0) -> (k' = 1 \/ M' mod 16 <> 0) -> M * 16 ^ k' = M' * 16 ^ k -> k <= k' -> M = M' /\ k = k'.
Proof.
  intros K K' HM HM' D D' E L. destruct (Z.eq_dec k k') as [->|N].
  - split; [|reflexivity]. pose proof (Z.pow_pos_nonneg 16 k' ltac:(lia) ltac:(lia)). nia.
  - exfalso. assert (F : M' = M * 16 ^ (k' - k - 1) * 16).
    { pose proof (Z.pow_pos_nonneg 16 k ltac:(lia) ltac:(lia)). apply (Z.mul_reg_r _ _ (16 ^ k)); [lia|]. rewrite <- E. replace k' with (k' - k - 1 + 1 + k) at 1 by lia. rewrite !Z.pow_add_r by lia. change (16 ^ 1) with 16. ring. }
    destruct D' as [D'|D']; [lia|]. apply D'. rewrite F. apply Z.mod_mul. lia.
Qed.
Lemma hex_string_unique m M k x M' k' x' : 0 <= m -> hex_string m M k x -> hex_string m M' k' x' -> M = M' /\ k = k' /\ x = x'.
Proof.
  intros Hm H H'. assert (Ex : x = x').
  { destruct (Z_lt_le_dec m (2 ^ 52)) as [L|L]; [|exact (two_decade _ _ _ (hex_decade _ _ _ _ L H) (hex_decade _ _ _ _ L H'))].
    destruct H as (_ & _ & _ & B). destruct H' as (_ & _ & _ & B'). replace (m <? 2 ^ 52) with true in B, B' by (symmetry; apply Z.ltb_lt; lia). destruct B as [_ ->], B' as [_ ->]. reflexivity. }
  subst x'. destruct H as (V & K & D & B). destruct H' as (V' & K' & D' & B').
  assert (E : M * 16 ^ k' = M' * 16 ^ k).
  { apply (proj1 (inject_Z_injective _ _)). rewrite !inject_Z_mult, !two_16 by lia. apply (Qmult_inj_r _ _ (2 ^ x)); [pose proof (two_pos x); lra|].
    setoid_replace (inject_Z M * 16 ^ k' * 2 ^ x)%Q with (inject_Z M * 2 ^ x * 16 ^ k')%Q by ring. setoid_replace (inject_Z M' * 16 ^ k * 2 ^ x)%Q with (inject_Z M' * 2 ^ x * 16 ^ k)%Q by ring. rewrite <- V, <- V'. ring. }
  assert (M0 : 0 <= M /\ 0 <= M') by (pose proof (Z.pow_pos_nonneg 16 k ltac:(lia) ltac:(lia)); pose proof (Z.pow_pos_nonneg 16 k' ltac:(lia) ltac:(lia)); destruct (m <? 2 ^ 52); lia).
  destruct (Z_le_gt_dec k k') as [L|L].
  - destruct (hex_min_unique M k M' k' K K' ltac:(lia) ltac:(lia) D D' E L) as [-> ->]. repeat split.
  - destruct (hex_min_unique M' k' M k K' K ltac:(lia) ltac:(lia) D' D ltac:(lia) ltac:(lia)) as [-> ->]. repeat split.
Qed.

(** the exponent is negative for values below one other than zero *)
Lemma exponent_sign m M k x : 0 <= m -> hex_string m M k x -> (0 <= x <-> (dval m == 0)%Q \/ (1 <= dval m)%Q).
Proof.
  intros Hm H. destruct (Z_lt_le_dec m (2 ^ 52)) as [L|L].
  - destruct H as (V & K & _ & B). replace (m <? 2 ^ 52) with true in B by (symmetry; apply Z.ltb_lt; lia). destruct B as [B Ex]. destruct (Z.eqb_spec m 0) as [->|Nz].
    + subst x. split; [intros _; left; reflexivity|lia].
    + subst x. split; [lia|]. pose proof (dval_positive m ltac:(lia)) as P0. intros [F|F]; [lra|].
      assert (A2 : (inject_Z M < 16 ^ k)%Q) by (rewrite <- two_16 by lia; rewrite <- Zlt_Qlt; lia). pose proof (sixteen_pos k) as Sp.
      assert (T : (2 ^ (-1022) < 1)%Q) by (vm_compute; reflexivity). assert (T0 : (0 < 2 ^ (-1022))%Q) by apply two_pos.
      assert (A3 : (16 ^ k <= dval m * 16 ^ k)%Q) by (rewrite <- (Qmult_1_l (16 ^ k)) at 1; apply Qmult_le_compat_r; lra). rewrite V in A3.
      assert (A4 : (inject_Z M * 2 ^ (-1022) < 16 ^ k * 1)%Q).
      { apply Qle_lt_trans with (16 ^ k * 2 ^ (-1022))%Q; [apply Qmult_le_compat_r; lra|]. apply Qmult_lt_l; assumption. }
      lra.
  - pose proof (hex_decade m M k x L H) as [A B]. pose proof (two_pos x). split.
    + intros G. right. apply Qle_trans with (2 ^ x)%Q; [|exact A]. change 1%Q with (2 ^ 0)%Q. apply two_le. lia.
    + intros [F|F]; [lra|]. destruct (Z_lt_le_dec x 0) as [N|N]; [|exact N]. exfalso. assert (G : (2 ^ (x + 1) <= 2 ^ 0)%Q) by (apply two_le; lia). change (2 ^ 0)%Q with 1%Q in G. lra.
Qed.

Lemma a_java s q b M k x : hex_conv s = true -> q_prec q = None -> finite b -> hex_string (magnitude b) M k x ->
  (in_case s (j_a q (b <? 0) (magnitude b)) = in_case s (hex_finite q (b <? 0) (hex_text M k ++ txt "p" ++ dec_text x)) <->
   ~ ((dval (magnitude b) == 0)%Q \/ (1 <= dval (magnitude b))%Q)).
Proof.
  intros Hs Ep Hf H. pose proof (magnitude_range b Hf) as Mr. destruct (hex_string_exists (magnitude b) ltac:(lia)) as (M' & k' & x' & H' & _ & T).
  destruct (hex_string_unique _ _ _ _ _ _ _ (proj1 Mr) H' H) as (-> & -> & ->). rewrite <- (exponent_sign _ _ _ _ (proj1 Mr) H).
  unfold j_a. rewrite (T q Ep). unfold hex_finite. split.
  - intros E G. apply (f_equal (cnt 43)) in E. rewrite !cnt_case, !cnt_pad, !cnt_app in E by lia. unfold bin_exp_text, dec_text in E. replace (x <? 0) with false in E by (symmetry; apply Z.ltb_ge; exact G).
    rewrite Z.abs_eq in E by exact G. change (ch "p" :: ch "+" :: numeral 10 x) with (txt "p+" ++ numeral 10 x) in E. rewrite cnt_app in E. change (cnt 43 (txt "p+")) with 1 in E. change (cnt 43 (txt "p")) with 0 in E. lia.
  - intros G. assert (L : (x <? 0) = true) by (apply Z.ltb_lt; lia). unfold bin_exp_text, dec_text. rewrite L. rewrite Z.abs_neq by (apply Z.ltb_lt in L; lia). reflexivity.
Qed.

(** ** %f of BigDecimals *)

Lemma dec_java q u sc N : ~ (q_left q = true /\ q_zero q = true) -> 0 <= q_width q -> half_up_at (dec (Z.abs u) (- sc)) (prec_or 6 q) N ->
  (b_f q u sc = finite_text q (u <? 0) (pointed q N (prec_or 6 q)) <->
   ~ (u = 0 /\ sc < 0 /\ (q_zero q = false \/ q_width q < zlen (sign_text q false) + - sc + zlen (pointed q 0 (prec_or 6 q))))).
Proof.
  intros Hl Hw HN. rewrite (half_up_unique _ _ _ _ HN (hup_half_up (Z.abs u) (- sc) (prec_or 6 q) (Z.abs_nonneg u))). unfold b_f. set (K := hup (Z.abs u) (- (- sc + prec_or 6 q))).
  change (if q_alt q then alt_text K (prec_or 6 q) else decimal_text K (prec_or 6 q)) with (pointed q K (prec_or 6 q)).
  destruct (Z.eqb_spec u 0) as [->|Nu]; [|cbn [app]; split; [intros _ [F _]; lia|reflexivity]].
  assert (K0 : K = 0). { unfold K, hup. change (Z.abs 0) with 0. destruct (Z.leb_spec (- (- sc + prec_or 6 q)) 0) as [L|L]; [lia|]. apply Z.div_small. pose proof (Z.pow_pos_nonneg 10 (- (- sc + prec_or 6 q)) ltac:(lia) ltac:(lia)) as P. rewrite Z.add_0_l. split; [apply Z.div_pos; lia|apply Z.div_lt; lia]. }
  rewrite K0. set (body := pointed q 0 (prec_or 6 q)). change (0 <? 0) with false. destruct (Z_lt_le_dec sc 0) as [L|L].
  2:{ replace (zeros (- sc)) with (@nil Z) by (unfold zeros, rep; replace (Z.to_nat (- sc)) with O by lia; reflexivity). cbn [app]. split; [intros _ (_ & F & _); lia|reflexivity]. }
  unfold finite_text, pad_number. destruct (q_zero q) eqn:Ez; cbn [andb].
  - destruct (q_left q) eqn:El; [exfalso; tauto|]. cbn [negb]. rewrite zlen_app. replace (zlen (zeros (- sc))) with (- sc) by (unfold zeros; rewrite zlen_rep; lia). split.
    + intros E (_ & _ & [F|F]); [discriminate|]. apply (f_equal (cnt 48)) in E. rewrite !cnt_app, !cnt0_zeros in E. lia.
    + intros F. assert (G : zlen (sign_text q false) + - sc + zlen body <= q_width q) by (destruct (Z_lt_le_dec (q_width q) (zlen (sign_text q false) + - sc + zlen body)); [exfalso; tauto|assumption]).
      f_equal. rewrite app_assoc. f_equal. unfold zeros. rewrite <- rep_add by lia. f_equal. lia.
  - split; [|intros F; exfalso; tauto]. intros E _. apply (f_equal (cnt 48)) in E. rewrite !cnt_justify, !cnt_app, cnt0_zeros in E by lia. lia.
Qed.
