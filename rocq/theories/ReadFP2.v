(** What the floating-point conversions print reads back: lemmas for PropsRead. *)
From Coq Require Import QArith Qabs Qpower Lqa.
From Verif Require Import Base Digits ContextM CompilerM GrammarSpec SeqM TraitsM ImplM SeqSpec ReadSpec ReadP FmtSpec FmtP DirSpec DecSpec RoundP FloatSpec FPDecP FloatP
  DoubleP NearP FloatQ PropsDouble PropsFloat ReadFSpec ReadFP.
Open Scope Z_scope.

Lemma prints_unique J src args t t' : prints J src args t -> prints J src args t' -> t = t'.
Proof.
  intros H H'. destruct (H (fun _ => false)) as (a & C & F & _). destruct (H' (fun _ => false)) as (a' & C' & F' & _).
  rewrite C in C'. assert (a = a') by congruence. subst. congruence.
Qed.

Lemma upper_cased base mark s t : base = 10 \/ base = 16 -> 97 <= mark <= 122 -> read_float base mark (cased s t) = read_float base mark t.
Proof. intros Hb Hm. destruct s; try reflexivity; apply upper_reads; assumption. Qed.

Lemma cased_reads s q neg (alt : bool) N p e x : 0 <= N -> 0 <= p -> exp_reads 10 (ch "e") e x ->
  reads_as (cased s (finite_text q neg ((if alt then alt_text N p else decimal_text N p) ++ e))) neg (dec N (x - p)).
Proof.
  intros HN Hp He. exists N, p, x. split; [|reflexivity]. rewrite upper_cased; [|left; reflexivity|cbn; lia]. apply finite_reads; assumption.
Qed.

Lemma reads_eq t neg x y : (x == y)%Q -> reads_as t neg x -> reads_as t neg y.
Proof. intros E (N & k & z & R & V). exists N, k, z. split; [exact R|]. rewrite <- E. exact V. Qed.

Lemma dec_shift M k e : 0 <= k -> (dec (M * 10 ^ k) e == dec M (e + k))%Q.
Proof. intros Hk. unfold dec. rewrite inject_Z_mult, ten_Z by exact Hk. rewrite ten_add. ring. Qed.

Lemma half_up_nonneg y p N : (0 <= y)%Q -> half_up_at y p N -> 0 <= N.
Proof.
  intros Hy [_ H]. assert (T : (0 <= y * 10 ^ p)%Q) by (apply Qmult_le_0_compat; [exact Hy|apply Qlt_le_weak, ten_pos]).
  destruct (Z_lt_ge_dec N 0) as [L|G]; [|lia]. assert (inject_Z N <= inject_Z (-1))%Q by (rewrite <- Zle_Qle; lia).
  change (inject_Z (-1)) with (-1)%Q in *. lra.
Qed.

Lemma its_nonneg b f e : its_decimal b f e -> 0 <= f.
Proof. intros [[_ ->]|[_ D]]; [lia|]. pose proof (proj1 D). lia. Qed.
Lemma dec_nonneg f e : 0 <= f -> (0 <= dec f e)%Q.
Proof. intros H. apply Qmult_le_0_compat; [change 0%Q with (inject_Z 0); rewrite <- Zle_Qle; lia|apply Qlt_le_weak, ten_pos]. Qed.
Lemma dec_zero e : (dec 0 e == 0)%Q. Proof. unfold dec. change (inject_Z 0) with 0%Q. ring. Qed.
Lemma dec_pos f e : 0 < f -> (0 < dec f e)%Q.
Proof. intros H. unfold dec. apply Qmult_lt_0_compat; [change 0%Q with (inject_Z 0); rewrite <- Zlt_Qlt; lia|apply ten_pos]. Qed.

Lemma sig_positive y P S X : sig_half_up y P S X -> (0 < y)%Q.
Proof. intros (X0 & N & [H _] & _). pose proof (ten_pos X0). lra. Qed.

Lemma read_text J src v r s q b f e x t : directive src s q -> decimal_spec s -> is_double J v b -> its_decimal b f e -> rounded s q (dec f e) x ->
  prints J src [traitsOf J v r] t -> reads_as t (b <? 0) x.
Proof.
  intros Hd Hs Hv Hi Hx Ht. pose proof (prec_nonneg _ _ _ Hd) as Hp. pose proof (g_prec_pos _ _ _ Hd) as HP. pose proof (its_nonneg _ _ _ Hi) as F0.
  assert (Mz : magnitude b = 0 \/ 0 < magnitude b) by (pose proof (Z.mod_pos_bound b (2 ^ 63) eq_refl); unfold magnitude; lia).
  assert (Mf : 0 < magnitude b -> 0 < f) by (intros H; pose proof (its_pos _ _ _ Hi H); lia).
  assert (Zf : magnitude b = 0 -> f = 0) by (apply (its_zero _ _ _ Hi)).
  assert (FF : s = Sf \/ s = SF -> (exists N, half_up_at (dec f e) (prec_or 6 q) N /\ (x == dec N (- prec_or 6 q))%Q) -> reads_as t (b <? 0) x).
  { intros Hs' (N & HN & E). rewrite (prints_unique _ _ _ _ _ Ht (C28_fixed_notation J src s q v b r f e N Hd Hs' Hv Hi HN)).
    apply (reads_eq _ _ (dec N (0 - prec_or 6 q))); [rewrite E; reflexivity|].
    pose proof (cased_reads s q (b <? 0) (q_alt q) N (prec_or 6 q) [] 0 (half_up_nonneg _ _ _ (dec_nonneg f e F0) HN) Hp no_exp_reads) as G.
    rewrite app_nil_r in G. exact G. }
  assert (SP : forall P, 1 <= P -> sig_rounded (dec f e) P x -> 0 < f -> exists S X, sig_half_up (dec f e) P S X /\ (x == dec S (X - P + 1))%Q /\ 0 <= S).
  { intros P HP1 [[Ey _]|(S & X & H & E)] Pf; [pose proof (dec_pos f e Pf); lra|]. exists S, X. split; [exact H|]. split; [exact E|].
    destruct H as (_ & _ & _ & _ & _ & [H _]). assert (0 < 10 ^ (P - 1)) by (apply Z.pow_pos_nonneg; lia). lia. }
  assert (SZ : forall P, sig_rounded (dec f e) P x -> f = 0 -> (x == 0)%Q).
  { intros P [[_ E]|(S & X & H & E)] Ef; [exact E|]. pose proof (sig_positive _ _ _ _ H). subst f. rewrite dec_zero in *. lra. }
  assert (EE : s = Se \/ s = SE -> sig_rounded (dec f e) (prec_or 6 q + 1) x -> reads_as t (b <? 0) x).
  { intros Hs' Hr. destruct Mz as [Mz|Mz].
    - rewrite (prints_unique _ _ _ _ _ Ht (C30_scientific_zero J src s q v b r Hd Hs' Hv Mz)).
      apply (reads_eq _ _ (dec 0 (0 - prec_or 6 q))); [rewrite dec_zero; symmetry; apply (SZ _ Hr); apply Zf; exact Mz|].
      apply (cased_reads s q (b <? 0) (q_alt q) 0 (prec_or 6 q) (exp_text 0) 0); [lia|exact Hp|apply exp_text_reads].
    - destruct (SP (prec_or 6 q + 1) ltac:(lia) Hr (Mf Mz)) as (S & X & H & E & HS).
      rewrite (prints_unique _ _ _ _ _ Ht (C30_scientific_notation J src s q v b r f e S X Hd Hs' Hv Hi Mz H)).
      apply (reads_eq _ _ (dec S (X - prec_or 6 q))); [rewrite E; replace (X - (prec_or 6 q + 1) + 1) with (X - prec_or 6 q) by lia; reflexivity|].
      apply cased_reads; [exact HS|exact Hp|apply exp_text_reads]. }
  assert (EX : s = Sg \/ s = SG -> 0 < magnitude b -> forall S X, sig_half_up (dec f e) (g_prec q) S X -> (x == dec S (X - g_prec q + 1))%Q -> 0 <= S ->
    X < -4 \/ g_prec q <= X -> q_alt q = true -> reads_as t (b <? 0) x).
  { intros Hs' Mp S X H E HS HX Ha. destruct (C32_alternate_form_exponent_partial J src s q v b r f e S X Hd Hs' Ha Hv Hi Mp H HX) as (M & k & K & EM & Pr).
    rewrite (prints_unique _ _ _ _ _ Ht Pr). clear Pr. assert (HM : 0 <= M) by (assert (0 < 10 ^ (g_prec q - 1 - k)) by (apply Z.pow_pos_nonneg; lia); nia).
    apply (reads_eq _ _ (dec M (X - k))).
    - rewrite E, EM, dec_shift by lia. replace (X - g_prec q + 1 + (g_prec q - 1 - k)) with (X - k) by lia. reflexivity.
    - pose proof (cased_reads s q (b <? 0) (negb (g_prec q =? 1)) M k (exp_text X) X HM ltac:(lia) (exp_text_reads X)) as G. destruct (g_prec q =? 1); exact G. }
  assert (GG : s = Sg \/ s = SG -> sig_rounded (dec f e) (g_prec q) x -> reads_as t (b <? 0) x).
  { intros Hs' Hr. destruct Mz as [Mz|Mz].
    - destruct (q_alt q) eqn:Ha.
      + apply (reads_eq _ _ (dec 0 (0 - (g_prec q - 1)))); [rewrite dec_zero; symmetry; apply (SZ _ Hr); apply Zf; exact Mz|].
        pose proof (cased_reads s q (b <? 0) true 0 (g_prec q - 1) [] 0 ltac:(lia) ltac:(lia) no_exp_reads) as G. rewrite app_nil_r in G.
        rewrite (prints_unique _ _ _ _ _ Ht (C32_alternate_zero J src s q v b r Hd Hs' Ha Hv Mz)). exact G.
      + rewrite (prints_unique _ _ _ _ _ Ht (C31_general_zero J src s q v b r Hd Hs' Ha Hv Mz)).
        apply (reads_eq _ _ (dec 0 (0 - 0))); [rewrite dec_zero; symmetry; apply (SZ _ Hr); apply Zf; exact Mz|].
        pose proof (cased_reads s q (b <? 0) false 0 0 [] 0 ltac:(lia) ltac:(lia) no_exp_reads) as G. exact G.
    - destruct (SP _ HP Hr (Mf Mz)) as (S & X & H & E & HS). destruct (q_alt q) eqn:Ha.
      + destruct (Z_lt_le_dec X (-4)) as [L|L]; [|destruct (Z_lt_le_dec X (g_prec q)) as [L2|L2]].
        * apply (EX Hs' Mz S X H E HS (or_introl L) eq_refl).
        * rewrite (prints_unique _ _ _ _ _ Ht (C32_alternate_form_positional_partial J src s q v b r f e S X Hd Hs' Ha Hv Hi Mz H (conj L L2))).
          apply (reads_eq _ _ (dec S (0 - (g_prec q - 1 - X)))); [rewrite E; replace (0 - (g_prec q - 1 - X)) with (X - g_prec q + 1) by lia; reflexivity|].
          pose proof (cased_reads s q (b <? 0) true S (g_prec q - 1 - X) [] 0 HS ltac:(lia) no_exp_reads) as G. rewrite app_nil_r in G. exact G.
        * apply (EX Hs' Mz S X H E HS (or_intror L2) eq_refl).
      + destruct (C31_general_notation J src s q v b r f e S X Hd Hs' Ha Hv Hi Mz H) as (M & k & Pr & K & EM & _).
        rewrite (prints_unique _ _ _ _ _ Ht Pr). clear Pr. set (pos := (-4 <=? X) && (X <? g_prec q)) in *. clearbody pos.
        assert (HM : 0 <= M) by (assert (0 < 10 ^ ((if pos then g_prec q - 1 - X else g_prec q - 1) - k)) by (apply Z.pow_pos_nonneg; lia); nia).
        apply (reads_eq _ _ (dec M ((if pos then 0 else X) - k))).
        * rewrite E, EM, dec_shift by lia. destruct pos.
          -- replace (X - g_prec q + 1 + (g_prec q - 1 - X - k)) with (0 - k) by lia. reflexivity.
          -- replace (X - g_prec q + 1 + (g_prec q - 1 - k)) with (X - k) by lia. reflexivity.
        * apply (cased_reads s q (b <? 0) false M k (if pos then [] else exp_text X) (if pos then 0 else X)); [exact HM|lia|]. destruct pos; [apply no_exp_reads|apply exp_text_reads]. }
  unfold decimal_spec in Hs. destruct Hs as [->|[->|[->|[->|[->| ->]]]]]; [apply FF|apply FF|apply EE|apply EE|apply GG|apply GG]; auto.
Qed.

(** ** rounding that loses nothing *)
Lemma half_up_exact y p n N : (y * 10 ^ p == inject_Z n)%Q -> half_up_at y p N -> N = n.
Proof.
  intros E [H1 H2]. rewrite E in H1, H2. assert (A : (inject_Z (N - 1) < inject_Z n)%Q) by (unfold Z.sub; rewrite inject_Z_plus; change (inject_Z (-(1))) with (-1)%Q; lra).
  assert (B : (inject_Z n < inject_Z (N + 1))%Q) by (rewrite inject_Z_plus; change (inject_Z 1) with 1%Q; lra).
  rewrite <- Zlt_Qlt in A, B. lia.
Qed.

Lemma ten_nz p : ~ (10 ^ p == 0)%Q. Proof. pose proof (ten_pos p). lra. Qed.
Lemma ten_cancel p : (10 ^ p * 10 ^ (- p) == 1)%Q.
Proof. rewrite <- ten_add. replace (p + - p) with 0 by lia. reflexivity. Qed.

Lemma dec_scale f e p : 0 <= e + p -> (dec f e * 10 ^ p == inject_Z (f * 10 ^ (e + p)))%Q.
Proof. intros H. unfold dec. rewrite inject_Z_mult, ten_Z by exact H. rewrite ten_add. ring. Qed.

Lemma half_up_keeps y f e p N : (y == dec f e)%Q -> 0 <= e + p -> half_up_at y p N -> (dec N (- p) == y)%Q.
Proof.
  intros E H HN. assert (V : (y * 10 ^ p == inject_Z (f * 10 ^ (e + p)))%Q) by (rewrite E; apply dec_scale; exact H).
  rewrite (half_up_exact y p _ N V HN). unfold dec at 1. rewrite <- V, <- Qmult_assoc, ten_cancel. ring.
Qed.

Lemma sig_keeps y n P S X : digits_le y n -> n <= P -> sig_half_up y P S X -> (dec S (X - P + 1) == y)%Q.
Proof.
  intros (f & e & Hf & E) HP (X0 & N & [D1 D2] & HN & V & _). rewrite V. replace (X0 - P + 1) with (- (P - 1 - X0)) by lia.
  apply (half_up_keeps y f e); [exact E| |exact HN].
  assert (U : (10 ^ X0 < 10 ^ (n + e))%Q).
  { apply (Qle_lt_trans _ y); [exact D1|]. rewrite E. unfold dec. rewrite ten_add. apply Qmult_lt_compat_r; [apply ten_pos|].
    destruct (Z_lt_ge_dec n 0) as [L|G]; [rewrite Z.pow_neg_r in Hf by exact L; lia|]. rewrite <- ten_Z by lia. rewrite <- Zlt_Qlt. lia. }
  apply ten_lt_inv in U. lia.
Qed.

Lemma its_short b f e : its_decimal b f e -> 0 < magnitude b -> exists f0 e0, (dec f e == dec f0 e0)%Q /\ 0 < f0 < 10 ^ 17 /\ -325 <= e0.
Proof.
  intros [[Z0 _]|[R D]] H; [lia|]. destruct (decimal_of_exists (magnitude b) R) as (f0 & e0 & D0). exists f0, e0.
  split; [apply (right_unique (magnitude b)); [exact D|apply (do_right _ _ _ D0)]|]. split; [apply (do_f _ _ _ D0)|apply (do_e _ _ _ D0)].
Qed.

Lemma rounded_exists s q f e : decimal_spec s -> 0 <= f -> 0 <= prec_or 6 q -> exists x, rounded s q (dec f e) x.
Proof.
  intros Hs Hf Hp. assert (G : forall P, 1 <= P -> exists x, sig_rounded (dec f e) P x).
  { intros P HP. destruct (Z.eq_dec f 0) as [->|N]; [exists 0%Q; left; split; [apply dec_zero|reflexivity]|].
    destruct (C30_rounding_exists f e P ltac:(lia) HP) as (S & X & H). exists (dec S (X - P + 1)). right. exists S, X. split; [exact H|reflexivity]. }
  assert (1 <= g_prec q) by (unfold g_prec; destruct (Z.eqb_spec (prec_or 6 q) 0); lia).
  assert (F : exists x, exists N, half_up_at (dec f e) (prec_or 6 q) N /\ (x == dec N (- prec_or 6 q))%Q).
  { exists (dec (hup f (- (e + prec_or 6 q))) (- prec_or 6 q)), (hup f (- (e + prec_or 6 q))). split; [apply hup_half_up; exact Hf|reflexivity]. }
  destruct Hs as [->|[->|[->|[->|[->| ->]]]]]; cbn [rounded]; try exact F; apply G; lia.
Qed.

(** with a precision that keeps every digit, rounding the decimal of a double leaves it as it is *)
Lemma keeps_decimal s q b f e x : its_decimal b f e -> keeps_all s q -> rounded s q (dec f e) x -> (x == dec f e)%Q.
Proof.
  intros Hi Hk Hx. assert (Mz : magnitude b = 0 \/ 0 < magnitude b) by (pose proof (Z.mod_pos_bound b (2 ^ 63) eq_refl); unfold magnitude; lia).
  assert (F : (exists N, half_up_at (dec f e) (prec_or 6 q) N /\ (x == dec N (- prec_or 6 q))%Q) -> 325 <= prec_or 6 q -> (x == dec f e)%Q).
  { intros (N & HN & E) L. destruct Mz as [Mz|Mz].
    - rewrite (its_zero _ _ _ Hi Mz) in *. rewrite E. apply (half_up_keeps _ 0 0); [rewrite !dec_zero; reflexivity|lia|exact HN].
    - destruct (its_short b f e Hi Mz) as (f0 & e0 & E0 & F0 & L0). rewrite E. apply (half_up_keeps _ f0 e0); [exact E0|lia|exact HN]. }
  assert (G : forall P, 17 <= P -> sig_rounded (dec f e) P x -> (x == dec f e)%Q).
  { intros P HP [[E1 E2]|(S & X & H & E)]; [rewrite E1, E2; reflexivity|]. rewrite E. destruct Mz as [Mz|Mz].
    - pose proof (sig_positive _ _ _ _ H) as Q0. rewrite (its_zero _ _ _ Hi Mz), dec_zero in Q0. lra.
    - destruct (its_short b f e Hi Mz) as (f0 & e0 & E0 & F0 & L0). apply (sig_keeps _ 17); [exists f0, e0; split; assumption|exact HP|exact H]. }
  destruct s; cbn [rounded keeps_all] in *; try contradiction; first [apply F; assumption|eapply G; eassumption].
Qed.

Lemma rounds_zero : rounds_to 0 0.
Proof.
  intros b' Hb'. assert (E : (Qabs (0 - dval 0) == 0)%Q) by reflexivity. rewrite E. split; [apply Qabs_nonneg|reflexivity].
Qed.
Lemma its_rounds b f e : its_decimal b f e -> rounds_to (dec f e) (magnitude b).
Proof.
  intros [[Z0 F0]|[_ D]]; [|apply D]. rewrite Z0, F0. apply (rounds_eq 0); [symmetry; apply dec_zero|exact rounds_zero].
Qed.

(** the pattern is its sign and its magnitude *)
Lemma pattern b : - 2 ^ 63 <= b < 2 ^ 63 -> b = if b <? 0 then magnitude b - 2 ^ 63 else magnitude b.
Proof.
  intros H. unfold magnitude. destruct (Z.ltb_spec b 0).
  - rewrite <- (Z.mod_add b 1) by discriminate. rewrite Z.mod_small by lia. lia.
  - rewrite Z.mod_small by lia. reflexivity.
Qed.
Lemma pattern_eq b b' : - 2 ^ 63 <= b < 2 ^ 63 -> - 2 ^ 63 <= b' < 2 ^ 63 -> (b <? 0) = (b' <? 0) -> magnitude b = magnitude b' -> b = b'.
Proof. intros H H' E M. rewrite (pattern b H), (pattern b' H'), E, M. reflexivity. Qed.
