(** Proofs for C98: finite doubles; the theorem for one directive. *)
From Coq Require Import QArith Qabs Qpower Lqa Lia.
From Verif Require Import Base Digits SeqM SeqSpec ContextM CompilerM GrammarSpec FormatterM TraitsM ImplM FmtSpec FmtP DecSpec RoundP FloatSpec BigSpec FPDecP DirSpec ScaleSpec ValueSpec WholeSpec
  ScaleP FloatQ CastP DoubleP HexP ReadSpec ReadP ReadFSpec ReadFP ReadFP2 ReadFP3 BigReadP SigP IntP AgainP2 AgainP3 PropsFloat PropsRead ScanP3 PortSpec FloatP CompilerP PortP PortP2.
Open Scope Z_scope.

Lemma case_read base mark s t : base = 10 \/ base = 16 -> 97 <= mark <= 122 -> read_float base mark (in_case s t) = read_float base mark t.
Proof. intros Hb Hm. unfold in_case. destruct (is_upper s); [apply upper_reads; assumption|reflexivity]. Qed.
Lemma case_read10 s t : read_float 10 (ch "e") (in_case s t) = read_float 10 (ch "e") t.
Proof. apply case_read; [left; reflexivity|vm_compute; split; discriminate]. Qed.
Lemma case_read16 s t : read_float 16 (ch "p") (in_case s t) = read_float 16 (ch "p") t.
Proof. apply case_read; [right; reflexivity|vm_compute; split; discriminate]. Qed.

Lemma not_inf b : finite b -> magnitude b <> inf_bits.
Proof. unfold finite. lia. Qed.
Lemma dval_positive m : 0 < m -> (0 < dval m)%Q.
Proof. intros H. pose proof (dval_lt 0 m ltac:(lia)) as L. setoid_replace (dval 0) with 0%Q in L by reflexivity. exact L. Qed.
Lemma dval_0 : (dval 0 == 0)%Q. Proof. reflexivity. Qed.
Lemma mag_cases b : finite b -> magnitude b = 0 \/ 0 < magnitude b.
Proof. intros H. pose proof (magnitude_range b H). lia. Qed.

(** ** %f *)
Lemma f_port s q b f e : fixed_conv s = true -> finite b -> its_digits b f e -> 0 <= prec_or 6 q ->
  (c_text s q (CDouble b) (in_case s (c_f q (b <? 0) f e)) <-> ~ departs s q (CDouble b)).
Proof.
  intros Hs Hf Hi Hp. assert (Hh : hex_conv s = false /\ general_conv s = false) by (destruct s; try discriminate Hs; split; reflexivity). destruct Hh as [Hh Hg].
  pose proof (its_nonneg _ _ _ (digits_decimal _ _ _ Hi)) as F0. set (p := prec_or 6 q). set (N := hup f (- (e + p))).
  assert (HN : half_up_at (dec f e) p N) by (apply hup_half_up; exact F0). assert (N0 : 0 <= N) by (apply (half_up_nonneg (dec f e) p); [apply dec_nonneg; exact F0|exact HN]).
  assert (T : c_f q (b <? 0) f e = finite_text q (b <? 0) (pointed q N p)) by reflexivity. rewrite T. clear T.
  assert (R : forall K, 0 <= K -> read_float 10 (ch "e") (in_case s (finite_text q (b <? 0) (pointed q K p))) = Some (b <? 0, K, p, 0)).
  { intros K HK. rewrite case_read10. pose proof (finite_reads q (b <? 0) (q_alt q) K p [] 0 HK Hp no_exp_reads) as G. rewrite app_nil_r in G. exact G. }
  destruct (even_exists (dval (magnitude b)) p) as [M HM]. pose proof (even_nonneg _ _ _ (dval_nonneg (magnitude b) ltac:(pose proof (magnitude_range b Hf); lia)) HM) as M0.
  split.
  - intros C. assert (E : N = M).
    { pose proof (not_inf b Hf) as Ni. inversion C as [| | | | | |b' N' Hs' Hf' HN' Eb Et|b' S' X' Hs' Hf' HN' Eb Et|b' S' X' Hs' Hf' HN' HX' Eb Et|b' S' X' Hs' Hf' HN' HX' Eb Et|b' P' M' x' Hs' Hf' HN' HX' HV' Eb Et|b' P' M' x' Hs' Hf' HN' HX' HV' Eb Et|b' w' Hs' Hf' HN' Eb Et|];
        try (exfalso; subst; solve [tauto|destruct s; discriminate]).
      fold p in HN', Et. rewrite (even_unique _ _ _ _ HN' HM) in Et. apply (f_equal (read_float 10 (ch "e"))) in Et. rewrite !R in Et by assumption. injection Et as Et. congruence. }
    cbn [departs]. intros [[D _]|[_ [[D _]|[_ [D|[D _]]]]]]; try congruence; [apply (not_inf b Hf D)|].
    destruct D as (f' & e' & Hi' & D). destruct (digits_unique _ _ _ _ _ Hi Hi') as [<- <-]. rewrite Hs in D. destruct D as (N' & M' & D1 & D2 & D3).
    fold p in D1, D2. apply D3. rewrite (half_up_unique _ _ _ _ D1 HN), (even_unique _ _ _ _ D2 HM). exact E.
  - intros D. assert (E : N = M).
    { destruct (Z.eq_dec N M) as [E|E]; [exact E|]. exfalso. apply D. right. split; [exact Hf|]. right. split; [exact Hh|]. left. exists f, e. split; [exact Hi|]. rewrite Hs. exists N, M. auto. }
    rewrite E. apply ct_f; [exact Hs|exact Hf|exact HM].
Qed.

(** ** %e *)
Lemma e_port s q b f e : exp_conv s = true -> finite b -> its_digits b f e -> 0 <= prec_or 6 q ->
  (c_text s q (CDouble b) (in_case s (c_e q (b <? 0) f e)) <-> ~ departs s q (CDouble b)).
Proof.
  intros Hs Hf Hi Hp. assert (Hh : hex_conv s = false /\ general_conv s = false /\ fixed_conv s = false) by (destruct s; try discriminate Hs; repeat split; reflexivity). destruct Hh as (Hh & Hg & Hx).
  pose proof (digits_decimal _ _ _ Hi) as Hd. pose proof (its_nonneg _ _ _ Hd) as F0. set (p := prec_or 6 q) in *.
  assert (R : forall S X, 0 <= S -> read_float 10 (ch "e") (in_case s (finite_text q (b <? 0) (pointed q S p ++ exp_text X))) = Some (b <? 0, S, p, X)).
  { intros S X HS. rewrite case_read10. exact (finite_reads q (b <? 0) (q_alt q) S p (exp_text X) X HS Hp (exp_text_reads X)). }
  destruct (sig0 f e (p + 1)) as [S X] eqn:Es.
  assert (T : c_e q (b <? 0) f e = finite_text q (b <? 0) (pointed q S p ++ exp_text X)) by (unfold c_e, e_body; fold p; rewrite Es; reflexivity). rewrite T. clear T.
  destruct (mag_cases b Hf) as [Mz|Mp].
  - pose proof (its_zero _ _ _ Hd Mz) as ->. cbn in Es. apply pair_eq in Es as [<- <-]. split.
    + intros _. cbn [departs]. intros [[D _]|[_ [[D _]|[_ [D|[D _]]]]]]; try congruence; [apply (not_inf b Hf D)|].
      destruct D as (f' & e' & Hi' & D). rewrite Hx, Hs in D. destruct D as (S & X & S' & X' & D1 & D2 & _). apply sig_even_pos in D2. rewrite Mz, dval_0 in D2. lra.
    + intros _. apply ct_e; [exact Hs|exact Hf|]. left. rewrite Mz. split; [reflexivity|]. split; reflexivity.
  - pose proof (its_pos _ _ _ Hd Mp) as Nz. assert (Fp : 0 < f) by lia. assert (HS : sig_half_up (dec f e) (p + 1) S X).
    { apply sig_right; [exact Fp|lia|]. unfold sig0 in Es. destruct (Z.eqb_spec f 0) as [|_]; [lia|exact Es]. }
    pose proof (dval_positive _ Mp) as Vp. destruct (sig_even_exists (dval (magnitude b)) (p + 1) ltac:(lia) Vp) as (S' & X' & HE).
    pose proof (Z.pow_pos_nonneg 10 (p + 1 - 1) ltac:(lia) ltac:(lia)) as Pw.
    assert (S0 : 0 <= S) by (destruct HS as (? & ? & _ & _ & _ & B); lia). assert (S0' : 0 <= S') by (destruct HE as (? & ? & _ & _ & _ & B); lia).
    split.
    + intros C. assert (E : S = S' /\ X = X').
      { pose proof (not_inf b Hf) as Ni. inversion C as [| | | | | |b' N' Hs' Hf' HN' Eb Et|b' T' Y' Hs' Hf' HN' Eb Et|b' T' Y' Hs' Hf' HN' HX' Eb Et|b' T' Y' Hs' Hf' HN' HX' Eb Et|b' P' M' x' Hs' Hf' HN' HX' HV' Eb Et|b' P' M' x' Hs' Hf' HN' HX' HV' Eb Et|b' w' Hs' Hf' HN' Eb Et|];
          try (exfalso; subst; solve [tauto|destruct s; discriminate]).
        fold p in HN', Et. destruct HN' as [[HN' _]|HN']; [lra|]. destruct (sig_even_unique _ (p + 1) _ _ _ _ ltac:(lia) HN' HE) as [-> ->].
        apply (f_equal (read_float 10 (ch "e"))) in Et. rewrite !R in Et by assumption. injection Et as E1 E2. split; congruence. }
      cbn [departs]. intros [[D _]|[_ [[D _]|[_ [D|[D _]]]]]]; try congruence; [apply (not_inf b Hf D)|].
      destruct D as (f' & e' & Hi' & D). destruct (digits_unique _ _ _ _ _ Hi Hi') as [<- <-]. rewrite Hx, Hs in D. destruct D as (T & Y & T' & Y' & D1 & D2 & D3). fold p in D1, D2.
      destruct (sig_half_up_unique _ (p + 1) _ _ _ _ ltac:(lia) D1 HS) as [-> ->]. destruct (sig_even_unique _ (p + 1) _ _ _ _ ltac:(lia) D2 HE) as [-> ->]. lia.
    + intros D. assert (E : S = S' /\ X = X').
      { destruct (Z.eq_dec S S') as [E1|E1], (Z.eq_dec X X') as [E2|E2]; [split; assumption|..];
          (exfalso; apply D; right; split; [exact Hf|]; right; split; [exact Hh|]; left; exists f, e; split; [exact Hi|]; rewrite Hx, Hs; exists S, X, S', X'; cbv zeta; fold p; auto). }
      destruct E as [-> ->]. apply ct_e; [exact Hs|exact Hf|]. right. exact HE.
Qed.

(** ** %g *)
Lemma g_text_reads s q neg S k e x : 0 <= S -> 0 <= k -> exp_reads 10 (ch "e") e x -> reads_as (in_case s (finite_text q neg (g_text q S k ++ e))) neg (dec S (x - k)).
Proof.
  intros HS Hk He. unfold g_text. destruct (q_alt q).
  - exists S, k, x. split; [|reflexivity]. rewrite case_read10. exact (finite_reads q neg true S k e x HS Hk He).
  - pose proof (short_reads Sf q neg S k e x HS Hk He) as (N & k' & y & E & V). exists N, k', y. split; [|exact V]. rewrite case_read10. exact E.
Qed.
Lemma cnt_point_digits t : Forall is_dig t -> cnt 46 t = 0.
Proof. intros F. apply (cnt_none is_dig); [exact F|]. unfold is_dig. lia. Qed.
Lemma cnt_point_exp X : cnt 46 (exp_text X) = 0.
Proof.
  apply (cnt_none (fun c => c <> 46)); [|tauto]. unfold exp_text. constructor; [discriminate|]. constructor; [destruct (X <? 0); discriminate|].
  unfold min_digits. apply Forall_app. split; [|eapply Forall_impl; [|apply numeral_dig; lia]; unfold is_dig; intros; lia].
  apply Forall_forall. intros c Hc. apply in_rep in Hc. subst. discriminate.
Qed.

Lemma g_port J src s q v b r f e t : jdk_ok J -> directive src s q -> general_conv s = true -> is_double J v b -> finite b -> its_digits b f e ->
  prints J src [traitsOf J v r] t -> t = in_case s (j_g q (b <? 0) f e) -> (c_text s q (CDouble b) t <-> ~ departs s q (CDouble b)).
Proof.
  intros HJ Hdir Hs Hv Hf Hi Ht Et0. assert (Hh : hex_conv s = false /\ exp_conv s = false /\ fixed_conv s = false) by (destruct s; try discriminate Hs; repeat split; reflexivity). destruct Hh as (Hh & Hx & Hfx).
  pose proof (digits_decimal _ _ _ Hi) as Hd. pose proof (its_nonneg _ _ _ Hd) as F0. pose proof (g_prec_pos _ _ _ Hdir) as HP. set (P := g_prec q) in *.
  destruct (sig0 f e P) as [S X] eqn:Es. destruct (mag_cases b Hf) as [Mz|Mp].
  - pose proof (its_zero _ _ _ Hd Mz) as ->. cbn in Es. apply pair_eq in Es as [<- <-].
    assert (T : j_g q (b <? 0) 0 e = finite_text q (b <? 0) (g_text q 0 (P - 1 - 0))).
    { unfold j_g, g_irregular, c_g, g_body. fold P. cbn [sig0 Z.eqb]. replace (0 <? P) with true by (symmetry; apply Z.ltb_lt; lia). cbn [Z.leb Z.compare andb negb]. rewrite andb_false_r. reflexivity. }
    rewrite T in Et0. clear T. split.
    + intros _. cbn [departs]. assert (Zp : (dec 0 e == 0)%Q) by apply dec_zero.
      intros [[D _]|[_ [[D _]|[_ [D|[_ D]]]]]]; try congruence; [apply (not_inf b Hf D)| |].
      * destruct D as (f' & e' & Hi' & D). rewrite Hfx, Hx in D. destruct D as (S & X & S' & X' & _ & D2 & _). apply sig_even_pos in D2. rewrite Mz, dval_0 in D2. lra.
      * destruct D as (_ & f' & e' & S & X & Hi' & D & _). destruct (digits_unique _ _ _ _ _ Hi Hi') as [<- <-]. apply sig_positive in D. lra.
    + intros _. subst t. apply ct_g_fixed; [exact Hs|exact Hf| |fold P; lia]. left. rewrite Mz. split; [reflexivity|]. split; reflexivity.
  - pose proof (its_pos _ _ _ Hd Mp) as Nz. assert (Fp : 0 < f) by lia. assert (HS : sig_half_up (dec f e) P S X).
    { apply sig_right; [exact Fp|lia|]. unfold sig0 in Es. destruct (Z.eqb_spec f 0) as [|_]; [lia|exact Es]. }
    pose proof (dval_positive _ Mp) as Vp. destruct (sig_even_exists (dval (magnitude b)) P HP Vp) as (S' & X' & HE).
    pose proof (Z.pow_pos_nonneg 10 (P - 1) ltac:(lia) ltac:(lia)) as Pw.
    assert (BS : 10 ^ (P - 1) <= S < 10 ^ P) by (destruct HS as (? & ? & _ & _ & _ & B); exact B). assert (BS' : 10 ^ (P - 1) <= S' < 10 ^ P) by (destruct HE as (? & ? & _ & _ & _ & B); exact B).
    assert (Rt : reads_as t (b <? 0) (dec S (X - P + 1))).
    { apply (read_text J src v r s q b f e); try assumption; [destruct s; try discriminate Hs; unfold decimal_spec; tauto|].
      assert (G : sig_rounded (dec f e) P (dec S (X - P + 1))) by (right; exists S, X; split; [exact HS|reflexivity]). destruct s; try discriminate Hs; exact G. }
    assert (J1 : -4 <= X < P -> t = in_case s (finite_text q (b <? 0) (g_text q S (P - 1 - X)))).
    { intros HX. rewrite Et0. unfold j_g, g_irregular, c_g, g_body. fold P. rewrite Es. replace ((-4 <=? X) && (X <? P)) with true by (symmetry; apply andb_true_intro; split; [apply Z.leb_le|apply Z.ltb_lt]; lia).
      cbn [negb]. rewrite andb_false_r. reflexivity. }
    assert (J2 : ~ -4 <= X < P -> t = in_case s (finite_text q (b <? 0) (if q_alt q then g_unpadded q f e else g_text q S (P - 1) ++ exp_text X))).
    { intros HX. rewrite Et0. unfold j_g, g_irregular, c_g, g_body. fold P. rewrite Es. replace ((-4 <=? X) && (X <? P)) with false by (symmetry; apply andb_false_iff; rewrite Z.leb_gt, Z.ltb_ge; lia).
      cbn [negb]. rewrite andb_true_r. destruct (q_alt q); reflexivity. }
    assert (U : g_unpadded q f e = (if P =? 1 then decimal_text S 0 else alt_text (S / 10 ^ (P - Z.min (ndigits f) P)) (Z.min (ndigits f) P - 1)) ++ exp_text X) by (unfold g_unpadded; fold P; rewrite Es; reflexivity).
    split.
    + intros C. assert (E : S' = S /\ X' = X /\ (~ -4 <= X < P -> t = in_case s (finite_text q (b <? 0) (g_text q S (P - 1) ++ exp_text X)))).
      { pose proof (not_inf b Hf) as Ni. inversion C as [| | | | | |b' N' Hs' Hf' HN' Eb Et|b' T' Y' Hs' Hf' HN' Eb Et|b' T' Y' Hs' Hf' HN' HX' Eb Et|b' T' Y' Hs' Hf' HN' HX' Eb Et|b' P' M' x' Hs' Hf' HN' HX' HV' Eb Et|b' P' M' x' Hs' Hf' HN' HX' HV' Eb Et|b' w' Hs' Hf' HN' Eb Et|];
          try (exfalso; subst; solve [tauto|destruct s; discriminate]); fold P in HN', Et, HX'; (destruct HN' as [[HN' _]|HN']; [lra|]); destruct (sig_even_unique _ _ _ _ _ _ HP HN' HE) as [-> ->].
        - pose proof (g_text_reads s q (b <? 0) S' (P - 1 - X') [] 0 ltac:(lia) ltac:(lia) no_exp_reads) as R. rewrite app_nil_r, Et in R.
          destruct (reads_as_unique _ _ _ _ _ Rt R) as [_ V]. replace (0 - (P - 1 - X')) with (X' - P + 1) in V by lia. destruct (sig_of_value S X S' X' P HP BS BS' V) as [<- <-].
          split; [reflexivity|]. split; [reflexivity|]. intros H. tauto.
        - pose proof (g_text_reads s q (b <? 0) S' (P - 1) (exp_text X') X' ltac:(lia) ltac:(lia) (exp_text_reads X')) as R. rewrite Et in R.
          destruct (reads_as_unique _ _ _ _ _ Rt R) as [_ V]. replace (X' - (P - 1)) with (X' - P + 1) in V by lia. destruct (sig_of_value S X S' X' P HP BS BS' V) as [<- <-].
          split; [reflexivity|]. split; [reflexivity|]. intros _. first [reflexivity|symmetry; exact Et]. }
      destruct E as (-> & -> & E). cbn [departs]. intros [[D _]|[_ [[D _]|[_ [D|[_ D]]]]]]; try congruence; [apply (not_inf b Hf D)| |].
      * destruct D as (f' & e' & Hi' & D). destruct (digits_unique _ _ _ _ _ Hi Hi') as [<- <-]. rewrite Hfx, Hx in D. destruct D as (T & Y & T' & Y' & D1 & D2 & D3). fold P in D1, D2.
        destruct (sig_half_up_unique _ _ _ _ _ _ HP D1 HS) as [-> ->]. destruct (sig_even_unique _ _ _ _ _ _ HP D2 HE) as [-> ->]. lia.
      * destruct D as (Ha & f' & e' & T & Y & Hi' & D1 & D2 & D3). destruct (digits_unique _ _ _ _ _ Hi Hi') as [<- <-]. fold P in D1, D2, D3.
        destruct (sig_half_up_unique _ _ _ _ _ _ HP D1 HS) as [-> ->]. specialize (E D2). rewrite (J2 D2), Ha, U in E. unfold g_text in E. rewrite Ha in E. destruct (Z.eqb_spec P 1) as [P1|P1].
        -- apply (f_equal (cnt 46)) in E. rewrite !cnt_case in E by lia. unfold finite_text in E. rewrite !cnt_pad, !cnt_app, cnt_point_exp in E by lia. unfold alt_text in E. rewrite cnt_app in E.
           rewrite P1 in E. change (1 - 1) with 0 in E. change (cnt 46 (if 0 =? 0 then txt "." else [])) with 1 in E. lia.
        -- destruct D3 as [D3|D3]; [lia|]. apply (f_equal (read_float 10 (ch "e"))) in E. rewrite !case_read10 in E. rewrite Z.min_l in E by lia.
           destruct (ndigits_bounds f Fp) as (Np & _). assert (D0 : 0 <= S / 10 ^ (P - ndigits f)) by (apply Z.div_pos; [lia|apply Z.pow_pos_nonneg; lia]).
           pose proof (finite_reads q (b <? 0) true (S / 10 ^ (P - ndigits f)) (ndigits f - 1) (exp_text X) X D0 ltac:(lia) (exp_text_reads X)) as R1. cbv iota in R1.
           pose proof (finite_reads q (b <? 0) true S (P - 1) (exp_text X) X ltac:(lia) ltac:(lia) (exp_text_reads X)) as R2. cbv iota in R2.
           rewrite R1, R2 in E. injection E as _ E. lia.
    + intros D. assert (E : S = S' /\ X = X').
      { destruct (Z.eq_dec S S') as [E1|E1], (Z.eq_dec X X') as [E2|E2]; [split; assumption|..];
          (exfalso; apply D; right; split; [exact Hf|]; right; split; [exact Hh|]; left; exists f, e; split; [exact Hi|]; rewrite Hfx, Hx; exists S, X, S', X'; cbv zeta; fold P; auto). }
      destruct E as [<- <-]. destruct (Z_lt_le_dec X (-4)) as [L|L]; [|destruct (Z_lt_le_dec X P) as [L2|L2]].
      2:{ rewrite (J1 (conj L L2)). apply ct_g_fixed; [exact Hs|exact Hf|right; exact HE|fold P; lia]. }
      all: assert (NX : ~ -4 <= X < P) by lia; rewrite (J2 NX);
        assert (T : (if q_alt q then g_unpadded q f e else g_text q S (P - 1) ++ exp_text X) = g_text q S (P - 1) ++ exp_text X) by
          (destruct (q_alt q) eqn:Ha; [|reflexivity];
           assert (ND : ~ (P = 1 \/ ndigits f < P)) by (intros B; apply D; right; split; [exact Hf|]; right; split; [exact Hh|]; right; split; [exact Hs|]; split; [exact Ha|]; exists f, e, S, X; auto);
           rewrite U; unfold g_text; rewrite Ha; f_equal; destruct (Z.eqb_spec P 1) as [|_]; [exfalso; tauto|];
           rewrite Z.min_r by (destruct (Z_lt_le_dec (ndigits f) P); [exfalso; tauto|assumption]); rewrite Z.sub_diag, Z.pow_0_r, Z.div_1_r; reflexivity);
        rewrite T; apply ct_g_exp; [exact Hs|exact Hf|right; exact HE|exact NX].
Qed.
