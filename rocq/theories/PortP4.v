(** Proofs for C98: %a; the theorem for one directive and for whole calls. *)
From Coq Require Import QArith Qabs Qpower Lqa Lia.
From Verif Require Import PropsSame.
From Verif Require Import Base Digits SeqM SeqSpec ContextM CompilerM GrammarSpec FormatterM TraitsM ImplM FmtSpec FmtP DecSpec RoundP FloatSpec BigSpec FPDecP DirSpec ScaleSpec ValueSpec WholeSpec
  ScaleP FloatQ CastP DoubleP HexP ReadSpec ReadP ReadFSpec ReadFP ReadFP2 ReadFP3 BigReadP SigP IntP LoopP CompilerP2 AgainP2 AgainP3 PropsFloat PropsRead PropsWhole ScanP3 PortSpec PortP PortP2 PortP3.
Open Scope Z_scope.

(** a padded hexadecimal number reads as its body *)
Lemma read_padded16 q neg body N k x : body_reads 16 (ch "p") body N k x -> read_float 16 (ch "p") (hex_finite q neg body) = Some (neg, N, k, x).
Proof.
  intros Hb. unfold hex_finite. rewrite read_float_body. unfold pad_number.
  assert (S : forall z n, starts 10 (txt "0x" ++ zeros z ++ body ++ spaces n)) by (intros z n; reflexivity).
  destruct (q_zero q && negb (q_left q)).
  - rewrite <- app_assoc. specialize (S (q_width q - zlen (sign_text q neg ++ txt "0x") - zlen body) 0).
    change (spaces 0) with (@nil Z) in S. rewrite app_nil_r in S. rewrite (read_sign_digits q neg 10) by exact S.
    pose proof (Hb neg (q_width q - zlen (sign_text q neg ++ txt "0x") - zlen body) 0) as E.
    change (spaces 0) with (@nil Z) in E. rewrite app_nil_r in E. exact E.
  - unfold justify. set (w := q_width q - _). destruct (q_left q).
    + rewrite <- !app_assoc. specialize (S 0 w). change (zeros 0) with (@nil Z) in S. cbn [app] in S.
      rewrite (read_sign_digits q neg 10) by exact S. exact (Hb neg 0 w).
    + rewrite skip_spaces, <- app_assoc. specialize (S 0 0). change (zeros 0) with (@nil Z) in S. change (spaces 0) with (@nil Z) in S. cbn [app] in S.
      rewrite app_nil_r in S. rewrite (read_sign_digits q neg 10) by exact S.
      pose proof (Hb neg 0 0) as E. change (zeros 0) with (@nil Z) in E. change (spaces 0) with (@nil Z) in E. cbn [app] in E.
      rewrite app_nil_r in E. exact E.
Qed.
Lemma hex_pointed_reads q neg M P x : 0 <= M -> 0 <= P -> read_float 16 (ch "p") (hex_finite q neg (hex_pointed q M P ++ bin_exp_text x)) = Some (neg, M, P, x).
Proof.
  intros HM HP. apply read_padded16. unfold hex_pointed. rewrite <- !app_assoc.
  replace ((if (0 <? P) || q_alt q then txt "." else []) ++ hex_fraction P M ++ bin_exp_text x)
    with ((if (0 <? P) || q_alt q then ch "." :: frac 16 P M else []) ++ bin_exp_text x).
  - apply body_split; [right; reflexivity|exact HM|exact HP| |apply bin_exp_reads]. intros E. apply Bool.orb_false_iff in E as [E _]. apply Z.ltb_ge in E. lia.
  - destruct (Z.ltb_spec 0 P) as [L|L]; [reflexivity|]. assert (P = 0) as -> by lia. destruct (q_alt q); reflexivity.
Qed.

Lemma hex_text_pointed q M P : 1 <= P -> hex_text M P = hex_pointed q M P.
Proof. intros H. unfold hex_text, hex_pointed. replace (0 <? P) with true by (symmetry; apply Z.ltb_lt; lia). reflexivity. Qed.

(** rounding to nearest on the finer lattice is rounding to nearest on the one printed *)
Lemma nearest_even v P M x : 0 <= P -> hex_nearest v P M x -> hex_even v P M x.
Proof.
  intros HP (x0 & N & [A1 A2] & [B1 B2] & B3 & C & D). set (y := (v * 16 ^ P * 2 ^ (- x0))%Q) in *. pose proof (Z.pow_pos_nonneg 16 P ltac:(lia) HP) as P16.
  assert (Y2 : (y < inject_Z (2 * 16 ^ P))%Q).
  { rewrite inject_Z_mult, two_16 by exact HP. change (inject_Z 2) with 2%Q. pose proof (two_pos (- x0)) as Tm. pose proof (sixteen_pos P) as Sp.
    assert (G : (v * 2 ^ (- x0) < 2)%Q).
    { apply Qlt_le_trans with (2 ^ (x0 + 1) * 2 ^ (- x0))%Q; [apply Qmult_lt_r; assumption|]. rewrite <- two_add. replace (x0 + 1 + - x0) with 1 by lia. apply Qle_refl. }
    unfold y. setoid_replace (v * 16 ^ P * 2 ^ (- x0))%Q with (v * 2 ^ (- x0) * 16 ^ P)%Q by ring. apply Qmult_lt_r; assumption. }
  assert (NU : N <= 2 * 16 ^ P).
  { assert (G : (inject_Z N < inject_Z (2 * 16 ^ P + 1))%Q) by (rewrite inject_Z_plus; change (inject_Z 1) with 1%Q; lra). rewrite <- Zlt_Qlt in G. lia. }
  destruct (Z_lt_le_dec x x0) as [L|L].
  - exfalso. assert (E : M = N * 2 ^ (x0 - x)).
    { apply (proj1 (inject_Z_injective _ _)). rewrite inject_Z_mult, two_Z by lia. apply (Qmult_inj_r _ _ (2 ^ x)); [pose proof (two_pos x); lra|]. rewrite C, <- Qmult_assoc, <- two_add. replace (x0 - x + x) with x0 by lia. reflexivity. }
    assert (NL : 16 ^ P <= N).
    { assert (G : (inject_Z (16 ^ P) < inject_Z (N + 1))%Q).
      { rewrite inject_Z_plus, two_16 by exact HP. change (inject_Z 1) with 1%Q. pose proof (two_pos (- x0)) as Tm. pose proof (sixteen_pos P) as Sp.
        assert (G : (1 <= v * 2 ^ (- x0))%Q).
        { apply Qle_trans with (2 ^ x0 * 2 ^ (- x0))%Q; [rewrite <- two_add; replace (x0 + - x0) with 0 by lia; apply Qle_refl|apply Qmult_le_compat_r; lra]. }
        assert (Y1 : (16 ^ P <= y)%Q). { unfold y. setoid_replace (v * 16 ^ P * 2 ^ (- x0))%Q with (v * 2 ^ (- x0) * 16 ^ P)%Q by ring. rewrite <- (Qmult_1_l (16 ^ P)) at 1. apply Qmult_le_compat_r; lra. }
        lra. }
      rewrite <- Zlt_Qlt in G. lia. }
    assert (T : 2 <= 2 ^ (x0 - x)) by (replace (x0 - x) with (Z.succ (x0 - x - 1)) by lia; rewrite Z.pow_succ_r by lia; pose proof (Z.pow_pos_nonneg 2 (x0 - x - 1) ltac:(lia) ltac:(lia)); lia).
    nia.
  - assert (E : N = M * 2 ^ (x - x0)).
    { apply (proj1 (inject_Z_injective _ _)). rewrite inject_Z_mult, two_Z by lia. apply (Qmult_inj_r _ _ (2 ^ x0)); [pose proof (two_pos x0); lra|]. rewrite <- C, <- Qmult_assoc, <- two_add. replace (x - x0 + x0) with x by lia. reflexivity. }
    destruct (Z.eq_dec x x0) as [->|Nx].
    + rewrite Z.sub_diag, Z.pow_0_r, Z.mul_1_r in E. subst N. split; [split; assumption|]. fold y. intros [H|H]; apply B3; [left; symmetry; exact H|right; exact H].
    + assert (T : 2 <= 2 ^ (x - x0)) by (replace (x - x0) with (Z.succ (x - x0 - 1)) by lia; rewrite Z.pow_succ_r by lia; pose proof (Z.pow_pos_nonneg 2 (x - x0 - 1) ltac:(lia) ltac:(lia)); lia).
      assert (T2 : 2 ^ (x - x0) = 2) by nia. assert (x - x0 = 1).
      { destruct (Z_lt_le_dec 1 (x - x0)) as [G|G]; [|lia]. replace (x - x0) with (Z.succ (Z.succ (x - x0 - 2))) in T2 by lia. rewrite !Z.pow_succ_r in T2 by lia. pose proof (Z.pow_pos_nonneg 2 (x - x0 - 2) ltac:(lia) ltac:(lia)). lia. }
      rewrite T2 in E. assert (M = 16 ^ P) by lia.
      assert (Yh : (v * 16 ^ P * 2 ^ (- x) == y * (1 # 2))%Q).
      { unfold y. replace (- x) with (- x0 + -1) by lia. rewrite two_add. change (2 ^ (-1))%Q with (1 # 2)%Q. ring. }
      assert (EN : (inject_Z N == inject_Z M * 2)%Q) by (rewrite E, inject_Z_mult; reflexivity).
      assert (YM : (y < inject_Z M * 2)%Q) by (rewrite <- EN; replace N with (2 * 16 ^ P) by lia; exact Y2).
      unfold hex_even. rewrite Yh. split; [split; lra|]. intros [H1|H1]; lra.
Qed.

Lemma exact_even v P M x : (inject_Z M * 2 ^ x == v * 16 ^ P)%Q -> hex_even v P M x.
Proof.
  intros E. assert (V : (v * 16 ^ P * 2 ^ (- x) == inject_Z M)%Q).
  { rewrite <- E, <- Qmult_assoc, <- two_add. replace (x + - x) with 0 by lia. change (2 ^ 0)%Q with 1%Q. ring. }
  unfold hex_even. rewrite V. split; [split; lra|]. intros [H|H]; lra.
Qed.

Lemma normal_parts b c x : 0 <= b -> bin_parts b = (c, x) -> (2 ^ 52 <= b -> 2 ^ 52 <= c) /\ (b = 0 -> x = 0).
Proof.
  intros Hb. unfold bin_parts. destruct (Z.eqb_spec (b / 2 ^ 52) 0) as [E|E]; intros H; apply pair_eq in H as [<- <-].
  - split; [lia|]. intros ->. reflexivity.
  - split; [intros _; pose proof (Z.mod_pos_bound b (2 ^ 52) ltac:(lia)); lia|]. intros ->. exfalso. apply E. reflexivity.
Qed.

(** ** %a *)
Lemma a_port s q b : hex_conv s = true -> finite b -> (forall p, q_prec q = Some p -> 0 <= p) ->
  (c_text s q (CDouble b) (in_case s (j_a q (b <? 0) (magnitude b))) <-> ~ departs s q (CDouble b)).
Proof.
  intros Hs Hf Hp. pose proof (magnitude_range b Hf) as Mr. set (m := magnitude b) in *.
  destruct (q_prec q) as [p|] eqn:Ep.
  - specialize (Hp p eq_refl). destruct (Z.eq_dec p 0) as [->|Np].
    + split; [|intros D; exfalso; apply D; right; split; [exact Hf|]; left; split; [exact Hs|exact Ep]].
      intros C. exfalso. pose proof (not_inf b Hf) as Ni.
      assert (R : exists M x, read_float 16 (ch "p") (in_case s (j_a q (b <? 0) m)) = Some (b <? 0, M, 1, x)).
      { rewrite case_read16. unfold j_a, a_body. rewrite Ep. change (Z.max 1 0) with 1. destruct (Z.eqb_spec m 0) as [Ez|Ez].
        - exists 0, 0. apply hex_reads; lia.
        - destruct (hex_digits m 1) as [M x] eqn:Eh. exists M, x. apply hex_reads; [|lia].
          pose proof (hex_digits_nearest m 1 M x ltac:(lia) ltac:(lia) Eh) as (x0 & N & _ & _ & _ & _ & B). lia. }
      destruct R as (M & x & R). inversion C as [| | | | | |b' N' Hs' Hf' HN' Eb Et|b' T' Y' Hs' Hf' HN' Eb Et|b' T' Y' Hs' Hf' HN' HX' Eb Et|b' T' Y' Hs' Hf' HN' HX' Eb Et|b' P' M' x' Hs' Hf' HN' HX' HV' Eb Et|b' P' M' x' Hs' Hf' HN' HX' HV' Eb Et|b' w' Hs' Hf' HN' Eb Et|];
          try (exfalso; subst; solve [tauto|congruence|destruct s; discriminate]).
      rewrite Ep in HN'. injection HN' as HN'. subst P'. rewrite <- Et, case_read16, hex_pointed_reads in R by (destruct HX' as (_ & HX' & _); lia). discriminate R.
    + split; [intros _; cbn [departs]; intros [[D _]|[_ [[_ D]|[D _]]]]; [apply (not_inf b Hf D)|congruence|congruence]|]. intros _.
      pose proof (Z.pow_pos_nonneg 16 p ltac:(lia) Hp) as P16. unfold j_a, a_body. rewrite Ep. replace (Z.max 1 p) with p by lia. destruct (Z.eqb_spec m 0) as [Ez|Ez].
      * rewrite (hex_text_pointed q) by lia. apply ct_a; [exact Hs|exact Hf|exact Ep| |]; fold m.
        -- split; [lia|]. split; [lia|]. split; [lia|reflexivity].
        -- apply exact_even. rewrite Ez, dval_0. change (inject_Z 0) with 0%Q. ring.
      * destruct (hex_digits m p) as [M x] eqn:Eh. rewrite (hex_text_pointed q) by lia.
        assert (G : hex_even (dval m) p M x /\ 0 <= M < 2 * 16 ^ p /\ (2 ^ 52 <= m -> 16 ^ p <= M)).
        { destruct (Z_lt_le_dec p 13) as [L|L].
          - pose proof (hex_digits_nearest m p M x ltac:(lia) ltac:(lia) Eh) as H. split; [apply nearest_even; [exact Hp|exact H]|]. destruct H as (x0 & N & _ & _ & _ & _ & B). lia.
          - destruct (hex_digits_exact m p M x ltac:(lia) L Eh) as [V B]. split; [apply exact_even; exact V|]. split; [exact B|]. intros Hm.
            unfold hex_digits in Eh. destruct (bin_parts m) as [c y] eqn:Eb. replace (13 <=? p) with true in Eh by (symmetry; apply Z.leb_le; lia). rewrite orb_true_r in Eh. apply pair_eq in Eh as [<- _].
            destruct (normal_parts m c y ltac:(lia) Eb) as [Nc _]. specialize (Nc Hm). replace (16 ^ p) with (16 ^ 13 * 16 ^ (p - 13)) by (rewrite <- Z.pow_add_r by lia; f_equal; lia).
            change (16 ^ 13) with (2 ^ 52). pose proof (Z.pow_pos_nonneg 16 (p - 13) ltac:(lia) ltac:(lia)). nia. }
        destruct G as (G1 & G2 & G3). apply ct_a; [exact Hs|exact Hf|exact Ep| |]; fold m; [|exact G1]. split; [lia|]. split; [lia|]. split; [exact G3|]. intros Z0. tauto.
  - split; [intros _; cbn [departs]; intros [[D _]|[_ [[_ D]|[D _]]]]; [apply (not_inf b Hf D)|congruence|congruence]|]. intros _.
    unfold j_a, a_body. rewrite Ep. destruct (bin_parts m) as [c x] eqn:Eb. destruct (bin_parts_range m c x ltac:(lia) Eb) as (Rc & _). destruct (normal_parts m c x ltac:(lia) Eb) as [Nc Zx].
    pose proof (bin_parts_value m c x ltac:(lia) Eb) as V. pose proof (drop_hex_spec 12 c ltac:(lia)) as D. destruct (FloatSpec.drop_hex 13 c) as [M k]. destruct D as (K & EM & HM). change (Z.of_nat 13) with 13 in *.
    pose proof (Z.pow_pos_nonneg 16 k ltac:(lia) ltac:(lia)) as Pk. pose proof (Z.pow_pos_nonneg 16 (13 - k) ltac:(lia) ltac:(lia)) as Pk'.
    assert (T : 16 ^ k * 16 ^ (13 - k) = 2 ^ 52) by (rewrite <- Z.pow_add_r by lia; replace (k + (13 - k)) with 13 by lia; reflexivity).
    rewrite (hex_text_pointed q) by lia. apply ct_a_exact; [exact Hs|exact Hf|exact Ep| |]; fold m.
    + split; [lia|]. split; [split; [exact HM|]; change (2 ^ 53) with (2 * 2 ^ 52) in Rc; nia|]. split; [intros H; specialize (Nc H); nia|exact Zx].
    + assert (E13 : (16 ^ 13 == 16 ^ k * 16 ^ (13 - k))%Q) by (rewrite <- sixteen_add; replace (k + (13 - k)) with 13 by lia; reflexivity).
      rewrite E13, EM, inject_Z_mult, two_16, Qmult_assoc in V by lia. apply (Qmult_inj_r _ _ (16 ^ (13 - k))); [pose proof (sixteen_pos (13 - k)); lra|]. rewrite V. ring.
Qed.

(** ** One directive *)

Theorem one_directive J src s q x a t : jdk_ok J -> directive src s q -> means J s x a -> prints J src [x] t -> (c_text s q a t <-> ~ departs s q a).
Proof.
  intros HJ Hd Hm Ht.
  assert (Hw : 0 <= q_width q) by (apply (directive_bounds _ _ _ Hd)).
  assert (Hp : forall p, q_prec q = Some p -> 0 <= p).
  { intros p E. pose proof (PropsFloat.prec_nonneg _ _ _ Hd) as H. unfold prec_or in H. rewrite E in H. exact H. }
  assert (U : forall t', s <> St -> s <> ST -> shown J s None q x (Ok t') -> t = t') by (intros t' N1 N2 H; exact (prints_unique _ _ _ _ _ Ht (shown_prints J src s q x t' HJ Hd N1 N2 H))).
  destruct Hm as [v z r Hs H|v n r Hs H|v c r Hs H|v u r Hs Hq H Hl|v b r Hs H Hb|v r Hs H].
  - subst s. rewrite (U (j_d q z)) by (discriminate || (apply sh_signed; [reflexivity|exact H])). rewrite <- (d_port q z Hw). split; [intros C; inversion C; congruence|]. intros ->. constructor. reflexivity.
  - destruct s; try discriminate Hs.
    + rewrite (U (c_u q n)) by (discriminate || (apply sh_unsigned; [reflexivity|exact H])). split; [intros _ (_ & _ & F); exact F|]. intros _. constructor. reflexivity.
    + rewrite (U (j_o q n)) by (discriminate || (apply sh_octal; [reflexivity|exact H])). rewrite <- (o_port q n Hw Hp). split; [intros C; inversion C; try congruence; intuition discriminate|]. intros ->. apply ct_o. reflexivity.
    + rewrite (U (in_case Sx (j_x q n))) by (discriminate || (apply sh_hex; [left; reflexivity|exact H])). rewrite <- (x_port Sx q n Hw (or_introl eq_refl)).
      split; [intros C; inversion C; try discriminate; congruence|]. intros ->. apply ct_x. left; reflexivity.
    + rewrite (U (in_case SX (j_x q n))) by (discriminate || (apply sh_hex; [right; reflexivity|exact H])). rewrite <- (x_port SX q n Hw (or_intror eq_refl)).
      split; [intros C; inversion C; try discriminate; congruence|]. intros ->. apply ct_x. right; reflexivity.
  - subst s. rewrite (U (justify q [c])) by (discriminate || (apply sh_char; [reflexivity|exact H])). split; [intros _ []|]. intros _. exact (ct_c Sc q c eq_refl).
  - subst s. rewrite (U (in_case Ss (c_s q u))) by (discriminate || (apply sh_text; [reflexivity|exact Hq|exact H|exact Hl])). split; [intros _ []|]. intros _. exact (ct_s Ss q u eq_refl).
  - assert (N1 : s <> St) by (intros ->; discriminate Hs). assert (N2 : s <> ST) by (intros ->; discriminate Hs).
    destruct (Z.eq_dec (magnitude b) inf_bits) as [Ei|Ei].
    + rewrite (U (in_case s (j_inf q (b <? 0)))) by (assumption || (apply (sh_infinite J s None q v b r); assumption)).
      assert (D : departs s q (CDouble b) <-> is_upper s = false \/ (b <? 0) = false /\ blank_sign q 8).
      { cbn [departs]. unfold finite. rewrite Z.ltb_ge. split; [intros [[_ D]|[D _]]; [exact D|lia]|]. intros D. left. split; [exact Ei|exact D]. }
      rewrite D. clear D. split.
      * intros C. inversion C as [| | | | | |b' N' Hs' Hf' HN' Eb Et|b' T' Y' Hs' Hf' HN' Eb Et|b' T' Y' Hs' Hf' HN' HX' Eb Et|b' T' Y' Hs' Hf' HN' HX' Eb Et|b' P' M' x' Hs' Hf' HN' HX' HV' Eb Et|b' P' M' x' Hs' Hf' HN' HX' HV' Eb Et|b' w' Hs' Hf' HN' Eb Et|];
          try (exfalso; apply (not_inf b); assumption).
        symmetry in Et. apply (inf_port s q (b <? 0) w' Hw HN') in Et as (_ & Eu & Nb). intros [D|D]; [congruence|tauto].
      * intros D. assert (Eq : in_case s (j_inf q (b <? 0)) = in_case s (justify q (sign_text q (b <? 0) ++ txt "infinity"))).
        { apply (inf_port s q (b <? 0) _ Hw (or_intror eq_refl)). split; [reflexivity|]. split; [destruct (is_upper s); [reflexivity|exfalso; tauto]|]. tauto. }
        rewrite Eq. apply ct_inf; [exact Hs|exact Ei|right; reflexivity].
    + assert (Hf : finite b) by (unfold finite; lia). destruct (digits_exist b Hf) as (f & e & Hi). pose proof (PropsFloat.prec_nonneg _ _ _ Hd) as H6.
      assert (C : fixed_conv s = true \/ exp_conv s = true \/ general_conv s = true \/ hex_conv s = true) by (destruct s; try discriminate Hs; auto).
      destruct C as [C|[C|[C|C]]].
      * rewrite (U (in_case s (c_f q (b <? 0) f e))) by (assumption || (apply sh_fixed; assumption)). apply f_port; assumption.
      * rewrite (U (in_case s (c_e q (b <? 0) f e))) by (assumption || (apply sh_exp; assumption)). apply e_port; assumption.
      * assert (E : t = in_case s (j_g q (b <? 0) f e)) by (apply U; [exact N1|exact N2|apply sh_general; assumption]).
        apply (g_port J src s q v b r f e t); assumption.
      * rewrite (U (in_case s (j_a q (b <? 0) (magnitude b)))) by (assumption || (apply (sh_hexfloat J s None q v b r); assumption)). apply a_port; assumption.
  - assert (N1 : s <> St) by (intros ->; discriminate Hs). assert (N2 : s <> ST) by (intros ->; discriminate Hs).
    rewrite (U (in_case s (c_nan q))) by (assumption || (apply sh_nan; assumption)). cbn [departs]. split.
    + intros C. inversion C as [| | | | | | | | | | | | |u Hs' Hu Ec Et]. symmetry in Et. apply (nan_port s q u Hw Hu) in Et as (_ & Eu & Ep & Nb). intros [D|[D|D]]; [congruence|congruence|tauto].
    + intros D. assert (Eq : in_case s (c_nan q) = in_case s (justify q (sign_text q false ++ txt "nan" ++ []))).
      { apply (nan_port s q [] Hw (or_introl eq_refl)). split; [reflexivity|]. split; [destruct (is_upper s); [reflexivity|exfalso; tauto]|]. split; [destruct (q_plus q); [exfalso; tauto|reflexivity]|tauto]. }
      rewrite Eq. apply ct_nan; [exact Hs|left; reflexivity].
Qed.

(** ** Whole calls *)

Lemma means_shown J s pat q x a : means J s x a -> exists t, shown J s pat q x (Ok t).
Proof.
  intros [v z r Hs H|v n r Hs H|v c r Hs H|v u r Hs Hq H Hl|v b r Hs H Hb|v r Hs H].
  - eexists. apply sh_signed; [exact Hs|exact H].
  - destruct s; try discriminate Hs; eexists; [apply sh_unsigned|apply sh_octal|apply sh_hex|apply sh_hex]; first [exact H|reflexivity|left; reflexivity|right; reflexivity].
  - eexists. apply sh_char; [exact Hs|exact H].
  - eexists. apply sh_text; [rewrite Hs; reflexivity|exact Hq|exact H|exact Hl].
  - destruct (Z.eq_dec (magnitude b) inf_bits) as [Ei|Ei]; [eexists; apply (sh_infinite J s pat q v b r); assumption|].
    assert (Hf : finite b) by (unfold finite; lia). destruct (digits_exist b Hf) as (f & e & Hi).
    assert (C : fixed_conv s = true \/ exp_conv s = true \/ general_conv s = true \/ hex_conv s = true) by (destruct s; try discriminate Hs; auto).
    destruct C as [C|[C|[C|C]]]; eexists; [apply (sh_fixed J s pat q v b f e r)|apply (sh_exp J s pat q v b f e r)|apply (sh_general J s pat q v b f e r)|apply (sh_hexfloat J s pat q v b r)]; assumption.
  - eexists. apply sh_nan; assumption.
Qed.
Lemma means_spec J s x a : means J s x a -> s <> Spct /\ s <> St /\ s <> ST.
Proof. intros [v z r Hs H|v n r Hs H|v c r Hs H|v u r Hs Hq H Hl|v b r Hs H Hb|v r Hs H]; repeat split; intros ->; discriminate. Qed.

Lemma portable_says J ds args : jdk_ok J -> Forall sane ds -> portable J ds args -> exists t, says J ds args t None /\ c_line J ds args t.
Proof.
  intros HJ Hd H. induction H as [args|t ds args H IH|s fl w p d args l w' a1 p' x rest a ds Hw Hp Hm Hn H IH].
  - exists []. split; constructor.
  - apply Forall_inv_tail in Hd. destruct (IH Hd) as (u & A & B). exists (t ++ u). split; [|constructor; exact B]. apply (sy_piece J (Fixed t) ds args t args u None); [constructor|exact A].
  - pose proof (Forall_inv Hd) as Hd0. apply Forall_inv_tail in Hd. destruct (IH Hd) as (u & A & B). destruct Hd0 as [Bw Bp]. cbn [c_width c_prec] in Bw, Bp.
    pose proof (width_range _ _ _ _ _ _ _ Hw Bw) as Rw. pose proof (prec_range _ _ _ _ _ Hp Bp) as Rp. set (q := asked fl l w' p') in *.
    destruct (means_shown J s d q x a Hm) as [t T]. destruct (means_spec J s x a Hm) as (N0 & N1 & N2). destruct (directive_for s q N0 Rw Rp) as [src Hsrc].
    pose proof (shown_prints J src s q x t HJ Hsrc N1 N2 (shown_pat J s d None q x (Ok t) N1 N2 T)) as Pr.
    exists (t ++ u). split.
    + apply (sy_piece J _ ds args t rest u None); [|exact A]. apply (pc_shown J s fl w p d args l w' a1 p' x rest t); assumption.
    + apply (cl_directive J s fl w p d args l w' a1 p' x rest a t ds u); try assumption. apply (one_directive J src s q x a t); assumption.
Qed.
