(** What %f, %e and %g print for BigDecimal and BigInteger arguments is a numeral of the rounded number, whatever the layout. *)
From Coq Require Import QArith Qabs Qpower Lqa.
From Verif Require Import Base Digits UtilsM SeqM SeqSpec SeqP ContextM CompilerM GrammarSpec IntFormM FormatterM MathM DecimalM FPDecimalM DoubleM BigDecM RoundM TraitsM ImplM
  ReadSpec ReadP FmtSpec FmtP DirSpec DecSpec RoundP FloatSpec FPDecP FloatP DoubleP CastP NearP FloatQ FloatArgP IntP PropsInt PropsDouble PropsFloat BigSpec BigDecP BigGenP PropsBig WidthP BigFixP
  ReadFSpec ReadFP ReadFP2 ReadFP3.
Open Scope Z_scope.

Lemma zeros_zeros a b : exists c, zeros a ++ zeros b = zeros c.
Proof.
  exists (Z.max 0 a + Z.max 0 b). unfold zeros, rep. rewrite <- repeat_app. f_equal. lia.
Qed.

Lemma zeros_reads k body N p x : body_reads 10 (ch "e") body N p x -> body_reads 10 (ch "e") (zeros k ++ body) N p x.
Proof.
  intros H neg z n. rewrite <- !app_assoc. destruct (zeros_zeros z k) as (c & E). specialize (H neg c n). rewrite <- E, <- !app_assoc in H. exact H.
Qed.

Lemma padded_zeros_reads q neg (alt : bool) k N p : 0 <= N -> 0 <= p ->
  read_float 10 (ch "e") (finite_text q neg (zeros k ++ (if alt then alt_text N p else decimal_text N p))) = Some (neg, N, p, 0).
Proof.
  intros HN Hp. unfold finite_text. rewrite <- (app_nil_r (sign_text q neg)).
  pose proof (alt_starts N p [] HN Hp) as A1. pose proof (decimal_starts N p [] HN Hp) as A2.
  pose proof (alt_reads N p [] 0 HN Hp no_exp_reads) as A3. pose proof (decimal_reads N p [] 0 HN Hp no_exp_reads) as A4. rewrite app_nil_r in A1, A2, A3, A4.
  apply (read_padded 10 (ch "e")); destruct alt; first [apply starts_zeros; assumption|apply zeros_reads; assumption].
Qed.

Lemma nine_reads : exp_reads 10 (ch "e") (txt "e+9") 9.
Proof.
  split; [|split; [reflexivity|discriminate]]. intros n. change (txt "e+9") with [ch "e"; ch "+"; ch "9"]. cbn [app read_exponent].
  change ((ch "e" =? ch "e") || (ch "e" =? ch "e" - 32)) with true. cbv iota. cbn [read_sign].
  change (ch "+" =? 45) with false. change (ch "+" =? 43) with true. cbv iota.
  assert (R : digits_run 10 ([ch "9"] ++ spaces n) = ([ch "9"], spaces n)).
  { apply run_app; [constructor; [reflexivity|constructor]|]. unfold spaces, rep. destruct (Z.to_nat n); [exact I|reflexivity]. }
  cbn [app] in R. rewrite R. reflexivity.
Qed.

Lemma big_exp_reads f P X : exp_reads 10 (ch "e") (big_exp_text f P X) X.
Proof.
  unfold big_exp_text. destruct (Z.eqb_spec X 9) as [->|N]; cbn [andb]; [|apply exp_text_reads].
  destruct (kept f P =? 10); [apply nine_reads|apply exp_text_reads].
Qed.

(** ** the numbers *)

Lemma sig_val f e P S X x : 0 < f -> 1 <= P -> sig f e P = (S, X) -> sig_rounded (dec f e) P x -> (x == dec S (X - P + 1))%Q /\ 0 <= S.
Proof.
  intros Hf HP E H. pose proof (sig_right f e P S X Hf HP E) as R.
  assert (S0 : 0 <= S) by (destruct R as (_ & _ & _ & _ & _ & [R _]); assert (0 < 10 ^ (P - 1)) by (apply Z.pow_pos_nonneg; lia); lia).
  split; [|exact S0]. destruct H as [[E0 _]|(S' & X' & H & Ex)]; [pose proof (dec_pos f e Hf); lra|].
  destruct (sig_half_up_unique _ P S X S' X' HP R H) as [-> ->]. exact Ex.
Qed.

Lemma sig_zero_val e P x : sig_rounded (dec 0 e) P x -> (x == 0)%Q.
Proof. intros [[_ E]|(S & X & H & E)]; [exact E|]. pose proof (sig_positive _ _ _ _ H). rewrite dec_zero in *. lra. Qed.

Lemma ndigits_keep f e P x : 0 < f -> ndigits f <= P -> sig_rounded (dec f e) P x -> (x == dec f e)%Q.
Proof.
  intros Hf HP [[E _]|(S & X & H & E)]; [pose proof (dec_pos f e Hf); lra|]. rewrite E. apply (sig_keeps _ (ndigits f)); [|exact HP|exact H].
  exists f, e. split; [|reflexivity]. destruct (ndigits_bounds f Hf) as (_ & _ & B). lia.
Qed.

Lemma dec_max f e : (dec (f * 10 ^ Z.max 0 e) (- Z.max 0 (- e)) == dec f e)%Q.
Proof.
  destruct (Z_le_gt_dec 0 e) as [L|G].
  - replace (Z.max 0 e) with e by lia. replace (- Z.max 0 (- e)) with 0 by lia. rewrite dec_shift by exact L. reflexivity.
  - replace (Z.max 0 e) with 0 by lia. replace (- Z.max 0 (- e)) with e by lia. rewrite Z.pow_0_r, Z.mul_1_r. reflexivity.
Qed.

(** positional %g *)
Lemma bg_fixed_val f e P N j x : 0 <= f -> 1 <= P -> bg_positional f e P = true -> bg_fixed f e P = (N, j) -> sig_rounded (dec f e) P x ->
  (x == dec N (- j))%Q /\ 0 <= N /\ 0 <= j.
Proof.
  intros Hf HP Hp E Hx. unfold bg_positional in Hp. unfold bg_fixed in E. destruct (Z.eqb_spec f 0) as [->|Nz].
  - change (ndigits 0) with 1 in E. rewrite (proj2 (Z.leb_le 1 P) HP) in E. injection E as <- <-. rewrite (sig_zero_val _ _ _ Hx). change (0 * 10 ^ Z.max 0 0) with 0 in *. rewrite ?dec_zero.
    split; [reflexivity|]. lia.
  - assert (Pf : 0 < f) by lia. bools. destruct (Z.leb_spec (ndigits f) P) as [L|G].
    + injection E as <- <-. rewrite (ndigits_keep f e P x Pf L Hx), dec_max. split; [reflexivity|]. split; [|lia]. assert (0 < 10 ^ Z.max 0 e) by (apply Z.pow_pos_nonneg; lia). nia.
    + set (p := P - ndigits f - e) in *. set (r := hup f (ndigits f - P)) in *. assert (p0 : 0 <= p) by (unfold p; lia).
      pose proof (hup_at_most f P Pf HP) as R. fold r in R.
      assert (V : (x == dec r (- p))%Q).
      { destruct Hx as [[E0 _]|(S & X & (X0 & M & D & HM & EV & _) & Ex)]; [pose proof (dec_pos f e Pf); lra|]. rewrite Ex, EV.
        assert (EX : X0 = ndigits f + e - 1).
        { apply (decade_unique (dec f e)); [exact D|]. pose proof (dec_decade f e Pf) as DD. replace (ndigits f + e - 1 + 1) with (ndigits f + e) by lia. exact DD. }
        pose proof (hup_half_up f e p Hf) as HH. replace (- (e + p)) with (ndigits f - P) in HH by (unfold p; lia). fold r in HH.
        replace (P - 1 - X0) with p in HM by (unfold p; lia). rewrite (half_up_unique _ _ _ _ HM HH). replace (X0 - P + 1) with (- p) by (unfold p; lia). reflexivity. }
      destruct ((r =? 10 ^ P) && (- e <? ndigits f)) eqn:C; [|injection E as <- <-; split; [exact V|lia]].
      apply andb_prop in C as [C _]. apply Z.eqb_eq in C. assert (T : 10 ^ P = 10 ^ (P - 1) * 10 ^ 1) by (rewrite <- Z.pow_add_r by lia; f_equal; lia).
      assert (0 < 10 ^ (P - 1)) by (apply Z.pow_pos_nonneg; lia).
      destruct (Z.eqb_spec p 0) as [Ep|Ep]; injection E as <- <-.
      * rewrite V, C, Ep. split; [reflexivity|]. lia.
      * rewrite V, C, T, dec_shift by lia. replace (- (p - 1)) with (- p + 1) by lia. split; [reflexivity|]. lia.
Qed.

(** %g with exponent *)
Lemma bg_sci_val f e P D X x : 0 <= f -> 1 <= P -> bg_sci f e P = (D, X) -> sig_rounded (dec f e) P x ->
  (x == dec D (X - (kept f P - 1)))%Q /\ 0 <= D.
Proof.
  intros Hf HP E Hx. unfold bg_sci in E. destruct (Z.eqb_spec f 0) as [->|Nz].
  - injection E as <- <-. rewrite (sig_zero_val _ _ _ Hx), dec_zero. split; [reflexivity|lia].
  - assert (Pf : 0 < f) by lia. destruct (sig f e P) as [S X1] eqn:Es. injection E as <- <-.
    destruct (sig_val f e P S X1 x Pf HP Es Hx) as [V S0]. unfold kept. destruct (Z.le_gt_cases P (ndigits f)) as [L|G].
    + replace (Z.min (ndigits f) P) with P by lia. rewrite Z.sub_diag, Z.pow_0_r, Z.div_1_r. replace (X1 - (P - 1)) with (X1 - P + 1) by lia. split; assumption.
    + replace (Z.min (ndigits f) P) with (ndigits f) by lia.
      assert (ES : S = f * 10 ^ (P - ndigits f) /\ X1 = ndigits f + e - 1).
      { unfold sig in Es. destruct (ndigits_bounds f Pf) as (_ & _ & B). unfold hup in Es. rewrite (proj2 (Z.leb_le (ndigits f - P) 0)) in Es by lia.
        replace (- (ndigits f - P)) with (P - ndigits f) in Es by lia. assert (Tp : 0 < 10 ^ (P - ndigits f)) by (apply Z.pow_pos_nonneg; lia).
        pose proof (ndigits_pos f Hf). assert (T : 10 ^ P = 10 ^ ndigits f * 10 ^ (P - ndigits f)) by (rewrite <- Z.pow_add_r by lia; f_equal; lia).
        replace (f * 10 ^ (P - ndigits f) =? 10 ^ P) with false in Es by (symmetry; apply Z.eqb_neq; nia). injection Es as <- <-. auto. }
      destruct ES as [-> ->]. assert (Tp : 0 < 10 ^ (P - ndigits f)) by (apply Z.pow_pos_nonneg; lia). rewrite Z.div_mul by lia.
      rewrite V, dec_shift by lia. replace (ndigits f + e - 1 - P + 1 + (P - ndigits f)) with (ndigits f + e - 1 - (ndigits f - 1)) by lia. split; [reflexivity|lia].
Qed.

Lemma short_reads s q neg N j e x : 0 <= N -> 0 <= j -> exp_reads 10 (ch "e") e x ->
  reads_as (cased s (finite_text q neg (short_text N j ++ e))) neg (dec N (x - j)).
Proof.
  intros HN Hj He. unfold short_text. pose proof (drop_zeros_value (Z.to_nat j) N) as V. destruct (drop_zeros (Z.to_nat j) N) as [M r]. destruct V as [R V].
  rewrite Z2Nat.id in R, V by exact Hj. assert (0 < 10 ^ (j - r)) by (apply Z.pow_pos_nonneg; lia). assert (HM : 0 <= M) by nia.
  apply (reads_eq _ _ (dec M (x - r))).
  - rewrite V, dec_shift by lia. replace (x - j + (j - r)) with (x - r) by lia. reflexivity.
  - exact (cased_reads s q neg false M r e x HM ltac:(lia) He).
Qed.

Lemma bg_reads s q neg f e x : 0 <= f -> 1 <= g_prec q -> sig_rounded (dec f e) (g_prec q) x -> reads_as (cased s (b_g q neg f e)) neg x.
Proof.
  intros Hf HP Hx. unfold b_g, bg_parts. cbv zeta. destruct (bg_positional f e (g_prec q)) eqn:Hp.
  - destruct (bg_fixed f e (g_prec q)) as [N j] eqn:E. destruct (bg_fixed_val f e (g_prec q) N j x Hf HP Hp E Hx) as (V & HN & Hj). destruct (q_alt q).
    + set (z := Z.max 0 (g_prec q - ndigits N)). assert (0 < 10 ^ z) by (apply Z.pow_pos_nonneg; lia).
      pose proof (cased_reads s (widen q 0) neg true (N * 10 ^ z) (j + z) [] 0 ltac:(nia) ltac:(lia) no_exp_reads) as G. rewrite app_nil_r in G.
      apply (reads_eq _ _ (dec (N * 10 ^ z) (0 - (j + z)))); [|exact G]. rewrite V, dec_shift by lia. replace (0 - (j + z) + z) with (- j) by lia. reflexivity.
    + pose proof (short_reads s (widen q (cut_loss N j)) neg N j [] 0 HN Hj no_exp_reads) as G. rewrite app_nil_r in G.
      apply (reads_eq _ _ (dec N (0 - j))); [rewrite V; reflexivity|exact G].
  - destruct (bg_sci f e (g_prec q)) as [D X] eqn:E. destruct (bg_sci_val f e (g_prec q) D X x Hf HP E Hx) as (V & HD).
    assert (K1 : 1 <= kept f (g_prec q)) by (unfold kept; pose proof (ndigits_pos f Hf); lia).
    assert (EX : exp_reads 10 (ch "e") (if f =? 0 then exp_text e else big_exp_text f (g_prec q) X) X).
    { destruct (f =? 0) eqn:Ef; [|apply big_exp_reads]. unfold bg_sci in E. rewrite Ef in E. injection E as _ <-. apply exp_text_reads. }
    apply (reads_eq _ _ (dec D (X - (kept f (g_prec q) - 1)))); [symmetry; exact V|]. destruct (q_alt q).
    + exact (cased_reads s (widen q 0) neg false D (kept f (g_prec q) - 1) _ X HD ltac:(lia) EX).
    + apply short_reads; [exact HD|lia|exact EX].
Qed.

Lemma be_reads s q neg f e x : 0 <= f -> 0 <= prec_or 6 q -> sig_rounded (dec f e) (prec_or 6 q + 1) x -> reads_as (cased s (b_e q neg f e)) neg x.
Proof.
  intros Hf Hp Hx. unfold b_e, be_body. cbv zeta. destruct (Z.eqb_spec f 0) as [->|Nz].
  - apply (reads_eq _ _ (dec 0 (e - prec_or 6 q))); [rewrite dec_zero, (sig_zero_val _ _ _ Hx); reflexivity|].
    apply cased_reads; [lia|exact Hp|apply exp_text_reads].
  - destruct (sig f e (prec_or 6 q + 1)) as [S X] eqn:E. destruct (sig_val f e (prec_or 6 q + 1) S X x ltac:(lia) ltac:(lia) E Hx) as [V S0].
    apply (reads_eq _ _ (dec S (X - prec_or 6 q))); [rewrite V; replace (X - (prec_or 6 q + 1) + 1) with (X - prec_or 6 q) by lia; reflexivity|].
    apply cased_reads; [exact S0|exact Hp|apply big_exp_reads].
Qed.

(** ** %f *)

Lemma f_prints J src s q v u sc r : directive src s q -> s = Sf \/ s = SF -> is_decimal v u sc -> ndigits (Z.abs u) - sc < 2000000000 ->
  u = 0 \/ sc - prec_or 6 q <= 646456992 -> prints J src [traitsOf J v r] (cased s (finite_text q (u <? 0) (bf_body q u sc))).
Proof.
  intros Hd Hs Hv Hf Ht. destruct (decimal_view J v u sc r Hv) as [Hj _].
  apply (big_prints J src s q v u sc r _ Hd); [unfold is_float_spec; tauto|exact Hv|]. intros c F Hc <- EF.
  assert (F = fmt_f c) as -> by (destruct Hs as [-> | ->]; cbn in EF; congruence).
  destruct (fixed_gives c u sc Hc Hj Hf Ht) as (w & Ew & Dw). exists w. split; [exact Ew|apply den_wden; exact Dw].
Qed.

Lemma prints_rejects J src args t e : prints J src args t -> rejects J src args e -> False.
Proof.
  intros H H'. destruct (H (fun _ => false)) as (a & C & F & _). destruct (H' (fun _ => false)) as (a' & C' & F' & _).
  rewrite C in C'. assert (a = a') by congruence. subst. congruence.
Qed.

Lemma bf_reads s q u sc x : 0 <= prec_or 6 q -> (exists N, half_up_at (dec (Z.abs u) (- sc)) (prec_or 6 q) N /\ (x == dec N (- prec_or 6 q))%Q) ->
  s = Sf \/ s = SF -> reads_as (cased s (finite_text q (u <? 0) (bf_body q u sc))) (u <? 0) x.
Proof.
  intros Hp (N & HN & E) Hs. pose proof (hup_half_up (Z.abs u) (- sc) (prec_or 6 q) ltac:(lia)) as HH.
  unfold bf_body. rewrite <- (half_up_unique _ _ _ _ HN HH). unfold with_alt.
  assert (N0 : 0 <= N) by (apply (half_up_nonneg _ _ _ (dec_nonneg (Z.abs u) (- sc) ltac:(lia)) HN)).
  exists N, (prec_or 6 q), 0. split; [|exact E]. rewrite upper_cased; [|left; reflexivity|cbn; lia].
  destruct (u =? 0); [apply padded_zeros_reads; assumption|]. rewrite <- (zeros_none 0) by lia. apply padded_zeros_reads; assumption.
Qed.

(** ** together *)

Lemma big_read J src s q v u sc r x t : directive src s q -> decimal_spec s -> is_decimal v u sc ->
  (s = Sf \/ s = SF -> ndigits (Z.abs u) - sc < 2000000000) ->
  rounded s q (dec (Z.abs u) (- sc)) x -> prints J src [traitsOf J v r] t -> reads_as t (u <? 0) x.
Proof.
  intros Hd Hs Hv Hf Hx Ht. pose proof (prec_nonneg _ _ _ Hd) as Hp. pose proof (g_prec_pos _ _ _ Hd) as HP.
  assert (C : (s = Sf \/ s = SF) \/ (s = Se \/ s = SE) \/ (s = Sg \/ s = SG)) by (unfold decimal_spec in Hs; tauto). destruct C as [C|[C|C]].
  - assert (L : (u = 0 \/ sc - prec_or 6 q <= 646456992) \/ (u <> 0 /\ 646456992 < sc - prec_or 6 q)) by lia.
    destruct L as [L|[U L]]; [|exfalso; exact (prints_rejects _ _ _ _ _ Ht (C34_tiny_numbers J src s q v u sc r Hd C Hv U L))].
    rewrite (prints_unique _ _ _ _ _ Ht (f_prints J src s q v u sc r Hd C Hv (Hf C) L)). apply bf_reads; [exact Hp| |exact C]. destruct C as [-> | ->]; exact Hx.
  - destruct (Z_le_gt_dec (last_exp (Z.abs u) (- sc) (prec_or 6 q + 1)) 2147483648) as [L|L].
    + rewrite (prints_unique _ _ _ _ _ Ht (e_prints_exact J src s q v u sc r Hd C Hv L)). apply be_reads; [lia|exact Hp|]. destruct C as [-> | ->]; exact Hx.
    + exfalso. assert (U : u <> 0).
      { intros ->. destruct (decimal_view J v 0 sc r Hv) as [[_ Hj] _]. unfold last_exp in L. change (Z.abs 0 =? 0) with true in L. cbv iota in L. lia. }
      destruct (C35_rounding_exists u sc (prec_or 6 q + 1) U ltac:(lia)) as (S & X & H). rewrite (last_sig u sc (prec_or 6 q + 1) S X U ltac:(lia) H) in L.
      exact (prints_rejects _ _ _ _ _ Ht (C35_overflow J src s q v u sc r S X Hd C Hv U H ltac:(lia))).
  - assert (R : bg_positional (Z.abs u) (- sc) (g_prec q) = true \/ last_exp (Z.abs u) (- sc) (g_prec q) <= 2147483648).
    { destruct (bg_positional (Z.abs u) (- sc) (g_prec q)) eqn:Bp; [auto|]. destruct (Z_le_gt_dec (last_exp (Z.abs u) (- sc) (g_prec q)) 2147483648) as [L|L]; [auto|].
      exfalso. exact (prints_rejects _ _ _ _ _ Ht (C36_overflow J src s q v u sc r Hd C Hv Bp ltac:(lia))). }
    rewrite (prints_unique _ _ _ _ _ Ht (C36_general_notation_characterised J src s q v u sc r Hd C Hv R)). apply bg_reads; [lia|exact HP|]. destruct C as [-> | ->]; exact Hx.
Qed.
