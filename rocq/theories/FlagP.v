(** Ignored flags change nothing: the reference prints the same with and without the flag. *)
From Coq Require Import QArith.
From Verif Require Import Base Digits SeqM SeqSpec ContextM CompilerM FormatterM TraitsM ImplM GrammarSpec DirSpec FmtSpec FloatSpec BigSpec BigDecP BigGenP CharP
  ExactSpec ExactP LoopSpec LoopP ScaleSpec ValueSpec WholeSpec WholeP FlagSpec.
Open Scope Z_scope.

Definition dropF (g : flag) (s : flags) : flags :=
  match g with
  | LEFT_JUSTIFY => mkFlags false (f_alt s) (f_plus s) (f_space s) (f_zero s)
  | ALTERNATE => mkFlags (f_left s) false (f_plus s) (f_space s) (f_zero s)
  | PLUS => mkFlags (f_left s) (f_alt s) false (f_space s) (f_zero s)
  | LEADING_SPACE => mkFlags (f_left s) (f_alt s) (f_plus s) false (f_zero s)
  | ZERO_PAD => mkFlags (f_left s) (f_alt s) (f_plus s) (f_space s) false
  end.

Inductive idle (s : spec) (fl : flags) (w p : Z) : flag -> Prop :=
| id_blank : f_plus fl = true -> idle s fl w p LEADING_SPACE
| id_zero_left : f_left fl = true -> idle s fl w p ZERO_PAD
| id_zero_precision : integer_conversion s -> 0 <= p -> idle s fl w p ZERO_PAD
| id_zero_text : text_conversion s -> idle s fl w p ZERO_PAD
| id_zero_no_width : w = UNSET -> idle s fl w p ZERO_PAD
| id_alternate : text_conversion s \/ In s [Sd; Su; Sa; SA] -> idle s fl w p ALTERNATE
| id_alternate_digits : In s [Sf; SF; Se; SE] -> p = UNSET \/ 0 < p -> idle s fl w p ALTERNATE
| id_plus : text_conversion s \/ In s [Su; So; Sx; SX] -> idle s fl w p PLUS
| id_space : text_conversion s \/ In s [Su; So; Sx; SX] -> idle s fl w p LEADING_SPACE
| id_left : w = UNSET -> idle s fl w p LEFT_JUSTIFY
| id_none g : In s [Sn; Spct] -> idle s fl w p g.

(** the same for what is asked in the end *)
Inductive still (s : spec) : fspec -> fspec -> Prop :=
| so_blank l a sp sp' z w p : still s (mkSpec l a true sp z w p) (mkSpec l a true sp' z w p)
| so_zero_left a pl sp z z' w p : still s (mkSpec true a pl sp z w p) (mkSpec true a pl sp z' w p)
| so_zero_precision l a pl sp z z' w p : integer_conversion s -> still s (mkSpec l a pl sp z w (Some p)) (mkSpec l a pl sp z' w (Some p))
| so_text l a a' pl pl' sp sp' z z' w p : text_conversion s -> still s (mkSpec l a pl sp z w p) (mkSpec l a' pl' sp' z' w p)
| so_no_width l l' a pl sp z z' p : still s (mkSpec l a pl sp z 0 p) (mkSpec l' a pl sp z' 0 p)
| so_alternate_digits l a a' pl sp z w p : In s [Sf; SF; Se; SE] -> match p with Some n => 0 < n | None => True end ->
    still s (mkSpec l a pl sp z w p) (mkSpec l a' pl sp z w p)
| so_alternate l a a' pl sp z w p : In s [Sd; Su; Sa; SA] -> still s (mkSpec l a pl sp z w p) (mkSpec l a' pl sp z w p)
| so_unsigned l a pl pl' sp sp' z w p : In s [Su; So; Sx; SX] -> still s (mkSpec l a pl sp z w p) (mkSpec l a pl' sp' z w p)
| so_precision l a pl sp z w p p' : In s [Sc; Sp; St; ST] -> still s (mkSpec l a pl sp z w p) (mkSpec l a pl sp z w p')
| so_none q q' : In s [Sn; Spct] -> still s q q'.

Lemma spaces_neg n : n <= 0 -> spaces n = [].
Proof. intros H. unfold spaces, rep. destruct n; try lia; reflexivity. Qed.
Lemma zeros_neg n : n <= 0 -> zeros n = [].
Proof. intros H. unfold zeros, rep. destruct n; try lia; reflexivity. Qed.

Lemma justify_fits q t : q_width q <= zlen t -> justify q t = t.
Proof. intros H. unfold justify. rewrite spaces_neg by lia. destruct (q_left q); [apply app_nil_r|reflexivity]. Qed.
Lemma pad_number_fits q z a b : q_width q <= zlen a + zlen b -> pad_number q z a b = a ++ b.
Proof.
  intros H. unfold pad_number. destruct (z && negb (q_left q)).
  - rewrite zeros_neg by lia. reflexivity.
  - apply justify_fits. rewrite zlen_app. lia.
Qed.

Ltac which H := inversion H; subst; clear H.
Ltac conv_out := exfalso; repeat match goal with H : In _ _ |- _ => cbn in H | H : _ \/ _ |- _ => destruct H | H : False |- _ => destruct H end; try discriminate; try congruence.

Section Still.
  Variable s : spec.
  Variables q q' : fspec.
  Hypothesis H : still s q q'.

  Lemma still_prec : ~ In s [Sc; Sp; St; ST; Sn; Spct] -> q_prec q = q_prec q'.
  Proof. intros Hs. which H; try reflexivity; exfalso; apply Hs; cbn in *; tauto. Qed.

  Lemma still_justify n t : ~ In s [Sn; Spct] -> n <= zlen t -> justify (widen q n) t = justify (widen q' n) t.
  Proof. intros Hs Hn. which H; try reflexivity; [|contradiction]. rewrite !justify_fits by (cbn; lia). reflexivity. Qed.
End Still.

Lemma widen_0 q : widen q 0 = q.
Proof. destruct q. unfold widen; cbn. rewrite Z.add_0_r. reflexivity. Qed.

Lemma still_justify0 s q q' t : still s q q' -> ~ In s [Sn; Spct] -> justify q t = justify q' t.
Proof. intros H Hs. rewrite <- (widen_0 q), <- (widen_0 q'). apply (still_justify s); [exact H|exact Hs|apply zlen_nonneg]. Qed.

Ltac not_none := cbn; intuition congruence.


Ltac fits := rewrite !pad_number_fits by (cbn [q_width q_prec q_alt]; match goal with |- _ <= zlen ?x + zlen ?y => pose proof (zlen_nonneg x); pose proof (zlen_nonneg y) end; lia).
Ltac out := exfalso; unfold text_conversion, integer_conversion in *; cbn in *; intuition congruence.

Lemma still_d q q' z : still Sd q q' -> j_d q z = j_d q' z.
Proof.
  intros H. which H; try out; try reflexivity.
  - unfold j_d, d_irregular. cbn. rewrite !andb_false_r. reflexivity.
  - unfold j_d, d_irregular, c_d, pad_number, justify; cbn. rewrite !andb_false_r. reflexivity.
  - unfold j_d, d_irregular, c_d, pad_number, justify; cbn. rewrite !andb_false_r. reflexivity.
  - unfold j_d, c_d. change (d_irregular (mkSpec l a pl sp z0 0 p) z) with (d_irregular (mkSpec l' a pl sp z' 0 p) z).
    destruct (d_irregular _ z); [rewrite !justify_fits by apply zlen_nonneg; reflexivity|]. fits. reflexivity.
Qed.

Lemma still_u q q' n : still Su q q' -> c_u q n = c_u q' n.
Proof.
  intros H. which H; try out; try reflexivity.
  - unfold c_u, pad_number, justify; cbn. rewrite !andb_false_r. reflexivity.
  - unfold c_u, pad_number, justify; cbn. rewrite !andb_false_r. reflexivity.
  - unfold c_u. fits. reflexivity.
Qed.

Lemma still_x s q q' n : s = Sx \/ s = SX -> still s q q' -> j_x q n = j_x q' n.
Proof.
  intros Hs H. which H; try out; try reflexivity.
  - unfold j_x, x_irregular, c_x, pad_number, justify; cbn. rewrite !andb_false_r. reflexivity.
  - unfold j_x, x_irregular, c_x, pad_number, justify, no_prec; cbn. rewrite !andb_false_r. cbn. rewrite ?andb_false_r. reflexivity.
  - assert (E : forall l z, j_x (mkSpec l a pl sp z 0 p) n = (if a && negb (n =? 0) then txt "0x" else []) ++ int_digits 16 n p).
    { intros l0 z0. unfold j_x, c_x. destruct (x_irregular _ n) eqn:E.
      - unfold x_irregular in E; cbn [q_alt q_prec q_zero q_left] in E. rewrite !andb_true_iff in E. destruct E as ((((-> & E) & Np) & _) & _). apply Z.eqb_eq in E as ->.
        unfold no_prec in Np. cbn [q_prec] in Np. destruct p; [discriminate|]. rewrite justify_fits by (cbn; lia). reflexivity.
      - fits. reflexivity. }
    rewrite !E. reflexivity.
Qed.

Lemma still_o q q' n : still So q q' -> j_o q n = j_o q' n.
Proof.
  intros H. which H; try out; try reflexivity.
  - unfold j_o, o_irregular, c_o, pad_number, justify; cbn. rewrite !andb_false_r. reflexivity.
  - unfold j_o, o_irregular, c_o, pad_number, justify, no_prec; cbn. rewrite !andb_false_r. cbn. reflexivity.
  - assert (E : forall l z, j_o (mkSpec l a pl sp z 0 p) n =
      if a && (n =? 0) && negb (match p with None => true | _ => false end)
      then match p with Some p0 => if p0 =? 0 then [] else min_digits (p0 - 1) (txt "0") | None => txt "0" end
      else if a then force_zero (int_digits 8 n p) else int_digits 8 n p).
    { intros l0 z0. unfold j_o, c_o, o_irregular, no_prec. cbn [q_alt q_prec q_zero q_left q_width]. destruct a; cbn [andb]; [|fits; reflexivity].
      destruct (Z.eqb_spec n 0) as [->|Nz]; cbn [andb]; [|fits; reflexivity]. destruct p as [p0|]; cbn [negb orb].
      - rewrite justify_fits; [reflexivity|]. cbn [q_width]. apply zlen_nonneg.
      - destruct (z0 && negb l0); [rewrite justify_fits by (cbn; lia); reflexivity|fits; reflexivity]. }
    rewrite !E. reflexivity.
Qed.

(** floating point *)
Lemma still_alt s q q' : general_conv s = true -> still s q q' -> q_alt q = q_alt q'.
Proof. intros Hs H. which H; try reflexivity; exfalso; unfold text_conversion, integer_conversion in *; cbn in *; intuition (subst; discriminate). Qed.

Lemma digits_alt s q q' N : fixed_conv s || exp_conv s = true -> still s q q' -> let p := prec_or 6 q in
  (if q_alt q then alt_text N p else decimal_text N p) = (if q_alt q' then alt_text N p else decimal_text N p).
Proof.
  intros Hs H p. which H; try reflexivity; try (exfalso; unfold text_conversion, integer_conversion in *; cbn in *; intuition (subst; discriminate)).
  assert (Hp : p <> 0) by (unfold p, prec_or; cbn [q_prec]; destruct p0; lia). cbn [q_alt]. unfold alt_text. replace (p =? 0) with false by lia. rewrite app_nil_r. destruct a, a'; reflexivity.
Qed.

Lemma still_finite s q q' n neg b : float_spec s = true -> still s q q' -> n <= zlen b -> finite_text (widen q n) neg b = finite_text (widen q' n) neg b.
Proof.
  intros Hs H Hn. which H; try reflexivity; try (exfalso; unfold text_conversion, integer_conversion in *; cbn in *; intuition (subst; discriminate)).
  - unfold finite_text, pad_number, justify; cbn. rewrite !andb_false_r. reflexivity.
  - unfold finite_text. rewrite !pad_number_fits; [reflexivity| |]; cbn [widen q_width]; match goal with |- _ <= zlen ?x + _ => pose proof (zlen_nonneg x) end; lia.
Qed.
Lemma still_finite0 s q q' neg b : float_spec s = true -> still s q q' -> finite_text q neg b = finite_text q' neg b.
Proof. intros Hs H. rewrite <- (widen_0 q), <- (widen_0 q'). apply (still_finite s); [exact Hs|exact H|apply zlen_nonneg]. Qed.

Lemma still_a s q q' neg b : hex_conv s = true -> still s q q' -> j_a q neg b = j_a q' neg b.
Proof.
  intros Hs H. which H; try reflexivity; try (exfalso; unfold text_conversion, integer_conversion in *; cbn in *; intuition (subst; discriminate)).
  - unfold j_a, pad_number, justify; cbn. rewrite !andb_false_r. reflexivity.
  - unfold j_a. fits. reflexivity.
Qed.

Lemma still_inf s q q' neg : float_spec s = true -> still s q q' -> j_inf q neg = j_inf q' neg.
Proof.
  intros Hs H. which H; try reflexivity; try (exfalso; unfold text_conversion, integer_conversion in *; cbn in *; intuition (subst; discriminate)).
  unfold j_inf. rewrite !justify_fits by apply zlen_nonneg. reflexivity.
Qed.

Lemma float_prec s q q' : float_spec s = true -> still s q q' -> q_prec q = q_prec q'.
Proof. intros Hs H. apply (still_prec s); [exact H|]. destruct s; cbn in *; try discriminate; intuition congruence. Qed.

Lemma bg_padding q f e : 0 <= f -> 1 <= g_prec q -> snd (bg_parts q f e) <= zlen (fst (bg_parts q f e)).
Proof.
  intros Hf HP. unfold bg_parts. cbv zeta. set (P := g_prec q) in *. clearbody P. pose proof (ndigits_pos f Hf) as Hn. destruct (bg_positional f e P) eqn:Est.
  - destruct (bg_fixed f e P) as [N j] eqn:E. destruct (q_alt q); [cbn [fst snd]; apply zlen_nonneg|]. cbn [fst snd]. apply short_loss.
    + unfold bg_fixed in E. cbv zeta in E. destruct (ndigits f <=? P); [injection E as <- _; apply Z.mul_nonneg_nonneg; [exact Hf|apply Z.pow_nonneg; lia]|].
      destruct (_ && _); [destruct (_ =? 0)|]; injection E as <- _; [apply Z.pow_nonneg; lia|apply Z.pow_nonneg; lia|apply hup_nonneg'; exact Hf].
    + unfold bg_positional in Est. unfold bg_fixed in E. cbv zeta in E. destruct (Z.eqb_spec f 0) as [-> |Nz].
      * change (ndigits 0) with 1 in *. replace (1 <=? P) with true in E by lia. injection E as _ <-. lia.
      * apply andb_prop in Est as [_ Est]. apply Z.ltb_lt in Est. destruct (ndigits f <=? P); [injection E as _ <-; lia|].
        destruct (_ && _); [destruct (Z.eqb_spec (P - ndigits f - e) 0)|]; injection E as _ <-; lia.
  - unfold bg_sci. assert (Hk : 0 <= kept f P - 1) by (unfold kept; lia).
    assert (G : forall D t, 0 <= D -> (if q_alt q then 0 else cut_loss D (kept f P - 1)) <= zlen ((if q_alt q then decimal_text D (kept f P - 1) else short_text D (kept f P - 1)) ++ t)).
    { intros D t HD. destruct (q_alt q); [apply zlen_nonneg|]. pose proof (short_loss D _ HD Hk). rewrite zlen_app. pose proof (zlen_nonneg t). lia. }
    destruct (f =? 0); [cbn [fst snd]; apply (G 0); lia|]. destruct (sig f e P) as [S X] eqn:ES. cbn [fst snd]. apply G.
    apply Z.div_pos; [pose proof (sig_nonneg f e P Hf) as G0; rewrite ES in G0; exact G0|]. apply Z.pow_pos_nonneg; [lia|unfold kept; lia].
Qed.

Lemma still_big s q q' neg f e : general_conv s = true -> 0 <= f -> 1 <= g_prec q -> still s q q' -> b_g q neg f e = b_g q' neg f e.
Proof.
  intros Hs Hf HP H. assert (Fs : float_spec s = true) by (unfold float_spec; rewrite Hs; destruct (fixed_conv s), (exp_conv s); reflexivity).
  unfold b_g. pose proof (still_alt s q q' Hs H) as Ea. pose proof (float_prec s q q' Fs H) as Ep.
  assert (E : bg_parts q f e = bg_parts q' f e) by (unfold bg_parts, g_prec, prec_or; rewrite Ea, Ep; reflexivity).
  pose proof (bg_padding q f e Hf HP) as B. rewrite <- E. destruct (bg_parts q f e) as [t n] eqn:Et. apply (still_finite s); [exact Fs|exact H|exact B].
Qed.

(** ** One conversion *)

Lemma text_prec s q q' : text_conv s = true -> still s q q' -> q_prec q = q_prec q'.
Proof. intros Hs H. apply (still_prec s); [exact H|]. destruct s; cbn in *; try discriminate; intuition congruence. Qed.

Lemma still_cs s q q' t : text_conv s = true -> still s q q' -> c_s q t = c_s q' t.
Proof.
  intros Hs H. unfold c_s. rewrite (text_prec s q q' Hs H). apply (still_justify0 s); [exact H|]. destruct s; cbn in *; try discriminate; intuition congruence.
Qed.
Lemma still_seq s q q' t ts : text_conv s = true -> still s q q' -> match q_prec q with Some p => 0 <= p | None => True end ->
  seq_text q t ts = seq_text q' t ts.
Proof.
  intros Hs H Hp. unfold seq_text. rewrite <- (text_prec s q q' Hs H). assert (Ns : ~ In s [Sn; Spct]) by (destruct s; cbn in *; try discriminate; intuition congruence).
  destruct (q_prec q) as [p|]; [|apply (still_justify0 s); assumption]. destruct (Z.ltb_spec p (zlen t)) as [L|L]; [|apply (still_justify0 s); assumption].
  apply (still_justify s); [exact H|exact Ns|]. pose proof (leaf_start_range ts p Hp). unfold zlen in *. rewrite firstn_length. lia.
Qed.

Lemma float_of s : (fixed_conv s = true \/ exp_conv s = true \/ general_conv s = true \/ hex_conv s = true) -> float_spec s = true.
Proof. unfold float_spec. destruct (fixed_conv s), (exp_conv s), (general_conv s), (hex_conv s); intuition congruence. Qed.

Lemma shown_still J s d q q' x o : still s q q' -> match q_prec q with Some p => 0 <= p | None => True end ->
  shown J s d q x o -> shown J s d q' x o.
Proof.
  intros H Hp S.
  assert (J0 : forall t, ~ In s [Sn; Spct] -> justify q t = justify q' t) by (intros; apply (still_justify0 s); assumption).
  assert (Pf : float_spec s = true -> q_prec q = q_prec q') by (intros; apply (float_prec s); assumption).
  assert (Af : general_conv s = true -> q_alt q = q_alt q') by (intros; apply (still_alt s); assumption).
  assert (Ad : fixed_conv s || exp_conv s = true -> forall N, (if q_alt q then alt_text N (prec_or 6 q) else decimal_text N (prec_or 6 q)) =
    (if q_alt q' then alt_text N (prec_or 6 q) else decimal_text N (prec_or 6 q))) by (intros; apply (digits_alt s); assumption).
  assert (Ff : float_spec s = true -> forall neg b, finite_text q neg b = finite_text q' neg b) by (intros; apply (still_finite0 s); assumption).
  assert (Gp : 1 <= g_prec q) by (unfold g_prec, prec_or; destruct (q_prec q) as [p|]; [destruct (Z.eqb_spec p 0); lia|cbn; lia]).
  destruct S;
    try match goal with
    | _ : fixed_conv s = true |- _ => assert (Fs : float_spec s = true) by (apply float_of; tauto)
    | _ : exp_conv s = true |- _ => assert (Fs : float_spec s = true) by (apply float_of; tauto)
    | _ : general_conv s = true |- _ => assert (Fs : float_spec s = true) by (apply float_of; tauto)
    | _ : hex_conv s = true |- _ => assert (Fs : float_spec s = true) by (apply float_of; tauto)
    | _ : float_spec s = true |- _ => assert (Fs : float_spec s = true) by assumption
    end.
  - subst s. rewrite (still_d q q' _ H). constructor; [reflexivity|assumption].
  - subst s. rewrite (still_u q q' _ H). constructor; [reflexivity|assumption].
  - rewrite (still_x s q q' _ H0 H). constructor; assumption.
  - subst s. rewrite (still_o q q' _ H). constructor; [reflexivity|assumption].
  - eapply sh_negative; eassumption.
  - eapply sh_not_integer; eassumption.
  - subst s. rewrite J0 by (cbn; intuition congruence). constructor; [reflexivity|assumption].
  - apply sh_not_char; assumption.
  - apply sh_char_fails; assumption.
  - rewrite (still_cs s q q' _ H0 H). apply sh_text; assumption.
  - rewrite (still_seq s q q' _ _ H0 H Hp). apply sh_seq; assumption.
  - eapply sh_no_text; eassumption.
  - unfold c_f. rewrite (Ff Fs). unfold f_body. cbv zeta. rewrite Ad by (rewrite H0; reflexivity). unfold prec_or. rewrite (Pf Fs). fold (prec_or 6 q'). fold (f_body q' f e). fold (c_f q' (b <? 0) f e). apply sh_fixed; assumption.
  - unfold c_e. rewrite (Ff Fs). unfold e_body. cbv zeta. destruct (sig0 f e (prec_or 6 q + 1)) as [S0 X0] eqn:E0. rewrite Ad by (rewrite H0; apply orb_true_r). unfold prec_or in *. rewrite (Pf Fs) in *. fold (prec_or 6 q') in *. assert (Eb : e_body q' f e = (if q_alt q' then alt_text S0 (prec_or 6 q') else decimal_text S0 (prec_or 6 q')) ++ exp_text X0) by (unfold e_body; rewrite E0; reflexivity). rewrite <- Eb. apply sh_exp; assumption.
  - unfold j_g, c_g. rewrite !(Ff Fs). unfold g_irregular, g_unpadded, g_body, g_text, g_prec, prec_or. rewrite (Af H0), (Pf Fs). fold (prec_or 6 q'). fold (g_prec q').
    fold (g_irregular q' f e). fold (g_unpadded q' f e). fold (c_g q' (b <? 0) f e). apply (sh_general J s d q' v b f e r); assumption.
  - rewrite (still_a s q q' _ _ H0 H). apply sh_hexfloat; assumption.
  - rewrite (still_inf s q q' _ Fs H). apply sh_infinite; assumption.
  - unfold c_nan. rewrite J0 by (destruct s; cbn in *; try discriminate; intuition congruence). apply sh_nan; assumption.
  - unfold b_f. cbv zeta. rewrite (Ff Fs). rewrite Ad by (rewrite H0; reflexivity). unfold prec_or in *. rewrite (Pf Fs) in *. apply (sh_big_fixed J s d q' v u sc r); assumption.
  - apply (sh_big_tiny J s d q' v u sc r); try assumption. unfold prec_or in *. rewrite <- (Pf Fs). assumption.
  - unfold b_e. rewrite (Ff Fs). assert (Eb : be_body q (Z.abs u) (- sc) = be_body q' (Z.abs u) (- sc)).
    { assert (Ad' := Ad ltac:(rewrite H0; apply orb_true_r)). unfold be_body, prec_or in *. rewrite (Pf Fs) in *. cbv zeta in *. rewrite (Ad' 0). destruct (sig (Z.abs u) (- sc) _) as [S0 X0]. rewrite (Ad' S0). reflexivity. }
    rewrite Eb. apply (sh_big_exp J s d q' v u sc r); try assumption. unfold prec_or in *. rewrite <- (Pf Fs). assumption.
  - apply (sh_big_exp_huge J s d q' v u sc r); try assumption. unfold prec_or in *. rewrite <- (Pf Fs). assumption.
  - rewrite (still_big s q q' _ _ _ H0 (Z.abs_nonneg u) Gp H). unfold g_prec, prec_or in *. rewrite (Pf Fs) in *. apply (sh_big_general J s d q' v u sc r); assumption.
  - unfold g_prec, prec_or in *. rewrite (Pf Fs) in *. apply (sh_big_general_huge J s d q' v u sc r); assumption.
  - eapply sh_big_hex; eassumption.
  - apply sh_not_float; assumption.
  - apply sh_float_fails; assumption.
  - rewrite J0 by (destruct s; cbn in *; try discriminate; intuition congruence). eapply sh_date; eassumption.
  - eapply sh_date_fails; eassumption.
  - eapply sh_not_date; eassumption.
  - rewrite J0 by (subst; cbn; intuition congruence). apply sh_pointer; assumption.
  - rewrite J0 by (subst; cbn; intuition congruence). apply sh_no_pointer; assumption.
  - apply sh_primitive; assumption.
  - rewrite (still_cs s q q' _ H0 H). apply sh_null_text; assumption.
  - rewrite J0 by (subst; cbn; intuition congruence). apply sh_null_pointer; assumption.
  - apply sh_null; assumption.
  - apply sh_nothing; assumption.
  - apply sh_percent; assumption.
Qed.

(** ** Directives *)

Lemma width_err J l l' w args e : width_is J l w args (Err e) -> width_is J l' w args (Err e).
Proof. intros H. inversion H; subst; econstructor; eassumption. Qed.

Lemma width_other J l l' w args r w' a1 : width_is J l w args (Ok (r, w', a1)) ->
  exists r', width_is J l' w args (Ok (r', w', a1)) /\ (r = l /\ r' = l' \/ r = true /\ r' = true) /\ (w = UNSET -> w' = 0).
Proof.
  intros H. inversion H; subst; eexists; (split; [econstructor; eassumption|]); (split; [auto|]); try reflexivity; unfold UNSET, PRECEDING; try lia; try discriminate.
Qed.

Lemma prec_nonneg J p args p' a : prec_is J p args (Ok (p', a)) -> match p' with Some n => 0 <= n | None => True end.
Proof. intros H. inversion H; subst; try exact I; lia. Qed.

Lemma prec_given J p args p' a : 0 <= p -> prec_is J p args (Ok (p', a)) -> p' = Some p.
Proof. intros Hp H. inversion H; subst; try reflexivity; unfold UNSET, PRECEDING, int_min in Hp; lia. Qed.

(** the directive [D2] may stand for [D1] *)
Definition stands_for (D1 D2 : appender) : Prop := forall J args o, piece J D1 args o -> piece J D2 args o.

Lemma asked_still J s fl g w p l w' p' args a1 a2 : idle s fl w p g -> width_is J (f_left fl) w args (Ok (l, w', a1)) -> prec_is J p a1 (Ok (p', a2)) ->
  exists l', width_is J (f_left (dropF g fl)) w args (Ok (l', w', a1)) /\ still s (asked fl l w' p') (asked (dropF g fl) l' w' p').
Proof.
  intros Hi Hw Hp. destruct (width_other J _ (f_left (dropF g fl)) _ _ _ _ _ Hw) as (l' & Hw' & Hl & H0).
  assert (Hsame : g <> LEFT_JUSTIFY -> f_left (dropF g fl) = f_left fl) by (destruct g; [contradiction|reflexivity..]).
  assert (Heq : g <> LEFT_JUSTIFY -> l' = l) by (intros Hg; rewrite (Hsame Hg) in Hl; destruct Hl as [[-> ->]|[-> ->]]; reflexivity).
  exists l'. split; [exact Hw'|]. destruct Hi as [B|B|B B0|B|B|B|B B0|B|B|B|g B]; unfold asked; cbn [dropF f_alt f_plus f_space f_zero].
  - rewrite Heq by discriminate. rewrite B. apply so_blank.
  - rewrite Heq by discriminate. replace l with true by (cbn [dropF f_left] in Hl; rewrite B in Hl; destruct Hl as [[-> _]|[-> _]]; reflexivity). apply so_zero_left.
  - rewrite Heq by discriminate. rewrite (prec_given J p a1 p' a2 B0 Hp). apply so_zero_precision. exact B.
  - rewrite Heq by discriminate. apply so_text. exact B.
  - rewrite (H0 B). apply so_no_width.
  - rewrite Heq by discriminate. destruct B as [B|B]; [apply so_text; exact B|apply so_alternate; exact B].
  - rewrite Heq by discriminate. apply so_alternate_digits; [exact B|]. destruct B0 as [-> |B0]; [inversion Hp; subst; [exact I|unfold UNSET in *; lia]|]. rewrite (prec_given J p a1 p' a2 ltac:(lia) Hp). exact B0.
  - rewrite Heq by discriminate. destruct B as [B|B]; [apply so_text; exact B|apply so_unsigned; exact B].
  - rewrite Heq by discriminate. destruct B as [B|B]; [apply so_text; exact B|apply so_unsigned; exact B].
  - rewrite (H0 B). apply so_no_width.
  - apply so_none. exact B.
Qed.

Lemma idle_stands_for s fl w p d g : idle s fl w p g -> stands_for (Default s (mkCtx fl w p d)) (Default s (mkCtx (dropF g fl) w p d)).
Proof.
  intros Hi J args o H. inversion H; subst;
    try match goal with
    | Hw : width_is J _ w args (Ok (?l, ?w', ?a1)), Hp : prec_is J p _ (Ok (?p', ?a2)) |- _ =>
        destruct (asked_still J s fl g w p l w' p' args a1 a2 Hi Hw Hp) as (l' & Hw' & St); pose proof (prec_nonneg _ _ _ _ _ Hp) as Np
    end.
  - eapply pc_width_fails, width_err. eassumption.
  - match goal with Hw : width_is J _ w args (Ok _) |- _ => destruct (width_other J _ (f_left (dropF g fl)) _ _ _ _ _ Hw) as (l' & Hw' & _) end. eapply pc_prec_fails; eassumption.
  - eapply pc_missing; eassumption.
  - eapply pc_refused; [exact Hw'|eassumption|]. eapply shown_still; [exact St|exact Np|eassumption].
  - eapply pc_shown; [exact Hw'|eassumption|]. eapply shown_still; [exact St|exact Np|eassumption].
Qed.

(** a literal precision, or none *)
Lemma prec_literal J p : p = UNSET \/ 0 <= p -> exists p', forall a, prec_is J p a (Ok (p', a)) /\ (0 <= p -> p' = Some p) /\ (p = UNSET -> p' = None).
Proof.
  intros [-> |H].
  - exists None. intros a. split; [constructor|]. split; [unfold UNSET; lia|reflexivity].
  - exists (Some p). intros a. split; [constructor; exact H|]. split; [reflexivity|unfold UNSET; lia].
Qed.
Lemma prec_literal_ok J p args o : p = UNSET \/ 0 <= p -> prec_is J p args o -> exists p', o = Ok (p', args).
Proof. intros Hp H. inversion H; subst; try (eexists; reflexivity); exfalso; unfold UNSET, PRECEDING, int_min in Hp; lia. Qed.

Lemma precision_stands_for s fl w p p2 d : In s [Sc; Sp; St; ST; Sn; Spct] -> p = UNSET \/ 0 <= p -> p2 = UNSET \/ 0 <= p2 ->
  stands_for (Default s (mkCtx fl w p d)) (Default s (mkCtx fl w p2 d)).
Proof.
  intros Hs Hp Hp2 J args o H. destruct (prec_literal J p2 Hp2) as (p2' & Hp2').
  assert (St : forall l w' p' , still s (asked fl l w' p') (asked fl l w' p2')).
  { intros l w' p'. unfold asked. destruct Hs as [E|[E|[E|[E|Hs]]]]; [apply so_precision; subst; cbn; tauto..|]. apply so_none. exact Hs. }
  inversion H; subst; try match goal with Hq : prec_is J p ?a _ |- _ => destruct (prec_literal_ok J p a _ Hp Hq) as [pp Epp]; try discriminate; injection Epp as Ep Ea; pose proof (prec_nonneg _ _ _ _ _ Hq) as Np; subst end.
  - eapply pc_width_fails. eassumption.
  - eapply pc_missing; [eassumption|]. apply Hp2'.
  - eapply pc_refused; [eassumption|apply Hp2'|]. eapply shown_still; [apply St|exact Np|eassumption].
  - eapply pc_shown; [eassumption|apply Hp2'|]. eapply shown_still; [apply St|exact Np|eassumption].
Qed.

Lemma width_stands_for s fl w w2 p d : In s [Sn; Spct] -> w = UNSET \/ 0 <= w -> w2 = UNSET \/ 0 <= w2 ->
  stands_for (Default s (mkCtx fl w p d)) (Default s (mkCtx fl w2 p d)).
Proof.
  intros Hs Hw Hw2 J args o H.
  assert (W2 : exists w2', forall a, width_is J (f_left fl) w2 a (Ok (f_left fl, w2', a))).
  { destruct Hw2 as [-> |Hw2]; [exists 0; intros a; constructor|exists w2; intros a; constructor; exact Hw2]. }
  destruct W2 as (w2' & W2).
  assert (W1 : forall o, width_is J (f_left fl) w args o -> exists l w', o = Ok (l, w', args)).
  { intros o0 H0. inversion H0; subst; try (do 2 eexists; reflexivity); exfalso; unfold UNSET, PRECEDING, int_min in Hw; lia. }
  inversion H; subst; match goal with Hq : width_is J _ w args _ |- _ => destruct (W1 _ Hq) as (l0 & w0 & E); try discriminate; injection E as -> -> -> end;
    try match goal with Hq : prec_is J p _ (Ok _) |- _ => pose proof (prec_nonneg _ _ _ _ _ Hq) as Np end.
  - eapply pc_prec_fails; [apply W2|eassumption].
  - eapply pc_missing; [apply W2|eassumption].
  - eapply pc_refused; [apply W2|eassumption|]. eapply shown_still; [apply so_none; exact Hs| |eassumption]; exact Np.
  - eapply pc_shown; [apply W2|eassumption|]. eapply shown_still; [apply so_none; exact Hs| |eassumption]; exact Np.
Qed.

(** ** Whole calls *)

Lemma says_swap J a D1 D2 b : stands_for D1 D2 -> forall args t o, says J (a ++ D1 :: b) args t o -> says J (a ++ D2 :: b) args t o.
Proof.
  intros Hs. induction a as [|x a IH]; intros args t o H; cbn [app] in *.
  - inversion H; subst; [eapply sy_piece; [apply Hs; eassumption|assumption]|apply sy_stop, Hs; assumption].
  - inversion H; subst; [eapply sy_piece; [eassumption|apply IH; assumption]|apply sy_stop; assumption].
Qed.

Lemma swap J ds1 ds2 a D1 D2 b args : jdk_ok J -> Forall (argument J) args -> ds1 = a ++ D1 :: b -> ds2 = a ++ D2 :: b -> Forall sane ds1 -> Forall sane ds2 ->
  stands_for D1 D2 -> (forall sb target, formatInto J sb ds1 args target = formatInto J sb ds2 args target) /\ ImplM.format J ds1 args = ImplM.format J ds2 args.
Proof.
  intros HJ Ha -> -> S1 S2 Hs. destruct (says_total J _ HJ S1 args Ha) as (t & o & H). pose proof (says_swap J a D1 D2 b Hs args t o H) as H'.
  pose proof (says_runs J _ _ _ _ HJ S1 H) as R1. pose proof (says_runs J _ _ _ _ HJ S2 H') as R2. split.
  - intros sb target. unfold formatInto. rewrite R1, R2 by (destruct sb; [left|right]; reflexivity). reflexivity.
  - unfold ImplM.format. rewrite (R1 _ emits_sb []), (R2 _ emits_sb []). reflexivity.
Qed.

Lemma same_flags F F' fl fl' : (forall x, In x F <-> In x F') -> flags_text F fl -> flags_text F' fl' -> fl = fl'.
Proof.
  intros H (_ & _ & ->) (_ & _ & ->). assert (E : forall c, existsb (Z.eqb c) F = existsb (Z.eqb c) F').
  { intros c. apply eq_true_iff_eq. rewrite !existsb_exists. split; intros (x & Hx & E); exists x; (split; [apply H; exact Hx|exact E]). }
  rewrite !E. reflexivity.
Qed.

Lemma existsb_In c F : existsb (Z.eqb c) F = true <-> In c F.
Proof. rewrite existsb_exists. split; [intros (x & Hx & E); apply Z.eqb_eq in E as ->; exact Hx|]. intros H. exists c. split; [exact H|apply Z.eqb_refl]. Qed.

Lemma ignored_idle s F fl w p g : flags_text F fl -> ignored s F w p g -> In g F ->
  exists G, idle s fl w p G /\ forall F' fl', (forall x, In x F' <-> In x F /\ x <> g) -> flags_text F' fl' -> fl' = dropF G fl.
Proof.
  intros HF Hi Hg.
  assert (E : forall F', (forall x, In x F' <-> In x F /\ x <> g) -> forall c, existsb (Z.eqb c) F' = existsb (Z.eqb c) F && negb (c =? g)).
  { intros F' H c. apply eq_true_iff_eq. rewrite existsb_In, H, andb_true_iff, existsb_In, negb_true_iff, Z.eqb_neq. reflexivity. }
  assert (Hc : In g flag_chars) by (apply HF; exact Hg).
  assert (Q : forall G, g = match G with LEFT_JUSTIFY => ch "-" | ALTERNATE => ch "#" | PLUS => ch "+" | LEADING_SPACE => ch " " | ZERO_PAD => ch "0" end ->
    forall F' fl', (forall x, In x F' <-> In x F /\ x <> g) -> flags_text F' fl' -> fl' = dropF G fl).
  { intros G -> F' fl' H (_ & _ & ->). destruct HF as (_ & _ & ->). rewrite !(E F' H). destruct G; cbn [dropF f_left f_alt f_plus f_space f_zero];
      repeat match goal with |- context [negb (?a =? ?b)] => let v := eval vm_compute in (negb (a =? b)) in change (negb (a =? b)) with v end;
      rewrite ?andb_true_r, ?andb_false_r; reflexivity. }
  assert (Pl : In (ch "+") F -> f_plus fl = true) by (intros H; destruct HF as (_ & _ & ->); cbn; apply existsb_In; exact H).
  assert (Lf : In (ch "-") F -> f_left fl = true) by (intros H; destruct HF as (_ & _ & ->); cbn; apply existsb_In; exact H).
  clear E Hg. destruct Hi as [B|B|B B0|B|B|B|B B0|B|B|B|g B].
  - exists LEADING_SPACE. split; [apply id_blank, Pl, B|apply Q; reflexivity].
  - exists ZERO_PAD. split; [apply id_zero_left, Lf, B|apply Q; reflexivity].
  - exists ZERO_PAD. split; [apply id_zero_precision; assumption|apply Q; reflexivity].
  - exists ZERO_PAD. split; [apply id_zero_text; assumption|apply Q; reflexivity].
  - exists ZERO_PAD. split; [apply id_zero_no_width; assumption|apply Q; reflexivity].
  - exists ALTERNATE. split; [apply id_alternate; assumption|apply Q; reflexivity].
  - exists ALTERNATE. split; [apply id_alternate_digits; assumption|apply Q; reflexivity].
  - exists PLUS. split; [apply id_plus; assumption|apply Q; reflexivity].
  - exists LEADING_SPACE. split; [apply id_space; assumption|apply Q; reflexivity].
  - exists LEFT_JUSTIFY. split; [apply id_left; assumption|apply Q; reflexivity].
  - destruct Hc as [E|[E|[E|[E|[E|[]]]]]].
    + exists LEFT_JUSTIFY. split; [apply id_none, B|apply Q; symmetry; exact E].
    + exists ALTERNATE. split; [apply id_none, B|apply Q; symmetry; exact E].
    + exists PLUS. split; [apply id_none, B|apply Q; symmetry; exact E].
    + exists LEADING_SPACE. split; [apply id_none, B|apply Q; symmetry; exact E].
    + exists ZERO_PAD. split; [apply id_none, B|apply Q; symmetry; exact E].
Qed.
