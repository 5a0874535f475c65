(** C67: how long the text of a number can get. *)
From Coq Require Import QArith.
From Verif Require Import Base Digits UtilsM SeqM SeqSpec ContextM CompilerM GrammarSpec IntFormM FormatterM MathM DecimalM FPDecimalM DoubleM BigDecM RoundM TraitsM ImplM FmtSpec FmtP DirSpec DecSpec RoundP FloatSpec FPDecP FloatP DoubleP HexP FloatQ
  FloatArgP IntP PropsInt PropsDouble PropsFloat BigSpec BigDecP BigGenP PropsBig WidthP ReadFP2 OrderSpec OrderP PropsOrder PropsSame BoundP.
Open Scope Z_scope.

Definition base_of (s : spec) : Z := match s with Sx | SX => 16 | So => 8 | _ => 10 end.

(** the width, or two more than the precision or the number of digits *)
Theorem C67_integers : forall J src s q v n r t,
  directive src s q -> integer_conversion J s v n -> prints J src [traitsOf J v r] t ->
  zlen t <= Z.max (q_width q) (2 + Z.max (prec_or 0 q) (zlen (digits (base_of s) (Z.abs n)))).
Proof.
  intros J src s q v n r t Hd Hv Ht.
  assert (U : forall T, renders J s (traitsOf J v r) T -> t = T q) by (intros T HT; apply (prints_unique _ _ _ _ _ Ht); apply (renders_prints J src s q _ T Hd HT)).
  assert (P : prec_ge q (prec_or 0 q)) by (unfold prec_ge, prec_or; destruct (q_prec q); [lia|exact I]).
  destruct Hv as [[-> Hv]|[Hs Hv]].
  - rewrite (U (fun q => j_d q n)) by (constructor; exact Hv). pose proof (j_d_short q n _ P). cbn [base_of]. lia.
  - pose proof (is_unsigned_nonneg _ _ _ Hv) as Hn. rewrite Z.abs_eq by exact Hn. destruct Hs as [Hs|[Hs|[Hs|Hs]]]; subst s; cbn [base_of].
    + rewrite (U (fun q => c_u q n)) by (constructor; exact Hv). pose proof (c_u_short q n _ Hn P). lia.
    + rewrite (U (fun q => j_x q n)) by (constructor; exact Hv). pose proof (j_x_short q n _ Hn P). lia.
    + rewrite (U (fun q => upper (j_x q n))) by (constructor; exact Hv). unfold upper. rewrite zlen_map. pose proof (j_x_short q n _ Hn P). lia.
    + rewrite (U (fun q => j_o q n)) by (constructor; exact Hv). pose proof (j_o_short q n _ Hn P). lia.
Qed.
Print Assumptions C67_integers.

(** every class but BigInteger and BigDecimal: 22 digits are enough for 64 bits in any base *)
Theorem C67_machine_integers : forall J src s q v n r t,
  directive src s q -> integer_conversion J s v n -> Z.abs n < 2 ^ 64 -> prints J src [traitsOf J v r] t ->
  zlen t <= Z.max (q_width q) (2 + Z.max (prec_or 0 q) 22).
Proof.
  intros J src s q v n r t Hd Hv Hn Ht. pose proof (C67_integers J src s q v n r t Hd Hv Ht) as H.
  assert (B : zlen (digits (base_of s) (Z.abs n)) <= 22); [|lia].
  assert (G : forall b, b = 8 \/ b = 10 \/ b = 16 -> zlen (digits b (Z.abs n)) <= 22).
  { intros b Hb. apply digits_len_le; [lia|lia|lia|]. apply Z.lt_le_trans with (8 ^ 22); [apply Z.lt_le_trans with (2 ^ 64); [exact Hn|vm_compute; discriminate]|]. apply Z.pow_le_mono_l. lia. }
  apply G. destruct s; cbn [base_of]; auto.
Qed.
Print Assumptions C67_machine_integers.

(** doubles: the longest are those near 10^308 in fixed notation *)
Definition longest (s : spec) (q : fspec) : Z :=
  match s with
  | Sf | SF => 311 + prec_or 6 q
  | Se | SE => 9 + prec_or 6 q
  | Sg | SG => 8 + g_prec q
  | _ => 11 + Z.max 13 (prec_or 13 q)
  end.

Lemma longest_9 s q : 0 <= prec_or 6 q -> 1 <= g_prec q -> 9 <= longest s q.
Proof. intros H1 H2. unfold longest. destruct s; lia. Qed.

Theorem C67_doubles : forall J src s q v b r t,
  directive src s q -> is_float_spec s -> is_double J v b -> prints J src [traitsOf J v r] t -> zlen t <= Z.max (q_width q) (longest s q).
Proof.
  intros J src s q v b r t Hd Hs Hv Ht. pose proof (prec_nonneg _ _ _ Hd) as Hp. pose proof (g_prec_pos _ _ _ Hd) as Hg. pose proof (longest_9 s q Hp Hg) as L9.
  destruct (double_view J v b r Hv) as [Ev Hb64].
  assert (C : forall T, zlen (cased s T) = zlen T) by (intros T; destruct s; try reflexivity; apply zlen_map).
  destruct (Z_lt_ge_dec (magnitude b) inf_bits) as [F|F].
  - destruct (printed_exists b F) as (f & e & P).
    assert (B : 0 <= f < 10 ^ 17 /\ -325 <= e <= 292).
    { destruct P as [(_ & -> & ->)|[_ D]]; [lia|]. pose proof (do_f _ _ _ D). pose proof (do_e _ _ _ D). lia. }
    destruct B as [Bf Be].
    set (T := fun q => match s with Sf | SF => c_f q (b <? 0) f e | Se | SE => c_e q (b <? 0) f e | Sg | SG => j_g q (b <? 0) f e | _ => j_a q (b <? 0) (magnitude b) end).
    assert (E : t = cased s (T q)).
    { apply (prints_unique _ _ _ _ _ Ht). apply (converts_prints J s _ (fun q => cased s (T q))); [|exact Hd].
      apply (form_converts J s v r (doubleForm b) T Hs Ev). intros c G Hr EG. unfold T.
      destruct Hs as [->|[->|[->|[->|[->|[->|[->| ->]]]]]]]; cbn in EG; injection EG as <-;
        first [apply fmt_f_double|apply fmt_e_double|apply fmt_g_double|apply fmt_a_double]; assumption. }
    subst t. rewrite C. pose proof (zlen_sign_text q (b <? 0)) as Sg0.
    pose proof (f_body_short q f e Bf ltac:(lia) Hp) as L1. pose proof (e_body_short q f e Bf Be Hp) as L2. destruct (g_body_short q f e Bf Be Hg) as [L3 L4].
    pose proof (a_body_short q (magnitude b) ltac:(pose proof (magnitude_range b F); lia)) as L5. unfold T, longest.
    destruct Hs as [->|[->|[->|[->|[->|[->|[->| ->]]]]]]]; try (unfold c_f, c_e, j_g, c_g; try destruct (g_irregular q f e); rewrite zlen_finite_text; lia);
      (unfold j_a; rewrite pad_number_len, zlen_app; change (zlen (txt "0x")) with 2; unfold prec_or in *; destruct (q_prec q); [specialize (L5 Hp)|specialize (L5 I)]; lia).
  - set (T := fun q => if magnitude b =? inf_bits then j_inf q (b <? 0) else c_nan q).
    assert (E : t = cased s (T q)).
    { apply (prints_unique _ _ _ _ _ Ht). apply (converts_prints J s _ (fun q => cased s (T q))); [|exact Hd].
      apply (form_converts J s v r (doubleForm b) T Hs Ev). intros c G Hr EG. rewrite (special_conv c s G b EG ltac:(lia)). apply special_den; [assumption|lia]. }
    subst t. rewrite C. unfold T, j_inf, c_nan. destruct (magnitude b =? inf_bits); rewrite justify_len; [|change (zlen (txt "NaN")) with 3; lia].
    rewrite zlen_app. change (zlen (txt "Infinity")) with 8. destruct (b <? 0); [change (zlen (txt "-")) with 1; lia|]. destruct (q_plus q); [change (zlen (txt "+")) with 1; lia|change (zlen (@nil Z)) with 0; lia].
Qed.
Print Assumptions C67_doubles.

(** whatever the directive and the double: at most 65847 characters *)
Theorem C67_one_bound_for_all : forall J src s q v b r t,
  directive src s q -> is_float_spec s -> is_double J v b -> prints J src [traitsOf J v r] t -> zlen t <= 65847.
Proof.
  intros J src s q v b r t Hd Hs Hv Ht. pose proof (C67_doubles J src s q v b r t Hd Hs Hv Ht) as H. destruct (directive_bounds _ _ _ Hd) as [W P].
  assert (L : longest s q <= 65847); [|lia]. unfold longest, g_prec, prec_or in *. destruct s, (q_prec q) as [p|]; try destruct (p =? 0); cbn [Z.eqb]; lia.
Qed.
Print Assumptions C67_one_bound_for_all.

(** decimal numbers have no such bound *)
Theorem C67_decimals_are_unbounded : forall J k, 0 <= k <= 2000000000 -> exists v t, prints J (txt "%f") [traitsOf J v RPrimitive] t /\ k < zlen t.
Proof.
  intros J k Hk. exists (VDec (mkBD 1 (- k))). assert (P : 0 < 10 ^ k) by (apply Z.pow_pos_nonneg; lia).
  assert (HN : half_up_at (dec (Z.abs 1) (- - k)) 6 (hup 1 (- (k + 6)))). { replace (- - k) with k by lia. apply hup_half_up. lia. }
  set (N := hup 1 (- (k + 6))) in *. assert (EN : N = 10 ^ k * 10 ^ 6). { unfold N, hup. replace (- (k + 6) <=? 0) with true by lia. replace (- - (k + 6)) with (k + 6) by lia. rewrite Z.pow_add_r by lia. lia. }
  assert (L : zlen (finite_text plain_spec (1 <? 0) (decimal_text N 6)) = k + 8).
  { rewrite zlen_finite_text, zlen_decimal_text by lia. rewrite EN, Z.div_mul by lia. change (zlen (sign_text plain_spec (1 <? 0))) with 0. change (q_width plain_spec) with 0. change (6 =? 0) with false. cbn match. rewrite zlen_numeral.
    assert (D : zlen (digits 10 (10 ^ k)) = k + 1).
    { apply digits_length_unique; try lia. replace (k + 1 - 1) with k by lia. split; [lia|]. apply Z.pow_lt_mono_r; lia. }
    rewrite D. lia. }
  clearbody N. exists (cased Sf (finite_text plain_spec (1 <? 0) (decimal_text N 6))). split; [|change (cased Sf (finite_text plain_spec (1 <? 0) (decimal_text N 6))) with (finite_text plain_spec (1 <? 0) (decimal_text N 6)); lia].
  apply (C34_fixed_notation_partial J (txt "%f") Sf plain_spec (VDec (mkBD 1 (- k))) 1 (- k) RPrimitive N dir_f); [auto|constructor; split; [reflexivity|lia]|lia|change (prec_or 6 plain_spec) with 6; lia|exact HN|].
  change (zlen (finite_text plain_spec (1 <? 0) (decimal_text N 6)) < 2147483647). lia.
Qed.
Print Assumptions C67_decimals_are_unbounded.

(** the bounds are reached: -Double.MAX_VALUE has 309 digits *)
Example C67_example : exists t, prints J0 (txt "%.1f") [traitsOf J0 (VDouble (-4503599627370497)) RPrimitive] t /\ zlen t = 312 /\ longest Sf (mkSpec false false false false false 0 (Some 1)) = 312.
Proof.
  assert (D : directive (txt "%.1f") Sf (mkSpec false false false false false 0 (Some 1))).
  { change (txt "%.1f") with (pct :: [] ++ [] ++ txt ".1" ++ [ch "f"]). is_dir (dir_text [] (mkFlags false false false false false) [] UNSET (txt ".1") 1). }
  assert (R : 0 < magnitude (-4503599627370497) < inf_bits) by (vm_compute; split; reflexivity).
  destruct (printed_by (-4503599627370497) 17976931348623157 292 R ltac:(vm_compute; reflexivity)) as [(Z0 & _)|[_ P]]; [discriminate|].
  eexists. split; [|split; [|reflexivity]].
  - apply (C28_fixed_notation J0 _ Sf _ _ (-4503599627370497) _ 17976931348623157 292 (17976931348623157 * 10 ^ 293) D); [auto|constructor; unfold in_range; lia| |].
    + right. split; [exact R|apply (do_right _ _ _ P)].
    + apply (hup_half_up 17976931348623157 292 1). lia.
  - vm_compute. reflexivity.
Qed.
