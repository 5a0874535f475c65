(** C28-C33, C42: floating-point conversions of doubles. *)
From Coq Require Import QArith Qabs Qpower Lqa.
From Verif Require Import Base Digits UtilsM SeqM SeqSpec SeqP SeqSubP ContextM CompilerM GrammarSpec IntFormM FormatterM MathM MathP DecimalM FPDecimalM
  DoubleM BigDecM RoundM TraitsM ImplM FmtSpec FmtP FmtP2 DirSpec DecSpec RoundP ShortP SchubP FloatSpec FPDecP FloatP DoubleP HexP CastP NearP FloatQ FloatArgP IntP PropsInt.
Open Scope Z_scope.

(** ** lemmas for this file *)

(** the upper-case conversions print the upper-case text *)
Definition cased (s : spec) (t : list Z) : list Z := match s with SF | SE | SG | SA | SX | SS => upper t | _ => t end.

Definition is_float_spec (s : spec) : Prop := s = Sf \/ s = SF \/ s = Se \/ s = SE \/ s = Sg \/ s = SG \/ s = Sa \/ s = SA.

Lemma form_prints J src s q v r b t : directive src s q -> is_float_spec s -> t_asFloatForm (traitsOf J v r) = Ok (doubleForm b) ->
  (forall c F, rt_ok c -> q_of c = q -> float_conv c s = Some F -> exists u, F (doubleForm b) = Ok u /\ den u t) ->
  prints J src [traitsOf J v r] (cased s t).
Proof.
  intros Hd Hs Ev H. apply (prints_one J src s q _ _ Hd). intros c Hr Hq.
  assert (Up : forall F, float_conv c s = Some F -> exists u, upperOf (withFloat (traitsOf J v r) F) = Ok u /\ den u (upper t)).
  { intros F EF. destruct (H c F Hr Hq EF) as (u & Eu & Du). unfold upperOf, withFloat. rewrite Ev. cbn [bind]. rewrite Eu. cbn [bind]. apply s_upper_den. exact Du. }
  assert (Lo : forall F, float_conv c s = Some F -> exists u, withFloat (traitsOf J v r) F = Ok u /\ den u t).
  { intros F EF. destruct (H c F Hr Hq EF) as (u & Eu & Du). unfold withFloat. rewrite Ev. cbn [bind]. exists u. split; assumption. }
  destruct Hs as [->|[->|[->|[->|[->|[->|[->| ->]]]]]]]; cbn [formatterFor cased]; first [apply Lo; reflexivity|apply Up; reflexivity].
Qed.

Lemma conv_prints J src s q v b r t : directive src s q -> is_float_spec s -> is_double J v b ->
  (forall c F, rt_ok c -> q_of c = q -> float_conv c s = Some F -> exists u, F (doubleForm b) = Ok u /\ den u t) ->
  prints J src [traitsOf J v r] (cased s t).
Proof. intros Hd Hs Hv. destruct (double_view J v b r Hv) as [Ev _]. apply form_prints; assumption. Qed.

Lemma nan_view J v r : is_nan J v -> exists b, t_asFloatForm (traitsOf J v r) = Ok (doubleForm b) /\ inf_bits < magnitude b.
Proof.
  intros H. destruct H as [b _ H|f _ H|v s b D E _ H|l d i t _ H].
  - exists b. split; [reflexivity|exact H].
  - exists (f2d f). split; [reflexivity|apply float_nan; exact H].
  - exists b. split; [|exact H]. destruct (chars_string J v s r D) as (n & q & ->). cbn. rewrite E. reflexivity.
  - exists d. split; [reflexivity|exact H].
Qed.

Lemma its_printed b f e : its_decimal b f e -> exists f0 e0, printed b f0 e0 /\ (dec f e == dec f0 e0)%Q /\ (f = 0 <-> f0 = 0) /\ 0 <= f0.
Proof.
  intros [[Z0 F0]|[R D]].
  - exists 0, 0. split; [left; auto|]. split; [rewrite F0; unfold dec; change (inject_Z 0) with 0%Q; ring|]. lia.
  - destruct (decimal_of_exists (magnitude b) R) as (f0 & e0 & D0). exists f0, e0. split; [right; split; assumption|].
    pose proof (do_right _ _ _ D0) as R0. split; [apply (right_unique (magnitude b)); assumption|]. pose proof (proj1 D). pose proof (proj1 R0). lia.
Qed.

Lemma its_decimal_finite b f e : its_decimal b f e -> finite b.
Proof. unfold finite. intros [[Z0 _]|[R _]]; [rewrite Z0; reflexivity|lia]. Qed.

Theorem every_finite_double_has_a_decimal b : finite b -> exists f e, its_decimal b f e.
Proof.
  intros H. destruct (printed_exists b H) as (f & e & [(Z0 & -> & ->)|(R & D)]).
  - exists 0, 0. left. auto.
  - exists f, e. right. split; [exact R|apply (do_right _ _ _ D)].
Qed.
Print Assumptions every_finite_double_has_a_decimal.

(** C28 *)
Theorem C28_fixed_notation : forall J src s q v b r f e N,
  directive src s q -> s = Sf \/ s = SF -> is_double J v b ->
  its_decimal b f e -> half_up_at (dec f e) (prec_or 6 q) N ->
  prints J src [traitsOf J v r]
    (cased s (finite_text q (b <? 0) (if q_alt q then alt_text N (prec_or 6 q) else decimal_text N (prec_or 6 q)))).
Proof.
  intros J src s q v b r f e N Hd Hs Hv Hi HN. destruct (its_printed b f e Hi) as (f0 & e0 & P & Ed & _ & F0).
  assert (EN : N = hup f0 (- (e0 + prec_or 6 q))).
  { apply (half_up_unique (dec f0 e0) (prec_or 6 q)); [apply (half_up_eq (dec f e)); assumption|apply hup_half_up; exact F0]. }
  apply (conv_prints J src s q v b r _ Hd); [unfold is_float_spec; tauto|exact Hv|]. intros c F Hr <- EF.
  assert (F = fmt_f c) as -> by (destruct Hs as [-> | ->]; cbn in EF; congruence).
  destruct (fmt_f_double c b f0 e0 Hr P) as (u & Eu & Du). exists u. split; [exact Eu|]. unfold c_f, f_body in Du. cbv zeta in Du. rewrite <- EN in Du. exact Du.
Qed.
Print Assumptions C28_fixed_notation.

Theorem C28_rounding_exists : forall b p, finite b -> exists f e N, its_decimal b f e /\ half_up_at (dec f e) p N.
Proof.
  intros b p H. destruct (every_finite_double_has_a_decimal b H) as (f & e & D). exists f, e, (hup f (- (e + p))). split; [exact D|].
  apply hup_half_up. destruct D as [[_ ->]|[_ D]]; [lia|]. pose proof (proj1 D). lia.
Qed.
Print Assumptions C28_rounding_exists.

Lemma printed_by b f e : 0 < magnitude b < inf_bits -> toDecimal (magnitude b) = Ok (NonSpecial false f e) -> printed b f e.
Proof.
  intros R E. destruct (decimal_of_exists (magnitude b) R) as (f0 & e0 & D). pose proof (do_dec _ _ _ D) as E0. rewrite E in E0.
  apply nonspecial_inj in E0 as [-> ->]. right. split; assumption.
Qed.

Example C28_example : directive (txt "%+08.2f") Sf (mkSpec false false true false true 8 (Some 2)) /\
  prints J0 (txt "%+08.2f") [traitsOf J0 (VDouble 4594572339843380019) RPrimitive] (txt "+0000.15").
Proof.
  assert (D : directive (txt "%+08.2f") Sf (mkSpec false false true false true 8 (Some 2))).
  { change (txt "%+08.2f") with (pct :: txt "+0" ++ txt "8" ++ txt ".2" ++ [ch "f"]).
    is_dir (dir_text (txt "+0") (mkFlags false false true false true) (txt "8") 8 (txt ".2") 2). }
  split; [exact D|]. assert (R : 0 < magnitude 4594572339843380019 < inf_bits) by (vm_compute; split; reflexivity).
  destruct (printed_by 4594572339843380019 15000000000000000 (-17) R ltac:(vm_compute; reflexivity)) as [(Z0 & _)|[_ P]]; [discriminate|].
  apply (C28_fixed_notation J0 _ Sf _ _ 4594572339843380019 _ 15000000000000000 (-17) 15 D); [auto|constructor; vm_compute; split; congruence| |].
  - right. split; [exact R|apply (do_right _ _ _ P)].
  - vm_compute. split; congruence.
Qed.

(** C29 is false: %f rounds the shortest decimal, not the value of the double. 0.15 is slightly below 15/100,
    so 0.1 is nearer to it than 0.2. *)
Theorem C29_rounds_the_decimal_refuted :
  exists src q b, directive src Sf q /\ q_prec q = Some 1 /\
    (forall J, prints J src [traitsOf J (VDouble b) RPrimitive] (txt "0.2")) /\
    (Qabs (sval b - (1 # 10)) < Qabs (sval b - (2 # 10)))%Q.
Proof.
  exists (txt "%.1f"), (mkSpec false false false false false 0 (Some 1)), 4594572339843380019.
  assert (D : directive (txt "%.1f") Sf (mkSpec false false false false false 0 (Some 1))).
  { change (txt "%.1f") with (pct :: [] ++ [] ++ txt ".1" ++ [ch "f"]).
    is_dir (dir_text [] (mkFlags false false false false false) [] UNSET (txt ".1") 1). }
  split; [exact D|]. split; [reflexivity|]. split; [|vm_compute; reflexivity].
  intros J. assert (R : 0 < magnitude 4594572339843380019 < inf_bits) by (vm_compute; split; reflexivity).
  destruct (printed_by 4594572339843380019 15000000000000000 (-17) R ltac:(vm_compute; reflexivity)) as [(Z0 & _)|[_ P]]; [discriminate|].
  apply (C28_fixed_notation J _ Sf _ _ 4594572339843380019 _ 15000000000000000 (-17) 2 D); [auto|constructor; vm_compute; split; congruence| |].
  - right. split; [exact R|apply (do_right _ _ _ P)].
  - vm_compute. split; congruence.
Qed.
Print Assumptions C29_rounds_the_decimal_refuted.

(** What holds instead: the printed number [N * 10^-p] is off by at most half a unit in the last place printed plus
    half the distance to a neighbouring double; it is correctly rounded when the double is equal to its decimal. *)
Theorem C29_error_bound_partial : forall J src s q v b r f e N,
  directive src s q -> s = Sf \/ s = SF -> is_double J v b ->
  its_decimal b f e -> let p := prec_or 6 q in half_up_at (dec f e) p N ->
  prints J src [traitsOf J v r] (cased s (finite_text q (b <? 0) (if q_alt q then alt_text N p else decimal_text N p))) /\
  (exists b', Z.abs (b' - magnitude b) = 1 /\
    (Qabs (dec N (- p) - dval (magnitude b)) <= (1 # 2) * 10 ^ (- p) + (1 # 2) * Qabs (dval b' - dval (magnitude b)))%Q) /\
  ((dec f e == dval (magnitude b))%Q -> half_up_at (dval (magnitude b)) p N).
Proof.
  intros J src s q v b r f e N Hd Hs Hv Hi p HN. split; [apply (C28_fixed_notation J src s q v b r f e N); assumption|].
  split; [|intros E; apply (half_up_eq (dec f e)); assumption].
  assert (A : (Qabs (dec N (- p) - dec f e) <= (1 # 2) * 10 ^ (- p))%Q).
  { destruct HN as [H1 H2]. pose proof (ten_pos (- p)) as T.
    assert (E : (dec f e * 10 ^ p * 10 ^ (- p) == dec f e)%Q).
    { rewrite <- Qmult_assoc, <- ten_add. replace (p + - p) with 0 by lia. change (10 ^ 0)%Q with 1%Q. ring. }
    assert (U1 : ((inject_Z N - (1 # 2)) * 10 ^ (- p) <= dec f e * 10 ^ p * 10 ^ (- p))%Q) by (apply Qmult_le_compat_r; lra).
    assert (U2 : (dec f e * 10 ^ p * 10 ^ (- p) <= (inject_Z N + (1 # 2)) * 10 ^ (- p))%Q) by (apply Qmult_le_compat_r; lra).
    rewrite E in U1, U2. unfold dec at 1. set (y := dec f e) in *. clearbody y. set (z := (inject_Z N * 10 ^ (- p))%Q) in *. set (w := (10 ^ (- p))%Q) in *.
    assert (Z1 : ((inject_Z N - (1 # 2)) * w == z - (1 # 2) * w)%Q) by (unfold z; ring).
    assert (Z2 : ((inject_Z N + (1 # 2)) * w == z + (1 # 2) * w)%Q) by (unfold z; ring).
    rewrite Z1 in U1. rewrite Z2 in U2. apply Qabs_Qle_condition. split; lra. }
  assert (B : exists b', Z.abs (b' - magnitude b) = 1 /\ (Qabs (dec f e - dval (magnitude b)) <= (1 # 2) * Qabs (dval b' - dval (magnitude b)))%Q).
  { destruct Hi as [[Z0 F0]|[R D]].
    - exists 1. rewrite Z0, F0. split; [reflexivity|]. assert (E : (dec 0 e - dval 0 == 0)%Q) by (unfold dec; change (inject_Z 0) with 0%Q; assert (E0 : (dval 0 == 0)%Q) by reflexivity; rewrite E0; ring).
      rewrite E. change (Qabs 0) with 0%Q. pose proof (Qabs_nonneg (dval 1 - dval 0)). lra.
    - destruct D as (_ & Rt & _). set (m := magnitude b) in *. set (y := dec f e) in *. clearbody y.
      destruct (Qlt_le_dec y (dval m)) as [L|L].
      + exists (m - 1). split; [lia|]. destruct (Rt (m - 1) ltac:(lia)) as [H _].
        assert (M : (dval (m - 1) < dval m)%Q) by (apply dval_lt; lia).
        rewrite (Qabs_neg (y - dval m)) in * by lra. rewrite (Qabs_neg (dval (m - 1) - dval m)) by lra.
        revert H. apply Qabs_case; intros; lra.
      + exists (m + 1). split; [lia|]. destruct (Rt (m + 1) ltac:(lia)) as [H _].
        assert (M : (dval m < dval (m + 1))%Q) by (apply dval_lt; lia).
        rewrite (Qabs_pos (y - dval m)) in * by lra. rewrite (Qabs_pos (dval (m + 1) - dval m)) by lra.
        revert H. apply Qabs_case; intros; lra. }
  destruct B as (b' & E & B). exists b'. split; [exact E|].
  assert (T : (Qabs (dec N (- p) - dval (magnitude b)) <= Qabs (dec N (- p) - dec f e) + Qabs (dec f e - dval (magnitude b)))%Q).
  { eapply Qle_trans; [|apply Qabs_triangle]. assert (Eq : (dec N (- p) - dval (magnitude b) == dec N (- p) - dec f e + (dec f e - dval (magnitude b)))%Q) by ring. rewrite Eq. apply Qle_refl. }
  lra.
Qed.
Print Assumptions C29_error_bound_partial.

(** ** %e *)

Lemma prec_nonneg src s q : directive src s q -> 0 <= prec_or 6 q.
Proof.
  intros D. destruct (directive_compile (fun _ => false) src s q D) as (c & _ & Hr & <- & _). apply (precOr6_spec c Hr).
Qed.

Lemma its_sig b f e f0 e0 P S X : its_decimal b f e -> 0 < magnitude b -> (dec f e == dec f0 e0)%Q -> 0 < f0 -> 1 <= P ->
  sig_half_up (dec f e) P S X -> sig0 f0 e0 P = (S, X).
Proof.
  intros Hi Hm Ed F0 HP HS. unfold sig0. replace (f0 =? 0) with false by (symmetry; apply Z.eqb_neq; lia).
  destruct (FloatSpec.sig f0 e0 P) as [S0 X0] eqn:E. pose proof (sig_right f0 e0 P S0 X0 F0 HP E) as H0.
  destruct (sig_half_up_unique (dec f0 e0) P S X S0 X0 HP (sig_half_up_eq _ _ _ _ _ Ed HS) H0) as [-> ->]. reflexivity.
Qed.

Lemma its_pos b f e : its_decimal b f e -> 0 < magnitude b -> f <> 0.
Proof. intros [[Z0 _]|[_ D]] H; [lia|]. pose proof (proj1 D). lia. Qed.

Lemma its_zero b f e : its_decimal b f e -> magnitude b = 0 -> f = 0.
Proof. intros [[_ E]|[R _]] H; [exact E|lia]. Qed.

(** C30 *)
Theorem C30_scientific_notation : forall J src s q v b r f e S X,
  directive src s q -> s = Se \/ s = SE -> is_double J v b ->
  its_decimal b f e -> 0 < magnitude b -> sig_half_up (dec f e) (prec_or 6 q + 1) S X ->
  prints J src [traitsOf J v r]
    (cased s (finite_text q (b <? 0) ((if q_alt q then alt_text S (prec_or 6 q) else decimal_text S (prec_or 6 q)) ++ exp_text X))).
Proof.
  intros J src s q v b r f e S X Hd Hs Hv Hi Hm HS. pose proof (prec_nonneg _ _ _ Hd) as Hp.
  destruct (its_printed b f e Hi) as (f0 & e0 & P & Ed & Ez & F0). pose proof (its_pos _ _ _ Hi Hm) as Nz.
  assert (ES : sig0 f0 e0 (prec_or 6 q + 1) = (S, X)) by (apply (its_sig b f e); try assumption; lia).
  apply (conv_prints J src s q v b r _ Hd); [unfold is_float_spec; tauto|exact Hv|]. intros c F Hr <- EF.
  assert (F = fmt_e c) as -> by (destruct Hs as [-> | ->]; cbn in EF; congruence).
  destruct (fmt_e_double c b f0 e0 Hr P) as (u & Eu & Du). exists u. split; [exact Eu|]. unfold c_e, e_body in Du. cbv zeta in Du. rewrite ES in Du. exact Du.
Qed.
Print Assumptions C30_scientific_notation.

Theorem C30_scientific_zero : forall J src s q v b r,
  directive src s q -> s = Se \/ s = SE -> is_double J v b -> magnitude b = 0 ->
  prints J src [traitsOf J v r]
    (cased s (finite_text q (b <? 0) ((if q_alt q then alt_text 0 (prec_or 6 q) else decimal_text 0 (prec_or 6 q)) ++ txt "e+00"))).
Proof.
  intros J src s q v b r Hd Hs Hv Hm.
  apply (conv_prints J src s q v b r _ Hd); [unfold is_float_spec; tauto|exact Hv|]. intros c F Hr <- EF.
  assert (F = fmt_e c) as -> by (destruct Hs as [-> | ->]; cbn in EF; congruence).
  destruct (fmt_e_double c b 0 0 Hr (or_introl (conj Hm (conj eq_refl eq_refl)))) as (u & Eu & Du). exists u. split; [exact Eu|exact Du].
Qed.
Print Assumptions C30_scientific_zero.

Theorem C30_rounding_exists : forall f e P, 0 < f -> 1 <= P -> exists S X, sig_half_up (dec f e) P S X.
Proof. intros f e P Hf HP. destruct (FloatSpec.sig f e P) as [S X] eqn:E. exists S, X. apply sig_right; assumption. Qed.
Print Assumptions C30_rounding_exists.

(** ** %g *)

Lemma g_prec_pos src s q : directive src s q -> 1 <= g_prec q.
Proof. intros D. pose proof (prec_nonneg _ _ _ D). unfold g_prec. destruct (Z.eqb_spec (prec_or 6 q) 0); lia. Qed.

Lemma short_form N p : 0 <= p -> exists M r, short_text N p = decimal_text M r /\ 0 <= r <= p /\ N = M * 10 ^ (p - r) /\ (r = 0 \/ M mod 10 <> 0).
Proof.
  intros Hp. unfold short_text. pose proof (drop_zeros_value (Z.to_nat p) N) as V. pose proof (drop_zeros_min (Z.to_nat p) N) as M.
  destruct (drop_zeros (Z.to_nat p) N) as [G k]. rewrite Z2Nat.id in V by exact Hp. exists G, k. tauto.
Qed.

(** C31: [M * 10^-r] are the [P] digits [S] without trailing zeros, in the notation C chooses *)
Theorem C31_general_notation : forall J src s q v b r f e S X,
  directive src s q -> s = Sg \/ s = SG -> q_alt q = false -> is_double J v b ->
  its_decimal b f e -> 0 < magnitude b -> let P := g_prec q in sig_half_up (dec f e) P S X ->
  exists M k, prints J src [traitsOf J v r]
      (cased s (finite_text q (b <? 0) (decimal_text M k ++ (if (-4 <=? X) && (X <? P) then [] else exp_text X)))) /\
    let p := if (-4 <=? X) && (X <? P) then P - 1 - X else P - 1 in
    0 <= k <= p /\ S = M * 10 ^ (p - k) /\ (k = 0 \/ M mod 10 <> 0).
Proof.
  intros J src s q v b r f e S X Hd Hs Ha Hv Hi Hm P HS. pose proof (g_prec_pos _ _ _ Hd) as HP. fold P in HP.
  destruct (its_printed b f e Hi) as (f0 & e0 & Pr & Ed & Ez & F0). pose proof (its_pos _ _ _ Hi Hm) as Nz.
  assert (ES : sig0 f0 e0 P = (S, X)) by (apply (its_sig b f e); try assumption; lia).
  set (p := if (-4 <=? X) && (X <? P) then P - 1 - X else P - 1).
  assert (Hp : 0 <= p) by (unfold p; destruct (Z.leb_spec (-4) X), (Z.ltb_spec X P); cbn [andb]; lia).
  destruct (short_form S p Hp) as (M & k & E1 & E2 & E3 & E4). exists M, k. split; [|cbv zeta; auto].
  apply (conv_prints J src s q v b r _ Hd); [unfold is_float_spec; tauto|exact Hv|]. intros c F Hr <- EF.
  assert (F = fmt_g c) as -> by (destruct Hs as [-> | ->]; cbn in EF; congruence).
  destruct (fmt_g_double c b f0 e0 Hr Pr) as (u & Eu & Du). exists u. split; [exact Eu|].
  unfold j_g, g_irregular, c_g, g_body in Du. cbv zeta in Du. fold P in Du. rewrite ES, Ha in Du. cbn [andb] in Du. unfold g_text in Du. rewrite Ha in Du.
  unfold p in E1. destruct ((-4 <=? X) && (X <? P)).
  - rewrite app_nil_r, <- E1. exact Du.
  - rewrite <- E1. exact Du.
Qed.
Print Assumptions C31_general_notation.

Theorem C31_general_zero : forall J src s q v b r,
  directive src s q -> s = Sg \/ s = SG -> q_alt q = false -> is_double J v b -> magnitude b = 0 ->
  prints J src [traitsOf J v r] (cased s (finite_text q (b <? 0) (txt "0"))).
Proof.
  intros J src s q v b r Hd Hs Ha Hv Hm. pose proof (g_prec_pos _ _ _ Hd) as HP.
  apply (conv_prints J src s q v b r _ Hd); [unfold is_float_spec; tauto|exact Hv|]. intros c F Hr <- EF.
  assert (F = fmt_g c) as -> by (destruct Hs as [-> | ->]; cbn in EF; congruence).
  destruct (fmt_g_double c b 0 0 Hr (or_introl (conj Hm (conj eq_refl eq_refl)))) as (u & Eu & Du). exists u. split; [exact Eu|].
  unfold j_g, g_irregular, c_g, g_body in Du. cbv zeta in Du. unfold sig0 in Du. cbn [Z.eqb] in Du. rewrite Ha in Du. cbn [andb] in Du.
  replace (0 <? g_prec (q_of c)) with true in Du by (symmetry; apply Z.ltb_lt; lia). change (-4 <=? 0) with true in Du. cbn [andb] in Du.
  unfold g_text in Du. rewrite Ha in Du.
  assert (Sz : short_text 0 (g_prec (q_of c) - 1 - 0) = txt "0").
  { unfold short_text. generalize (Z.to_nat (g_prec (q_of c) - 1 - 0)). intros n. assert (E : drop_zeros n 0 = (0, 0)) by (induction n; [reflexivity|exact IHn]). rewrite E. reflexivity. }
  rewrite Sz in Du. exact Du.
Qed.
Print Assumptions C31_general_zero.

(** ** %#g *)

Lemma unpadded_digits f e P S X : 0 < f -> 1 <= P -> sig0 f e P = (S, X) ->
  let m := Z.min (ndigits f) P in 1 <= m <= P /\ S = S / 10 ^ (P - m) * 10 ^ (P - m).
Proof.
  intros Hf HP E m. destruct (ndigits_bounds f Hf) as (N1 & B1 & B2). split; [unfold m; lia|].
  unfold sig0 in E. replace (f =? 0) with false in E by (symmetry; apply Z.eqb_neq; lia). unfold FloatSpec.sig in E. cbv zeta in E.
  destruct (Z.le_gt_cases P (ndigits f)) as [L|G].
  - replace m with P by (unfold m; lia). rewrite Z.sub_diag, Z.pow_0_r, Z.div_1_r. lia.
  - replace m with (ndigits f) by (unfold m; lia). unfold hup in E. replace (ndigits f - P <=? 0) with true in E by (symmetry; apply Z.leb_le; lia).
    replace (- (ndigits f - P)) with (P - ndigits f) in E by lia. set (k := P - ndigits f) in *.
    assert (Pk : 0 < 10 ^ k) by (apply Z.pow_pos_nonneg; lia).
    assert (Ne : f * 10 ^ k <> 10 ^ P).
    { replace P with (ndigits f + k) by (unfold k; lia). rewrite Z.pow_add_r by lia. nia. }
    replace (f * 10 ^ k =? 10 ^ P) with false in E by (symmetry; apply Z.eqb_neq; exact Ne). apply pair_eq in E as [<- _].
    rewrite Z.div_mul by lia. reflexivity.
Qed.

(** C32 in positional notation; missing: the exponent notation, where the statement is false *)
Theorem C32_alternate_form_positional_partial : forall J src s q v b r f e S X,
  directive src s q -> s = Sg \/ s = SG -> q_alt q = true -> is_double J v b ->
  its_decimal b f e -> 0 < magnitude b -> let P := g_prec q in sig_half_up (dec f e) P S X -> -4 <= X < P ->
  prints J src [traitsOf J v r] (cased s (finite_text q (b <? 0) (alt_text S (P - 1 - X)))).
Proof.
  intros J src s q v b r f e S X Hd Hs Ha Hv Hi Hm P HS HX. pose proof (g_prec_pos _ _ _ Hd) as HP. fold P in HP.
  destruct (its_printed b f e Hi) as (f0 & e0 & Pr & Ed & Ez & F0). pose proof (its_pos _ _ _ Hi Hm) as Nz.
  assert (ES : sig0 f0 e0 P = (S, X)) by (apply (its_sig b f e); try assumption; lia).
  apply (conv_prints J src s q v b r _ Hd); [unfold is_float_spec; tauto|exact Hv|]. intros c F Hr <- EF.
  assert (F = fmt_g c) as -> by (destruct Hs as [-> | ->]; cbn in EF; congruence).
  destruct (fmt_g_double c b f0 e0 Hr Pr) as (u & Eu & Du). exists u. split; [exact Eu|].
  unfold j_g, g_irregular, c_g, g_body in Du. cbv zeta in Du. fold P in Du. rewrite ES, Ha in Du.
  replace ((-4 <=? X) && (X <? P)) with true in Du by (symmetry; apply andb_true_intro; split; [apply Z.leb_le|apply Z.ltb_lt]; lia).
  cbn [andb negb] in Du. unfold g_text in Du. rewrite Ha in Du. exact Du.
Qed.
Print Assumptions C32_alternate_form_positional_partial.

(** in exponent notation: the right value, with a decimal point unless P is 1, but perhaps fewer digits than P *)
Theorem C32_alternate_form_exponent_partial : forall J src s q v b r f e S X,
  directive src s q -> s = Sg \/ s = SG -> q_alt q = true -> is_double J v b ->
  its_decimal b f e -> 0 < magnitude b -> let P := g_prec q in sig_half_up (dec f e) P S X -> X < -4 \/ P <= X ->
  exists M k, 0 <= k <= P - 1 /\ S = M * 10 ^ (P - 1 - k) /\
    prints J src [traitsOf J v r] (cased s (finite_text q (b <? 0) ((if P =? 1 then decimal_text M k else alt_text M k) ++ exp_text X))).
Proof.
  intros J src s q v b r f e S X Hd Hs Ha Hv Hi Hm P HS HX. pose proof (g_prec_pos _ _ _ Hd) as HP. fold P in HP.
  destruct (its_printed b f e Hi) as (f0 & e0 & Pr & Ed & Ez & F0). pose proof (its_pos _ _ _ Hi Hm) as Nz.
  assert (ES : sig0 f0 e0 P = (S, X)) by (apply (its_sig b f e); try assumption; lia).
  destruct (unpadded_digits f0 e0 P S X ltac:(lia) HP ES) as (Hm1 & Hm2). set (m := Z.min (ndigits f0) P) in *.
  exists (S / 10 ^ (P - m)), (m - 1). split; [lia|]. split; [replace (P - 1 - (m - 1)) with (P - m) by lia; exact Hm2|].
  apply (conv_prints J src s q v b r _ Hd); [unfold is_float_spec; tauto|exact Hv|]. intros c F Hr <- EF.
  assert (F = fmt_g c) as -> by (destruct Hs as [-> | ->]; cbn in EF; congruence).
  destruct (fmt_g_double c b f0 e0 Hr Pr) as (u & Eu & Du). exists u. split; [exact Eu|].
  unfold j_g, g_irregular, c_g, g_body, g_unpadded in Du. cbv zeta in Du. fold P in Du. rewrite ES, Ha in Du.
  replace ((-4 <=? X) && (X <? P)) with false in Du by (symmetry; apply andb_false_iff; destruct HX; [left; apply Z.leb_gt|right; apply Z.ltb_ge]; lia).
  cbn [andb negb] in Du. fold m in Du. destruct (Z.eqb_spec P 1) as [E1|E1]; [|exact Du].
  replace m with 1 by lia. rewrite E1. change (10 ^ (1 - 1)) with 1. rewrite Z.div_1_r. exact Du.
Qed.
Print Assumptions C32_alternate_form_exponent_partial.

(** zero: P - 1 fraction digits *)
Theorem C32_alternate_zero : forall J src s q v b r,
  directive src s q -> s = Sg \/ s = SG -> q_alt q = true -> is_double J v b -> magnitude b = 0 ->
  prints J src [traitsOf J v r] (cased s (finite_text q (b <? 0) (alt_text 0 (g_prec q - 1)))).
Proof.
  intros J src s q v b r Hd Hs Ha Hv Hm. pose proof (g_prec_pos _ _ _ Hd) as HP.
  apply (conv_prints J src s q v b r _ Hd); [unfold is_float_spec; tauto|exact Hv|]. intros c F Hr <- EF.
  assert (F = fmt_g c) as -> by (destruct Hs as [-> | ->]; cbn in EF; congruence).
  destruct (fmt_g_double c b 0 0 Hr (or_introl (conj Hm (conj eq_refl eq_refl)))) as (u & Eu & Du). exists u. split; [exact Eu|].
  unfold j_g, g_irregular, c_g, g_body in Du. cbv zeta in Du. unfold sig0 in Du. cbn [Z.eqb] in Du. rewrite Ha in Du.
  replace (0 <? g_prec (q_of c)) with true in Du by (symmetry; apply Z.ltb_lt; lia). change (-4 <=? 0) with true in Du. cbn [andb negb] in Du.
  unfold g_text in Du. rewrite Ha, Z.sub_0_r in Du. exact Du.
Qed.
Print Assumptions C32_alternate_zero.

(** C32 is false: six significant digits asked, two printed *)
Theorem C32_alternate_form_refuted :
  exists src q, directive src Sg q /\ q_alt q = true /\ g_prec q = 6 /\
    forall J, prints J src [traitsOf J (VDouble 1) RPrimitive] (txt "4.9e-324").
Proof.
  exists (txt "%#g"), (mkSpec false true false false false 0 None).
  assert (D : directive (txt "%#g") Sg (mkSpec false true false false false 0 None)).
  { change (txt "%#g") with (pct :: txt "#" ++ [] ++ [] ++ [ch "g"]).
    is_dir (dir_text (txt "#") (mkFlags false true false false false) [] UNSET [] UNSET). }
  split; [exact D|]. split; [reflexivity|]. split; [reflexivity|].
  intros J. assert (R : 0 < magnitude 1 < inf_bits) by (vm_compute; split; reflexivity).
  pose proof (printed_by 1 49 (-325) R ltac:(vm_compute; reflexivity)) as P.
  apply (conv_prints J _ Sg _ (VDouble 1) 1 RPrimitive _ D); [unfold is_float_spec; tauto|constructor; vm_compute; split; congruence|].
  intros c F Hr Hq EF. assert (F = fmt_g c) as -> by (cbn in EF; congruence).
  destruct (fmt_g_double c 1 49 (-325) Hr P) as (u & Eu & Du). exists u. split; [exact Eu|]. rewrite Hq in Du. exact Du.
Qed.
Print Assumptions C32_alternate_form_refuted.

(** ** %a *)

Lemma a_dir J src s q v b r t : directive src s q -> s = Sa \/ s = SA -> is_double J v b -> finite b ->
  t = j_a q (b <? 0) (magnitude b) -> prints J src [traitsOf J v r] (cased s t).
Proof.
  intros Hd Hs Hv Hf ->. apply (conv_prints J src s q v b r _ Hd); [unfold is_float_spec; tauto|exact Hv|]. intros c F Hr <- EF.
  assert (F = fmt_a c) as -> by (destruct Hs as [-> | ->]; cbn in EF; congruence).
  destruct (double_view J v b r Hv) as [_ Hb]. unfold in_range in Hb. apply fmt_a_double; [exact Hr|exact Hb|exact Hf].
Qed.

(** [pre] is the sign and "0x" *)
Definition a_text (q : fspec) (neg : bool) (M p x : Z) : list Z :=
  pad_number q (q_zero q) (sign_text q neg ++ txt "0x") (hex_text M p ++ bin_exp_text x).

Lemma magnitude_range b : finite b -> 0 <= magnitude b < inf_bits.
Proof. intros H. split; [apply Z.mod_pos_bound; reflexivity|exact H]. Qed.

(** C33 without a precision: all the digits, without trailing zeros *)
Theorem C33_hexadecimal_exact : forall J src s q v b r,
  directive src s q -> s = Sa \/ s = SA -> is_double J v b -> finite b -> q_prec q = None ->
  exists M k x, 1 <= k <= 13 /\ (k = 1 \/ M mod 16 <> 0) /\ 0 <= M < 2 * 16 ^ k /\
    (inject_Z M * 2 ^ x == dval (magnitude b) * 16 ^ k)%Q /\
    prints J src [traitsOf J v r] (cased s (a_text q (b <? 0) M k x)).
Proof.
  intros J src s q v b r Hd Hs Hv Hf Hp. pose proof (magnitude_range b Hf) as Hb.
  destruct (bin_parts (magnitude b)) as [c x] eqn:Eb. destruct (bin_parts_range _ c x Hb Eb) as (Rc & _).
  pose proof (bin_parts_value (magnitude b) c x ltac:(lia) Eb) as V.
  pose proof (drop_hex_spec 12 c ltac:(lia)) as D1. pose proof (drop_hex_min 12 c) as D2.
  destruct (drop_hex 13 c) as [M k] eqn:Ed. change (Z.of_nat 13) with 13 in D1. destruct D1 as (K & EM & HM).
  exists M, k, x. split; [exact K|]. split; [exact D2|].
  assert (P1 : 0 < 16 ^ (13 - k)) by (apply Z.pow_pos_nonneg; lia).
  assert (P2 : 16 ^ 13 = 16 ^ (13 - k) * 16 ^ k) by (rewrite <- Z.pow_add_r by lia; f_equal; lia).
  split; [|split].
  - split; [exact HM|]. apply (Z.mul_lt_mono_pos_r (16 ^ (13 - k))); [exact P1|]. rewrite <- EM, <- Z.mul_assoc, (Z.mul_comm (16 ^ k)), <- P2. exact (proj2 Rc).
  - assert (Nz : ~ (16 ^ (13 - k) == 0)%Q) by (intro E; pose proof (sixteen_pos (13 - k)); lra).
    apply (Qmult_inj_r _ _ (16 ^ (13 - k))%Q Nz).
    assert (E1 : (inject_Z c == inject_Z M * 16 ^ (13 - k))%Q).
    { rewrite EM, inject_Z_mult. apply Qmult_comp; [reflexivity|]. apply two_16. lia. }
    assert (E2 : (16 ^ 13 == 16 ^ k * 16 ^ (13 - k))%Q) by (rewrite <- sixteen_add; replace (k + (13 - k)) with 13 by lia; reflexivity).
    rewrite E2, E1 in V. transitivity (inject_Z M * 16 ^ (13 - k) * 2 ^ x)%Q; [ring|]. rewrite <- V. ring.
  - apply (a_dir J src s q v b r _ Hd Hs Hv Hf). unfold j_a, a_body, a_text. rewrite Hp, Eb, Ed. reflexivity.
Qed.
Print Assumptions C33_hexadecimal_exact.

(** with a precision (0 counts as 1) *)
Theorem C33_hexadecimal_with_precision : forall J src s q v b r p,
  directive src s q -> s = Sa \/ s = SA -> is_double J v b -> finite b -> q_prec q = Some p ->
  let P := Z.max 1 p in
  exists M x, prints J src [traitsOf J v r] (cased s (a_text q (b <? 0) M P x)) /\
    (magnitude b = 0 -> M = 0 /\ x = 0) /\
    (13 <= p -> (inject_Z M * 2 ^ x == dval (magnitude b) * 16 ^ P)%Q /\ 0 <= M < 2 * 16 ^ P) /\
    (0 < magnitude b -> p < 13 -> hex_nearest (dval (magnitude b)) P M x).
Proof.
  intros J src s q v b r p Hd Hs Hv Hf Hp P. pose proof (magnitude_range b Hf) as Hb.
  assert (HP : 1 <= P /\ p <= P /\ (p < 13 -> P < 13)) by (unfold P; lia).
  destruct (Z.eqb_spec (magnitude b) 0) as [Z0|N0].
  - exists 0, 0. split; [|split; [auto|split; [|intros; exfalso; lia]]].
    + apply (a_dir J src s q v b r _ Hd Hs Hv Hf). unfold j_a, a_body, a_text. rewrite Hp, Z0. reflexivity.
    + intros L. rewrite Z0. split; [assert (E0 : (dval 0 == 0)%Q) by reflexivity; rewrite E0; change (inject_Z 0) with 0%Q; ring|]. assert (0 < 16 ^ P) by (apply Z.pow_pos_nonneg; lia). lia.
  - destruct (hex_digits (magnitude b) P) as [M x] eqn:E. exists M, x. split; [|split; [lia|split]].
    + apply (a_dir J src s q v b r _ Hd Hs Hv Hf). unfold j_a, a_body, a_text. rewrite Hp. fold P. replace (magnitude b =? 0) with false by (symmetry; apply Z.eqb_neq; exact N0).
      rewrite E. reflexivity.
    + intros L. apply (hex_digits_exact (magnitude b) P M x Hb); [lia|exact E].
    + intros L1 L2. apply (hex_digits_nearest (magnitude b) P M x); [lia|lia|exact E].
Qed.
Print Assumptions C33_hexadecimal_with_precision.

(** ** C42 signs *)

Definition starts_with_digit (t : list Z) : Prop := exists d t', t = d :: t' /\ ch "0" <= d <= ch "9".

Lemma starts_app s t : starts_with_digit s -> starts_with_digit (s ++ t).
Proof. intros (d & s' & -> & H). exists d, (s' ++ t). split; [reflexivity|exact H]. Qed.

Lemma starts_numeral b n : 2 <= b -> 0 <= n -> (b <= 10 \/ n < 10 /\ n < b) -> starts_with_digit (numeral b n).
Proof.
  intros Hb Hn H. unfold numeral. pose proof (digits_digits_ok b n Hb Hn) as Ok. pose proof (digits_nonempty b n Hb Hn) as Ne.
  destruct (digits b n) as [|d ds] eqn:E; [exfalso; unfold zlen in Ne; cbn in Ne; lia|]. exists (digit_char d), (map digit_char ds). split; [reflexivity|].
  assert (Hd : 0 <= d < 10).
  { inversion Ok; subst. destruct H as [H|H]; [lia|]. pose proof (digits_unfold b n Hb Hn) as U. rewrite E in U.
    replace (n <? b) with true in U by (symmetry; apply Z.ltb_lt; lia). congruence || (inversion U; subst; lia). }
  unfold digit_char. replace (d <? 10) with true by (symmetry; apply Z.ltb_lt; lia). change (ch "0") with 48. change (ch "9") with 57. lia.
Qed.

Lemma starts_decimal N p : 0 <= N -> 0 <= p -> starts_with_digit (decimal_text N p).
Proof. intros HN Hp. unfold decimal_text. apply starts_app, starts_numeral; [lia| |lia]. apply Z.div_pos; [exact HN|apply Z.pow_pos_nonneg; lia]. Qed.

Lemma starts_alt N p : 0 <= N -> 0 <= p -> starts_with_digit (alt_text N p).
Proof. intros HN Hp. unfold alt_text. apply starts_app, starts_decimal; assumption. Qed.

Lemma starts_short N p : 0 <= N -> 0 <= p -> starts_with_digit (short_text N p).
Proof.
  intros HN Hp. destruct (short_form N p Hp) as (M & r & -> & Hr & E & _). apply starts_decimal; [|lia].
  assert (0 < 10 ^ (p - r)) by (apply Z.pow_pos_nonneg; lia). nia.
Qed.

Lemma hup_nonneg f k : 0 <= f -> 0 <= hup f k.
Proof.
  intros H. unfold hup. destruct (Z.leb_spec k 0).
  - assert (0 < 10 ^ (- k)) by (apply Z.pow_pos_nonneg; lia). nia.
  - assert (P : 0 < 10 ^ k) by (apply Z.pow_pos_nonneg; lia). apply Z.div_pos; [|exact P]. assert (0 <= 10 ^ k / 2) by (apply Z.div_pos; lia). lia.
Qed.

Lemma sig0_nonneg f e P S X : 0 <= f -> 1 <= P -> sig0 f e P = (S, X) -> 0 <= S.
Proof.
  intros Hf HP. unfold sig0. destruct (f =? 0); [intros E; apply pair_eq in E as [<- _]; lia|]. unfold FloatSpec.sig. cbv zeta.
  pose proof (hup_nonneg f (ndigits f - P) Hf). destruct (_ =? 10 ^ P); intros E; apply pair_eq in E as [<- _]; [|lia].
  apply Z.pow_nonneg. lia.
Qed.

Lemma starts_hex M k t : 0 <= k -> 0 <= M < 2 * 16 ^ k -> starts_with_digit (hex_text M k ++ t).
Proof.
  intros Hk HM. unfold hex_text. apply starts_app, starts_app. assert (P : 0 < 16 ^ k) by (apply Z.pow_pos_nonneg; lia). apply starts_numeral; [lia|apply Z.div_pos; lia|].
  right. enough (M / 16 ^ k < 2) by lia. apply Z.div_lt_upper_bound; lia.
Qed.

(** finite values, zeros included: the sign bit decides, and no other sign precedes the digits *)
Theorem C42_sign_of_finite_values : forall J src s q v b r,
  directive src s q -> is_float_spec s -> is_double J v b -> finite b ->
  exists body, starts_with_digit body /\
    prints J src [traitsOf J v r]
      (cased s (pad_number q (q_zero q) (sign_text q (b <? 0) ++ (match s with Sa | SA => txt "0x" | _ => [] end)) body)).
Proof.
  intros J src s q v b r Hd Hs Hv Hf. pose proof (prec_nonneg _ _ _ Hd) as Hp. pose proof (g_prec_pos _ _ _ Hd) as HP.
  assert (A : s = Sa \/ s = SA -> exists body, starts_with_digit body /\
    prints J src [traitsOf J v r] (cased s (pad_number q (q_zero q) (sign_text q (b <? 0) ++ txt "0x") body))).
  { intros Ha. destruct (q_prec q) as [p|] eqn:Ep.
    - destruct (C33_hexadecimal_with_precision J src s q v b r p Hd Ha Hv Hf Ep) as (M & x & Pr & G0 & G1 & G2). set (P := Z.max 1 p) in *.
      exists (hex_text M P ++ bin_exp_text x). split; [|exact Pr]. apply starts_hex; [unfold P; lia|].
      destruct (Z.le_gt_cases 13 p) as [L|L]; [apply G1, L|]. destruct (Z.eq_dec (magnitude b) 0) as [E|E].
      + destruct (G0 E) as [-> _]. assert (0 < 16 ^ P) by (apply Z.pow_pos_nonneg; unfold P; lia). lia.
      + pose proof (magnitude_range b Hf). destruct (G2 ltac:(lia) L) as (x0 & N & _ & _ & _ & _ & B). assert (0 < 16 ^ P) by (apply Z.pow_pos_nonneg; unfold P; lia). lia.
    - destruct (C33_hexadecimal_exact J src s q v b r Hd Ha Hv Hf Ep) as (M & k & x & K & _ & B & _ & Pr).
      exists (hex_text M k ++ bin_exp_text x). split; [|exact Pr]. apply starts_hex; [lia|exact B]. }
  destruct (printed_exists b Hf) as (f & e & Pr).
  assert (F0 : 0 <= f). { destruct Pr as [(_ & -> & _)|[_ D]]; [lia|]. pose proof (proj1 (do_right _ _ _ D)). lia. }
  assert (Other : forall body, starts_with_digit body ->
    (forall c F, rt_ok c -> q_of c = q -> float_conv c s = Some F -> exists u, F (doubleForm b) = Ok u /\ den u (finite_text q (b <? 0) body)) ->
    exists body, starts_with_digit body /\ prints J src [traitsOf J v r] (cased s (pad_number q (q_zero q) (sign_text q (b <? 0) ++ []) body))).
  { intros body St H. exists body. split; [exact St|]. rewrite app_nil_r. apply (conv_prints J src s q v b r _ Hd); [exact Hs|exact Hv|exact H]. }
  assert (Ff : s = Sf \/ s = SF -> exists body, starts_with_digit body /\ prints J src [traitsOf J v r] (cased s (pad_number q (q_zero q) (sign_text q (b <? 0) ++ []) body))).
  { intros Hs'. apply (Other (f_body q f e)).
    - unfold f_body. cbv zeta. pose proof (hup_nonneg f (- (e + prec_or 6 q)) F0). destruct (q_alt q); [apply starts_alt|apply starts_decimal]; assumption.
    - intros c F Hr <- EF. assert (F = fmt_f c) as -> by (destruct Hs' as [-> | ->]; cbn in EF; congruence). apply fmt_f_double; assumption. }
  assert (Fe : s = Se \/ s = SE -> exists body, starts_with_digit body /\ prints J src [traitsOf J v r] (cased s (pad_number q (q_zero q) (sign_text q (b <? 0) ++ []) body))).
  { intros Hs'. apply (Other (e_body q f e)).
    - unfold e_body. cbv zeta. destruct (sig0 f e (prec_or 6 q + 1)) as [S X] eqn:ES. pose proof (sig0_nonneg f e (prec_or 6 q + 1) S X F0 ltac:(lia) ES).
      apply starts_app. destruct (q_alt q); [apply starts_alt|apply starts_decimal]; assumption.
    - intros c F Hr <- EF. assert (F = fmt_e c) as -> by (destruct Hs' as [-> | ->]; cbn in EF; congruence). apply fmt_e_double; assumption. }
  assert (Fg : s = Sg \/ s = SG -> exists body, starts_with_digit body /\ prints J src [traitsOf J v r] (cased s (pad_number q (q_zero q) (sign_text q (b <? 0) ++ []) body))).
  { intros Hs'. apply (Other (if g_irregular q f e then g_unpadded q f e else g_body q f e)).
    - unfold g_irregular, g_unpadded, g_body. cbv zeta. destruct (sig0 f e (g_prec q)) as [S X] eqn:ES. pose proof (sig0_nonneg _ _ _ _ _ F0 HP ES) as HS.
      destruct ((-4 <=? X) && (X <? g_prec q)) eqn:Hx.
      + rewrite andb_false_r. apply andb_prop in Hx as [X1 X2]. apply Z.leb_le in X1. apply Z.ltb_lt in X2. unfold g_text. destruct (q_alt q); [apply starts_alt|apply starts_short]; lia.
      + destruct (q_alt q) eqn:Ha; cbn [andb negb].
        * apply starts_app. destruct (Z.eqb_spec (g_prec q) 1); [apply starts_decimal; lia|].
          assert (1 <= ndigits f) by (unfold ndigits; apply digits_nonempty; lia).
          apply starts_alt; [|lia]. apply Z.div_pos; [exact HS|]. apply Z.pow_pos_nonneg; lia.
        * apply starts_app. unfold g_text. rewrite Ha. apply starts_short; lia.
    - intros c F Hr <- EF. assert (F = fmt_g c) as -> by (destruct Hs' as [-> | ->]; cbn in EF; congruence).
      destruct (fmt_g_double c b f e Hr Pr) as (u & Eu & Du). exists u. split; [exact Eu|]. unfold j_g, c_g in Du. destruct (g_irregular (q_of c) f e); exact Du. }
  destruct Hs as [->|[->|[->|[->|[->|[->|[->| ->]]]]]]]; auto.
Qed.
Print Assumptions C42_sign_of_finite_values.

(** infinities and NaN, the same in the eight conversions *)
Theorem C42_infinity : forall J src s q v b r,
  directive src s q -> is_float_spec s -> is_double J v b -> magnitude b = inf_bits ->
  prints J src [traitsOf J v r] (cased s (justify q ((if b <? 0 then txt "-" else if q_plus q then txt "+" else []) ++ txt "Infinity"))).
Proof.
  intros J src s q v b r Hd Hs Hv Hm. apply (conv_prints J src s q v b r _ Hd Hs Hv). intros c F Hr <- EF.
  rewrite (special_conv c s F b EF ltac:(lia)). destruct (special_den c b Hr ltac:(lia)) as (u & Eu & Du). exists u. split; [exact Eu|].
  rewrite Hm, Z.eqb_refl in Du. exact Du.
Qed.
Print Assumptions C42_infinity.

Theorem C42_nan : forall J src s q v r,
  directive src s q -> is_float_spec s -> is_nan J v ->
  prints J src [traitsOf J v r] (cased s (justify q (txt "NaN"))).
Proof.
  intros J src s q v r Hd Hs Hv. destruct (nan_view J v r Hv) as (b & Ev & Hb).
  apply (form_prints J src s q v r b _ Hd Hs Ev). intros c F Hr <- EF.
  rewrite (special_conv c s F b EF ltac:(lia)). destruct (special_den c b Hr ltac:(lia)) as (u & Eu & Du). exists u. split; [exact Eu|].
  replace (magnitude b =? inf_bits) with false in Du by (symmetry; apply Z.eqb_neq; lia). exact Du.
Qed.
Print Assumptions C42_nan.

(** the space flag asks for a blank in place of the sign; an infinity has none *)
Theorem C42_space_flag_with_infinity_refuted :
  exists src q, directive src Sf q /\ q_space q = true /\ q_plus q = false /\
    forall J, prints J src [traitsOf J (VDouble inf_bits) RPrimitive] (txt "Infinity").
Proof.
  exists (txt "% f"), (mkSpec false false false true false 0 None).
  assert (D : directive (txt "% f") Sf (mkSpec false false false true false 0 None)).
  { change (txt "% f") with (pct :: txt " " ++ [] ++ [] ++ [ch "f"]).
    is_dir (dir_text (txt " ") (mkFlags false false false true false) [] UNSET [] UNSET). }
  split; [exact D|]. split; [reflexivity|]. split; [reflexivity|]. intros J.
  apply (C42_infinity J _ Sf _ (VDouble inf_bits) inf_bits RPrimitive D); [left; reflexivity|constructor; vm_compute; split; congruence|reflexivity].
Qed.
Print Assumptions C42_space_flag_with_infinity_refuted.

(** ** Examples: the hypotheses of the theorems above hold for these arguments *)

Lemma its_by b f e : 0 < magnitude b < inf_bits -> toDecimal (magnitude b) = Ok (NonSpecial false f e) -> its_decimal b f e.
Proof.
  intros R E. destruct (printed_by b f e R E) as [(Z0 & _)|[_ P]]; [exfalso; change (magnitude b = 0) in Z0; lia|]. right. split; [exact R|apply (do_right _ _ _ P)].
Qed.

Example C30_example : prints J0 (txt "%-10.2E") [traitsOf J0 (VDouble 4636772475726725120) RPrimitive] (txt "1.01E+02  ").
Proof.
  assert (D : directive (txt "%-10.2E") SE (mkSpec true false false false false 10 (Some 2))).
  { change (txt "%-10.2E") with (pct :: txt "-" ++ txt "10" ++ txt ".2" ++ [ch "E"]).
    is_dir (dir_text (txt "-") (mkFlags true false false false false) (txt "10") 10 (txt ".2") 2). }
  apply (C30_scientific_notation J0 _ SE _ (VDouble 4636772475726725120) 4636772475726725120 RPrimitive 10050000000000000 (-14) 101 2 D);
    [auto|constructor; vm_compute; split; congruence|apply its_by; vm_compute; [split|]; reflexivity|reflexivity|].
  exists 2, 101. vm_compute. repeat split; congruence.
Qed.

Example C31_example : prints J0 (txt "%g") [traitsOf J0 (VDouble 4636772475726725120) RPrimitive] (txt "100.5").
Proof.
  assert (D : directive (txt "%g") Sg (mkSpec false false false false false 0 None)).
  { change (txt "%g") with (pct :: [] ++ [] ++ [] ++ [ch "g"]). is_dir (dir_text [] (mkFlags false false false false false) [] UNSET [] UNSET). }
  destruct (C31_general_notation J0 _ Sg _ (VDouble 4636772475726725120) 4636772475726725120 RPrimitive 10050000000000000 (-14) 100500 2 D) as (M & k & Pr & Hk & E & Hm);
    [auto|reflexivity|constructor; vm_compute; split; congruence|apply its_by; vm_compute; [split|]; reflexivity|reflexivity| |].
  - exists 2, 100500. vm_compute. repeat split; congruence.
  - change (if (-4 <=? 2) && (2 <? g_prec (mkSpec false false false false false 0 None)) then g_prec (mkSpec false false false false false 0 None) - 1 - 2
      else g_prec (mkSpec false false false false false 0 None) - 1) with 3 in *.
    assert (C : k = 0 \/ k = 1 \/ k = 2 \/ k = 3) by lia.
    destruct C as [->|[->|[->| ->]]]; [change (10 ^ (3 - 0)) with 1000 in E|change (10 ^ (3 - 1)) with 100 in E|change (10 ^ (3 - 2)) with 10 in E|change (10 ^ (3 - 3)) with 1 in E]; try (exfalso; lia).
    + assert (M = 1005) as -> by lia. exact Pr.
    + assert (M = 10050) as -> by lia. destruct Hm as [Hm|Hm]; [lia|]. exfalso. apply Hm. reflexivity.
    + assert (M = 100500) as -> by lia. destruct Hm as [Hm|Hm]; [lia|]. exfalso. apply Hm. reflexivity.
Qed.

Example C32_example : prints J0 (txt "%#g") [traitsOf J0 (VDouble 4636772475726725120) RPrimitive] (txt "100.500").
Proof.
  assert (D : directive (txt "%#g") Sg (mkSpec false true false false false 0 None)).
  { change (txt "%#g") with (pct :: txt "#" ++ [] ++ [] ++ [ch "g"]).
    is_dir (dir_text (txt "#") (mkFlags false true false false false) [] UNSET [] UNSET). }
  apply (C32_alternate_form_positional_partial J0 _ Sg _ (VDouble 4636772475726725120) 4636772475726725120 RPrimitive 10050000000000000 (-14) 100500 2 D);
    [auto|reflexivity|constructor; vm_compute; split; congruence|apply its_by; vm_compute; [split|]; reflexivity|reflexivity| |vm_compute; split; [congruence|reflexivity]].
  exists 2, 100500. vm_compute. repeat split; congruence.
Qed.

Example C42_example : prints J0 (txt "%+.0f") [traitsOf J0 (VDouble (-9223372036854775808)) RPrimitive] (txt "-0").
Proof.
  assert (D : directive (txt "%+.0f") Sf (mkSpec false false true false false 0 (Some 0))).
  { change (txt "%+.0f") with (pct :: txt "+" ++ [] ++ txt ".0" ++ [ch "f"]).
    is_dir (dir_text (txt "+") (mkFlags false false true false false) [] UNSET (txt ".0") 0). }
  apply (C28_fixed_notation J0 _ Sf _ (VDouble (-9223372036854775808)) (-9223372036854775808) RPrimitive 0 0 0 D);
    [auto|constructor; vm_compute; split; congruence|left; split; reflexivity|vm_compute; split; congruence].
Qed.

Example C33_example : prints J0 (txt "%a") [traitsOf J0 (VInt (-3)) RPrimitive] (txt "-0x1.8p+1").
Proof.
  assert (D : directive (txt "%a") Sa (mkSpec false false false false false 0 None)).
  { change (txt "%a") with (pct :: [] ++ [] ++ [] ++ [ch "a"]). is_dir (dir_text [] (mkFlags false false false false false) [] UNSET [] UNSET). }
  apply (a_dir J0 _ Sa _ (VInt (-3)) (-4609434218613702656) RPrimitive (txt "-0x1.8p+1") D); [auto| |reflexivity|reflexivity].
  constructor; [vm_compute; split; congruence|]. change (-4609434218613702656) with (ofLong (-3)). apply ofLong_nearest. lia.
Qed.
