(** C95: what the number wrappers answer, as their interfaces document it. *)
From Coq Require Import QArith Qabs Qpower Lqa.
From Verif Require Import Base Digits UtilsM SeqM SeqSpec SeqP SeqSubP ContextM IntFormM FormatterM FormM MathM MathP DecimalM FPDecimalM
  DoubleM BigDecM RoundM TraitsM ImplM FmtSpec FmtP FmtP2 DirSpec DecSpec RoundP ShortP SchubP FloatSpec FPDecP FloatP DoubleP HexP FloatQ FloatArgP IntP PropsInt PropsFloat.
Open Scope Z_scope.

(** ** signs (NumberForm.java: "-1, 0, or 1 as the value of this number is negative, zero, or positive") *)

(** [sg] is the sign of [x] *)
Definition sign_of (x : Q) (sg : Z) : Prop := (x < 0)%Q /\ sg = -1 \/ (x == 0)%Q /\ sg = 0 \/ (0 < x)%Q /\ sg = 1.
(** exactly the right one of the three questions is answered yes *)
Definition answers (x : Q) (sg : Z) : Prop :=
  (isNegative sg = true <-> (x < 0)%Q) /\ (isZero sg = true <-> (x == 0)%Q) /\ (isPositive sg = true <-> (0 < x)%Q).

Lemma sign_answers x sg : sign_of x sg -> answers x sg.
Proof.
  intros [[H ->]|[[H ->]|[H ->]]]; unfold answers, isNegative, isZero, isPositive; cbn; (split; [|split]); split; intros A; try discriminate; try reflexivity; try assumption;
    exfalso; lra.
Qed.
Lemma sign_Z z : sign_of (inject_Z z) (Z.sgn z).
Proof. unfold sign_of. change 0%Q with (inject_Z 0). rewrite <- !Zlt_Qlt, inject_Z_injective. destruct z; cbn; lia. Qed.

Theorem C95_signum_integers : forall w z, fits w z -> sign_of (inject_Z z) (i_signum (form_of w z)) /\ answers (inject_Z z) (i_signum (form_of w z)).
Proof.
  intros w z H. destruct (form_view w z H) as ((Es & _) & _). rewrite Es. split; [apply sign_Z|apply sign_answers, sign_Z].
Qed.
Print Assumptions C95_signum_integers.

Lemma sign_scale x y sg : (0 < y)%Q -> sign_of x sg -> sign_of (x * y) sg.
Proof. intros Hy [[H ->]|[[H ->]|[H ->]]]; unfold sign_of; [left|right; left|right; right]; (split; [nra|reflexivity]). Qed.
Theorem C95_signum_decimals : forall d, sign_of (dec (bd_u d) (- bd_s d)) (f_signum (bigDecForm d)) /\ answers (dec (bd_u d) (- bd_s d)) (f_signum (bigDecForm d)) /\
  f_isNaN (bigDecForm d) = false /\ f_isInf (bigDecForm d) = false.
Proof.
  intros d. assert (S : sign_of (dec (bd_u d) (- bd_s d)) (f_signum (bigDecForm d))).
  { unfold dec. apply sign_scale; [apply Qpower_0_lt; reflexivity|]. apply sign_Z. }
  split; [exact S|]. split; [apply sign_answers; exact S|]. split; reflexivity.
Qed.
Print Assumptions C95_signum_decimals.

(** doubles: the pattern of -0.0 is [- 2^63] *)
Lemma dval_sign m : 0 < m < inf_bits -> (0 < dval m)%Q.
Proof. intros H. pose proof (dval_lt 0 m ltac:(lia)) as L. change (dval 0) with (0 * 2 ^ (-1074))%Q in L. rewrite Qmult_0_l in L. exact L. Qed.
Theorem C95_signum_doubles_partial : forall b, - 2 ^ 63 <= b < 2 ^ 63 -> b <> - 2 ^ 63 ->
  (finite b -> sign_of (sval b) (f_signum (doubleForm b)) /\ answers (sval b) (f_signum (doubleForm b)) /\
     f_isNaN (doubleForm b) = false /\ f_isInf (doubleForm b) = false) /\
  (magnitude b = inf_bits -> f_signum (doubleForm b) = (if b <? 0 then -1 else 1) /\ f_isNaN (doubleForm b) = false /\ f_isInf (doubleForm b) = true) /\
  (inf_bits < magnitude b -> f_isNaN (doubleForm b) = true /\ f_isInf (doubleForm b) = false).
Proof.
  intros b Hb Nz. pose proof (mag_range b) as R. cbn [doubleForm f_signum f_isNaN f_isInf]. split; [|split].
  - intros Hf. destruct (finite_tests b Hf) as (T1 & T2 & _). rewrite T1, T2.
    assert (S : sign_of (sval b) (dbl_compare0 b)).
    { unfold dbl_compare0, dbl_isZero, dbl_neg. rewrite T1. change (dbl_mag b) with (magnitude b) in *. unfold finite in Hf. unfold sval.
      destruct (magnitude b =? 0) eqn:E; bools.
      - replace (b <? 0) with false; [right; left; split; [rewrite E; reflexivity|reflexivity]|]. symmetry. apply Z.ltb_ge. unfold magnitude in E. apply Z.mod_divide in E; [|lia]. destruct E as [k E]. nia.
      - pose proof (dval_sign (magnitude b) ltac:(lia)) as D. destruct (b <? 0); unfold sign_of; [left|right; right]; (split; [lra|reflexivity]). }
    split; [exact S|]. split; [apply sign_answers; exact S|]. split; reflexivity.
  - intros E. unfold dbl_compare0, dbl_isNaN, dbl_isInf, dbl_isZero, dbl_bexp, dbl_frac, dbl_neg. change (dbl_mag b) with (magnitude b). rewrite E.
    assert (F : b mod 2 ^ 52 = 0) by (rewrite <- mod_mod_pow; fold (magnitude b); rewrite E; reflexivity). rewrite F. cbn. destruct (b <? 0); auto.
  - intros H. change (dbl_mag b) with (magnitude b) in R. unfold dbl_isNaN, dbl_isInf, dbl_bexp, dbl_frac. change (dbl_mag b) with (magnitude b).
    rewrite <- mod_mod_pow. fold (magnitude b). set (m := magnitude b) in *. clearbody m. unfold inf_bits in H.
    pose proof (Z.mod_pos_bound m (2 ^ 52) ltac:(lia)) as B. pose proof (Z.div_mod m (2 ^ 52) ltac:(lia)) as D.
    assert (E : m / 2 ^ 52 = 2047) by lia. rewrite E. replace (m mod 2 ^ 52 =? 0) with false by (symmetry; apply Z.eqb_neq; lia). auto.
Qed.
Print Assumptions C95_signum_doubles_partial.

(** the wrapper of -0.0, a zero, says it is negative and not zero; NaN, which is neither, says it is positive *)
Theorem C95_signum_refuted : exists z n, (sval z == 0)%Q /\ isNegative (f_signum (doubleForm z)) = true /\ isZero (f_signum (doubleForm z)) = false /\
  f_isNaN (doubleForm n) = true /\ isPositive (f_signum (doubleForm n)) = true.
Proof. exists (- 2 ^ 63), (inf_bits + 2 ^ 51). split; [vm_compute; reflexivity|]. repeat split; vm_compute; reflexivity. Qed.
Print Assumptions C95_signum_refuted.

(** ** texts of integers (IntForm.java) *)

(** the digits of the absolute value, and of the number modulo 2^bits; a negative BigInteger has no unsigned text *)
Theorem C95_integer_texts : forall w z, fits w z ->
  i_dec (form_of w z) = Ok (numeral 10 (Z.abs z)) /\
  (forall s g b, getter s = Some (g, b) ->
     g (form_of w z) = match w with Some k => Ok (numeral b (z mod 2 ^ k)) | None => if z <? 0 then Err (Printf NegativeUnsigned) else Ok (numeral b z) end).
Proof.
  intros w z H. destruct (form_view w z H) as ((_ & Ed) & _). split; [exact Ed|]. intros s g b Hg. destruct w as [k|].
  - exact (uv_get _ _ _ _ (proj1 (uform_view (Some k) z _ s g b H eq_refl Hg))).
  - destruct (z <? 0) eqn:E; bools; [|exact (uv_get _ _ _ _ (proj1 (uform_view None z z s g b H (conj E eq_refl) Hg)))].
    cbn [form_of]. destruct s; try discriminate; injection Hg as <- <-; cbn [bigForm i_udec i_hex i_oct]; unfold ensureNonNegative; replace (Z.sgn z <? 0) with true by (destruct z; try reflexivity; lia); reflexivity.
Qed.
Print Assumptions C95_integer_texts.

(** ** layouts (FloatForm.java) *)

(** decimalLayout(p) of a double: no exponent; the decimal of the double rounded half up to [p] places, with at most [p] of them written *)
Theorem C95_decimal_layout : forall b f e p N, its_decimal b f e -> 0 <= p <= 65536 -> half_up_at (dec f e) p N ->
  exists l M j, f_decimal (doubleForm b) p = Ok l /\ l_exp l = None /\ den (l_mant l) (decimal_text M j) /\ 0 <= j <= p /\ M * 10 ^ (p - j) = N.
Proof.
  intros b f e p N Hi Hp HN. destruct (its_printed b f e Hi) as (f0 & e0 & P & Ed & _ & F0).
  assert (EN : N = hup f0 (- (e0 + p))) by (apply (half_up_unique (dec f0 e0) p); [apply (half_up_eq (dec f e)); assumption|apply hup_half_up; exact F0]).
  destruct (dbl_decimal_text b f0 e0 p P Hp) as (d & E & L & N0 & Hj & EQ). cbn [doubleForm f_decimal]. rewrite E.
  eexists _, (pl_N d), (pl_j d). split; [reflexivity|]. split; [reflexivity|]. split; [cbn [l_mant]; apply seqOfArr_den; rewrite int_max_val; lia|].
  split; [unfold pl_j in *; lia|]. rewrite EN. exact EQ.
Qed.
Print Assumptions C95_decimal_layout.

(** it does not always write all [p] *)
Theorem C95_number_of_digits_refuted : exists b l, finite b /\ f_decimal (doubleForm b) 2 = Ok l /\ den (l_mant l) (txt "12345").
Proof.
  exists 0x40c81c8000000000. eexists. split; [vm_compute; reflexivity|]. split; [vm_compute; reflexivity|]. cbn [l_mant].
  apply (seqOfArr_den (txt "12345")). vm_compute. discriminate.
Qed.
Print Assumptions C95_number_of_digits_refuted.

(** scientificLayout(p) of a double other than 0: one digit, the point if p > 0, at most [p] digits; then the exponent with its sign and at least two digits *)
Theorem C95_scientific_layout : forall b f e p S X, its_decimal b f e -> 0 < magnitude b -> 0 <= p <= 65536 -> sig_half_up (dec f e) (p + 1) S X ->
  exists l x M j, f_scientific (doubleForm b) p = Ok l /\ l_exp l = Some x /\
    den (l_mant l) (if p =? 0 then decimal_text M 0 else alt_text M j) /\ 0 <= j <= p /\ 10 ^ j <= M < 10 ^ (j + 1) /\ M * 10 ^ (p - j) = S /\
    den x (tl (exp_text X)).
Proof.
  intros b f e p S X Hi Hm Hp HS. destruct (its_printed b f e Hi) as (f0 & e0 & P & Ed & Ez & F0). pose proof (its_pos _ _ _ Hi Hm) as Nz.
  assert (ES : sig0 f0 e0 (p + 1) = (S, X)) by (apply (its_sig b f e); try assumption; lia). clear HS.
  cbn [doubleForm f_scientific]. unfold dbl_scientific, dbl_isZero, dbl_abs. change (dbl_mag b) with (magnitude b). replace (magnitude b =? 0) with false by (symmetry; apply Z.eqb_neq; lia).
  destruct P as [(E & _)|(Hb & D)]; [change (dbl_mag b) with (magnitude b) in E; lia|]. change (dbl_mag b) with (magnitude b) in *. destruct D as [Ds _ _ Df De].
  unfold sig0 in ES. replace (f0 =? 0) with false in ES by (symmetry; apply Z.eqb_neq; lia). rewrite Ds. cbn [bind]. unfold scientific. pose proof (ndigits_17 f0 Df) as N17.
  rewrite round_spec by (try assumption; try reflexivity; lia). cbn [bind].
  destruct (rnd_sig f0 e0 (ndigits f0) (p + 1) Df eq_refl ltac:(lia)) as (R1 & R2 & R3 & R4).
  pose proof (rnd_exp f0 e0 (ndigits f0) (p + 1) De N17 eq_refl ltac:(lia)) as Rx. set (d := rnd f0 e0 (ndigits f0) (p + 1)) in *.
  pose proof (ndigits_17 _ R1) as D17. rewrite R2 in D17. rewrite R4 in ES. injection ES as E1 E2.
  rewrite scientificChars_text by (try assumption; lia). cbn [bind layoutOf option_map].
  pose proof (zlen_mant d p R1 R2) as Zm. pose proof (zlen_exp_text (d_n d + d_e d - 1) ltac:(lia)) as Zx. pose proof (exp_text_chars d ltac:(lia) ltac:(lia)) as Ex.
  eexists _, _, (d_f d), (d_n d - 1). split; [reflexivity|]. split; [reflexivity|]. cbn [l_mant l_exp].
  split; [change (if p =? 0 then decimal_text (d_f d) 0 else alt_text (d_f d) (d_n d - 1)) with (mant d p); apply seqOfArr_den; rewrite int_max_val; lia|].
  split; [lia|]. split; [destruct (ndigits_bounds (d_f d) ltac:(lia)) as (_ & B1 & B2); rewrite R2 in B1, B2; replace (d_n d - 1 + 1) with (d_n d) by lia; lia|].
  split; [replace (p - (d_n d - 1)) with (p + 1 - d_n d) by lia; exact E1|]. rewrite <- E2, Ex. cbn [tl]. apply seqOfArr_den. rewrite Ex, zlen_cons in Zx. rewrite int_max_val. lia.
Qed.
Print Assumptions C95_scientific_layout.

(** hexLayout(0), which should have no digit after the point, has all of them (%.0a asks for hexLayout(1) instead) *)
Theorem C95_hex_layout_refuted : exists b l, finite b /\ f_hex (doubleForm b) 0 = Ok l /\ s_toString (l_mant l) = Ok (txt "1.91eb851eb851f").
Proof. exists 0x40091eb851eb851f. eexists. split; [vm_compute; reflexivity|]. split; [vm_compute; reflexivity|]. vm_compute. reflexivity. Qed.
Print Assumptions C95_hex_layout_refuted.

(** hexLayout(p) of a double other than 0, 1 <= p <= 12: the value rounded to [p] hexadecimal digits, ties to even, with at most [p] of them written *)
Theorem C95_hex_layout : forall b p, - 2 ^ 63 <= b < 2 ^ 63 -> 0 < magnitude b < inf_bits -> 1 <= p <= 12 ->
  exists l y G k M x, f_hex (doubleForm b) p = Ok l /\ l_exp l = Some y /\ den (l_mant l) (hex_text G k) /\ den y (tl (bin_exp_text x)) /\
    1 <= k <= p /\ G * 16 ^ (p - k) = M /\ hex_nearest (dval (magnitude b)) p M x.
Proof.
  intros b p Hb Hm Hp. destruct (dbl_hex_rounded b p Hb Hm Hp) as (l & M & x & E & Ed & (m & xs & G & k & -> & D1 & K & _ & EM & D2) & _).
  exists (mkLayout (Leaf m) (Some xs)), xs, G, k, M, x. split; [exact E|]. split; [reflexivity|]. split; [exact D1|]. split; [exact D2|]. split; [exact K|]. split; [symmetry; exact EM|].
  apply hex_digits_nearest; [exact Hm|lia|exact Ed].
Qed.
Print Assumptions C95_hex_layout.

(** hexLayout(p) for p = 0, p >= 13, and of a zero: all digits of the value, without trailing zeros but at least one *)
Theorem C95_hex_layout_exact : forall b p, finite b -> magnitude b = 0 \/ p = 0 \/ 13 <= p ->
  exists l y G k x, f_hex (doubleForm b) p = Ok l /\ l_exp l = Some y /\ den (l_mant l) (hex_text G k) /\ den y (tl (bin_exp_text x)) /\
    1 <= k <= 13 /\ (k = 1 \/ G mod 16 <> 0) /\ (inject_Z G * 2 ^ x == dval (magnitude b) * 16 ^ k)%Q.
Proof.
  intros b p Hf Hp. pose proof (magnitude_range b Hf) as Hb. destruct (finite_tests b Hf) as (_ & _ & T3).
  assert (E : dbl_hex b p = simpleHexLayout b).
  { unfold dbl_hex. rewrite T3. cbn [negb orb]. unfold dbl_isZero. change (dbl_mag b) with (magnitude b). destruct Hp as [-> |[-> |Hp]]; [reflexivity|rewrite orb_true_r; reflexivity|].
    replace (13 <=? p) with true by (symmetry; apply Z.leb_le; lia). rewrite !orb_true_r. reflexivity. }
  destruct (bin_parts (magnitude b)) as [c x] eqn:Eb. destruct (bin_parts_range _ c x Hb Eb) as (Rc & _).
  destruct (simple_layout b c x ltac:(exact Hf) Eb) as (m & xs & Es & Dm & Dx).
  pose proof (bin_parts_value (magnitude b) c x ltac:(lia) Eb) as V.
  pose proof (drop_hex_spec 12 c ltac:(lia)) as D1. pose proof (drop_hex_min 12 c) as D2. unfold hex_mant in Dm.
  destruct (drop_hex 13 c) as [G k] eqn:Ed. change (Z.of_nat 13) with 13 in D1. destruct D1 as (K & EM & HM).
  exists (mkLayout (Leaf m) (Some xs)), xs, G, k, x. cbn [doubleForm f_hex]. rewrite E. split; [exact Es|]. split; [reflexivity|]. split; [exact Dm|]. split; [exact Dx|].
  split; [exact K|]. split; [exact D2|].
  assert (Nz : ~ (16 ^ (13 - k) == 0)%Q) by (intro E0; pose proof (sixteen_pos (13 - k)); lra).
  apply (Qmult_inj_r _ _ (16 ^ (13 - k))%Q Nz).
  assert (E1 : (inject_Z c == inject_Z G * 16 ^ (13 - k))%Q).
  { rewrite EM, inject_Z_mult. apply Qmult_comp; [reflexivity|]. apply two_16. lia. }
  assert (E2 : (16 ^ 13 == 16 ^ k * 16 ^ (13 - k))%Q) by (rewrite <- sixteen_add; replace (k + (13 - k)) with 13 by lia; reflexivity).
  rewrite E2, E1 in V. transitivity (inject_Z G * 16 ^ (13 - k) * 2 ^ x)%Q; [ring|]. rewrite <- V. ring.
Qed.
Print Assumptions C95_hex_layout_exact.

Example C95_example :
  answers (inject_Z (-5)) (i_signum (form_of (Some 8) (-5))) /\ i_hex (form_of (Some 8) (-5)) = Ok (txt "fb") /\
  f_signum (bigDecForm (mkBD (-123) 2)) = -1 /\ f_signum (doubleForm (- 1)) = 1 /\
  (let* l := f_scientific (doubleForm 0x40c81c8000000000) 3 in s_toString (l_mant l)) = Ok (txt "1.235") /\
  (let* l := f_scientific (doubleForm 0x3ff0000000000000) 3 in s_toString (l_mant l)) = Ok (txt "1.").
Proof. split; [apply sign_answers; left; split; reflexivity|]. repeat split; vm_compute; reflexivity. Qed.

(** the layouts of a double are those of FormattedFPDecimal.valueOf (DoubleWrapper.java:57-81); zero has its own for e and g, and valueOf has no other forms *)
Theorem C95_forms : forall b prec,
  dbl_decimal b prec = layoutOf (fp_valueOf (dbl_abs b) prec (ch "f")) /\
  (dbl_isZero b = false -> dbl_scientific b prec = layoutOf (fp_valueOf (dbl_abs b) prec (ch "e")) /\ dbl_general b prec = layoutOf (fp_valueOf (dbl_abs b) prec (ch "g"))) /\
  forall form d, ~ In form (txt "efg") -> FPDecimalM.split (dbl_abs b) = Ok d -> fp_valueOf (dbl_abs b) prec form = Err IllegalArg.
Proof.
  intros b prec. split; [reflexivity|]. split.
  - intros Z0. unfold dbl_scientific, dbl_general. rewrite Z0. split; reflexivity.
  - intros form d H E. unfold fp_valueOf. rewrite E. cbn [bind].
    destruct (Z.eqb_spec form (ch "e")) as [->|_]; [destruct H; cbn; auto|]. destruct (Z.eqb_spec form (ch "f")) as [->|_]; [destruct H; cbn; auto|].
    destruct (Z.eqb_spec form (ch "g")) as [->|_]; [destruct H; cbn; auto|]. reflexivity.
Qed.
Print Assumptions C95_forms.
Example C95_forms_example : fp_valueOf 0x3ff8000000000000 2 (ch "f") = Ok (txt "1.50", None) /\ fp_valueOf 0x3ff8000000000000 2 (ch "a") = Err IllegalArg.
Proof. split; vm_compute; reflexivity. Qed.
