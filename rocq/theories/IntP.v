(** Integer arguments: each wrapper shows the value to the formatter; announced text lengths are exact. *)
From Verif Require Import Base Digits UtilsM SeqM SeqSpec SeqP SeqSubP ContextM CompilerM GrammarSpec CompilerP CompilerP2
  PatternP IntFormM FormatterM FmtSpec FmtP FmtP2 MathM DecimalM FPDecimalM DoubleM BigDecM RoundM TraitsM ImplM ImplP DirSpec
  CastP ReadSpec ReadP.

(** ** One directive *)

Lemma flags_mk fl : mkFlags (f_left fl) (f_alt fl) (f_plus fl) (f_space fl) (f_zero fl) = fl.
Proof. destruct fl; reflexivity. Qed.

Lemma point_is J t : point J t = instantFrom J t.
Proof. reflexivity. Qed.

Lemma commas_is sep l : forall out t, joinArray_loop sep l (out ++ t) = out ++ joinArray_loop sep l t.
Proof. induction l as [|a r IH]; intros out t; cbn [joinArray_loop]; [reflexivity|]. rewrite <- app_assoc. apply IH. Qed.
Lemma object_text_is o : object_text o = objText o.
Proof.
  assert (G : forall l, Ok (txt "[" ++ commas l ++ txt "]") = match l with [] => Ok (txt "[]") | _ => Ok (joinArray (txt "[") (txt ", ") l ++ txt "]") end).
  { intros [|a r]; [reflexivity|]. cbn [joinArray]. f_equal. rewrite commas_is, <- app_assoc. f_equal. f_equal.
    revert a. induction r as [|b r IH]; intros a; [reflexivity|]. change (commas (a :: b :: r)) with (a ++ txt ", " ++ commas (b :: r)).
    cbn [joinArray_loop]. rewrite commas_is, commas_is, IH. reflexivity. }
  destruct o; try reflexivity; apply G.
Qed.

Lemma directive_compile dtf src s q : directive src s q ->
  exists c, compile dtf src = Ok [Default s c] /\ rt_ok c /\ q_of c = q /\
    isPrecedingWidth c = false /\ isPrecedingPrecision c = false /\ c_dtf c = None.
Proof.
  intros H. destruct H as [F fl W w P p c s HF HW Hw HP Hp Hc Hpct].
  exists (mkCtx fl w p None).
  assert (G : GrammarSpec.format dtf (pct :: F ++ W ++ P ++ c :: [] ++ []) (Default s (mkCtx fl w p None) :: [])).
  { apply fmt_dir; try assumption; [|constructor].
    destruct (isDateTimeSpec s) eqn:E.
    - apply D_none; [destruct s; try discriminate; auto|discriminate].
    - apply D_other; intros ->; discriminate. }
  split; [apply compile_iff; exact G|].
  pose proof (width_ok _ _ HW) as Ow. pose proof (prec_ok _ _ HP) as Op.
  assert (Hw1 : w = -1 \/ 1 <= w <= 65536) by (unfold UNSET, PRECEDING in *; tauto).
  assert (Hp1 : p = -1 \/ 0 <= p <= 65536) by (unfold UNSET, PRECEDING in *; tauto).
  split; [|split; [|split; [|split; [|reflexivity]]]].
  - split; unfold UNSET; cbn [c_width c_prec]; [destruct Hw1; [auto|right; left; lia]|tauto].
  - unfold q_of. cbn [c_flags c_width c_prec]. f_equal.
    + unfold UNSET. destruct (w =? -1) eqn:E; bools; lia.
    + unfold UNSET. destruct (p =? -1) eqn:E, (p <? 0) eqn:E2; bools; try reflexivity; lia.
  - unfold isPrecedingWidth. apply Z.eqb_neq. exact Hw.
  - unfold isPrecedingPrecision. apply Z.eqb_neq. exact Hp.
Qed.

Lemma resolve_plain c it : isPrecedingWidth c = false -> isPrecedingPrecision c = false -> resolveCtx c it = Ok (c, it).
Proof. intros A B. unfold resolveCtx. rewrite A. cbn [bind]. rewrite B. reflexivity. Qed.

Lemma prints_wden J src s q x t : directive src s q ->
  (forall c, rt_ok c -> q_of c = q -> c_dtf c = None -> exists u, formatterFor J s c x = Ok u /\ wden u t) ->
  prints J src [x] t.
Proof.
  intros Hd H dtf. destruct (directive_compile dtf _ _ _ Hd) as (c & Ec & Hr & Hq & A & B & D).
  destruct (H c Hr Hq D) as (u & Eu & Du). exists [Default s c]. split; [exact Ec|].
  unfold ImplM.format, formatInto. cbn [run appendOne]. rewrite (resolve_plain _ _ A B). cbn [bind]. rewrite Eu. cbn [bind].
  rewrite (emitSB_wden _ _ _ Du). split; [reflexivity|].
  intros sb target. assert (emits (if sb then emitSB else emitApp)) as He by (destruct sb; [left|right]; reflexivity).
  rewrite (wden_emits _ _ _ _ He Du). reflexivity.
Qed.

Lemma prints_one J src s q x t : directive src s q ->
  (forall c, rt_ok c -> q_of c = q -> exists u, formatterFor J s c x = Ok u /\ den u t) ->
  prints J src [x] t.
Proof.
  intros Hd H. apply (prints_wden J src s q x t Hd). intros c Hr Hq _. destruct (H c Hr Hq) as (u & Eu & Du).
  exists u. split; [exact Eu|apply den_wden; exact Du].
Qed.

Lemma rejects_one J src s q x e : directive src s q ->
  (forall c, rt_ok c -> q_of c = q -> formatterFor J s c x = Err e) ->
  rejects J src [x] e.
Proof.
  intros Hd H dtf. destruct (directive_compile dtf _ _ _ Hd) as (c & Ec & Hr & Hq & A & B & D).
  exists [Default s c]. split; [exact Ec|].
  unfold ImplM.format, formatInto. cbn [run appendOne]. rewrite (resolve_plain _ _ A B). cbn [bind].
  rewrite (H c Hr Hq). cbn [bind]. auto.
Qed.

(** ** Integer views *)

Lemma pow2_8 : 2 ^ 8 = 256. Proof. reflexivity. Qed.
Lemma pow2_16 : 2 ^ 16 = 65536. Proof. reflexivity. Qed.
Lemma pow2_32 : 2 ^ 32 = 4294967296. Proof. reflexivity. Qed.
Lemma pow2_64 : 2 ^ 64 = 18446744073709551616. Proof. reflexivity. Qed.

Lemma in_range_32 z : in_range 32 z <-> is_int z.
Proof. unfold in_range, is_int, int_min, int_max. change (2 ^ (32 - 1)) with 2147483648. lia. Qed.
Lemma in_range_64 z : in_range 64 z <-> is_long z.
Proof. unfold in_range, is_long, long_min, long_max. change (2 ^ (64 - 1)) with 9223372036854775808. lia. Qed.

Lemma dec_abs z : dec_text (Z.abs z) = numeral 10 (Z.abs z).
Proof. apply dec_text_nonneg. lia. Qed.

Lemma small_magnitude n : 0 <= n < 2 ^ 64 -> java_magnitude n.
Proof.
  intros H. split; [lia|]. destruct (Z.eq_dec n 0) as [->|]; [reflexivity|].
  assert (Z.log2 n < 64) by (apply Z.log2_lt_pow2; lia). lia.
Qed.

(** the IntForm of an integer of a given width *)
Definition form_of (w : option Z) (z : Z) : intform :=
  match w with None => bigForm z | Some k => if k =? 8 then byteForm z else if k =? 16 then shortForm z else if k =? 32 then intForm z else longForm z end.
Definition fits (w : option Z) (z : Z) : Prop :=
  match w with None => java_magnitude (Z.abs z) | Some k => (k = 8 \/ k = 16 \/ k = 32 \/ k = 64) /\ in_range k z end.

Lemma chars_string J v s r : chars J v s -> exists n q, traitsOf J v r = charSeqTraits J (Ok s) n q r.
Proof.
  intros H. destruct H as [s|s|q s H]; cbn [traitsOf]; [eauto|eauto|]. rewrite (s_toString_wden q s H). eauto.
Qed.

Lemma bd_bigInteger_is u s : u = 0 \/ s <= 646456992 -> bd_bigInteger (mkBD u s) = bigInteger (bd_toBigInteger (mkBD u s)).
Proof.
  intros H. unfold bd_bigInteger, checkTen, MAX_TEN. cbn [bd_s bd_u]. destruct (Z.eqb_spec u 0) as [E|E]; [reflexivity|]. replace (s <=? 646456992) with true by (symmetry; apply Z.leb_le; lia).
  destruct (0 <? s); reflexivity.
Qed.

Lemma integral_form J v w z r : integral J v w z -> t_asIntForm (traitsOf J v r) = Ok (form_of w z) /\ fits w z.
Proof.
  intros H. destruct H as [z H|z H|z H|z H|z H|c H|b|f b z H1 H2|b z H|u s z H0 H1 H2|v s z H1 H2 H3|v m H|l d i t H]; cbn [traitsOf].
  - split; [reflexivity|split; [auto|exact H]].
  - split; [reflexivity|split; [auto|exact H]].
  - split; [reflexivity|split; [auto|exact H]].
  - split; [reflexivity|split; [auto|exact H]].
  - split; [reflexivity|]. split; [lia|exact H].
  - split; [reflexivity|split; [auto|]]. unfold in_range. change (2 ^ (32 - 1)) with 2147483648. lia.
  - split; [reflexivity|split; [auto|]]. unfold in_range. change (2 ^ (32 - 1)) with 2147483648. destruct b; lia.
  - split; [|split; [auto|apply (narrowed_range truncated 32 b z ltac:(lia) H2)]]. cbn [floatTraits t_asIntForm].
    rewrite (d2i_is (f2d f) z); [reflexivity|]. apply (same_narrowed _ _ _ _ _ H1 H2).
  - split; [|split; [auto|apply (narrowed_range truncated 64 b z ltac:(lia) H)]]. cbn [doubleTraits t_asIntForm].
    rewrite (d2l_is b z H). reflexivity.
  - split; [|split; [lia|exact H2]]. cbn [decTraits t_asIntForm]. rewrite bd_bigInteger_is by exact H0. rewrite (dec_trunc_is u s z H1). unfold bigInteger.
    replace (Z.log2 (Z.abs z) <? 2147483647) with true by (symmetry; apply Z.ltb_lt; exact H2). reflexivity.
  - split; [|split; [auto|exact H3]]. destruct (chars_string J v s r H1) as (n & q & ->). cbn [charSeqTraits t_asIntForm bind].
    assert (E : parseJava (j_digit J) 64 s = Some z) by (apply parseJava_is; auto). rewrite E. reflexivity.
  - destruct H as [m i t H|m t H|t s n E H]; try rewrite point_is in E; (split; [|split; [auto|exact H]]); [reflexivity|reflexivity|].
    cbn [traitsOf temporalTraits t_asIntForm]. rewrite E. cbn [bind]. unfold toEpochMilli. cbn [fst snd].
    unfold in_range in H. change (2 ^ (64 - 1)) with 9223372036854775808 in H.
    replace (long_min <=? s * 1000 + n / 1000000) with true by (symmetry; apply Z.leb_le; unfold long_min; lia).
    replace (s * 1000 + n / 1000000 <=? long_max) with true by (symmetry; apply Z.leb_le; unfold long_max; lia). reflexivity.
  - split; [reflexivity|split; [auto|exact H]].
Qed.

Lemma form_view w z : fits w z -> int_view (form_of w z) z /\ java_magnitude (Z.abs z).
Proof.
  destruct w as [k|]; cbn [fits form_of].
  2: { intros H. split; [|exact H]. split; [reflexivity|]. cbn. rewrite dec_abs. reflexivity. }
  intros [[->|[->|[->| ->]]] H]; unfold in_range in H.
  - change (2 ^ (8 - 1)) with 128 in H. change (8 =? 8) with true. cbv iota. split; [split; [reflexivity|]|]; [cbn; rewrite dec_abs; reflexivity|].
    apply small_magnitude. rewrite pow2_64. lia.
  - change (2 ^ (16 - 1)) with 32768 in H. change (16 =? 8) with false. change (16 =? 16) with true. cbv iota.
    split; [split; [reflexivity|]|]; [cbn; rewrite dec_abs; reflexivity|].
    apply small_magnitude. rewrite pow2_64. lia.
  - change (2 ^ (32 - 1)) with 2147483648 in H. change (32 =? 8) with false. change (32 =? 16) with false. change (32 =? 32) with true. cbv iota.
    split; [split; [reflexivity|]|].
    + cbn [intForm i_dec]. f_equal. unfold int_toDecimalString, int_min.
      destruct (0 <=? z) eqn:E; bools; [rewrite <- (Z.abs_eq z) at 1 by lia; apply dec_abs|].
      destruct (-2147483648 <? z) eqn:E2; bools.
      * rewrite wrap32_id by (unfold is_int, int_min, int_max; lia).
        rewrite <- (Z.abs_neq z) at 1 by lia. apply dec_abs.
      * assert (z = -2147483648) as -> by lia. vm_compute. reflexivity.
    + apply small_magnitude. rewrite pow2_64. lia.
  - change (2 ^ (64 - 1)) with 9223372036854775808 in H. change (64 =? 8) with false. change (64 =? 16) with false. change (64 =? 32) with false. cbv iota.
    split; [split; [reflexivity|]|].
    + cbn [longForm i_dec]. f_equal. unfold long_toDecimalString, long_min.
      destruct (0 <=? z) eqn:E; bools; [rewrite <- (Z.abs_eq z) at 1 by lia; apply dec_abs|].
      destruct (-9223372036854775808 <? z) eqn:E2; bools.
      * rewrite wrap64_id by (unfold is_long, long_min, long_max; lia).
        rewrite <- (Z.abs_neq z) at 1 by lia. apply dec_abs.
      * assert (z = -9223372036854775808) as -> by lia. vm_compute. reflexivity.
    + apply small_magnitude. rewrite pow2_64. lia.
Qed.

Lemma int_view_of J v z r : is_integer J v z ->
  exists f, t_asIntForm (traitsOf J v r) = Ok f /\ int_view f z /\ java_magnitude (Z.abs z).
Proof.
  intros [w H]. destruct (integral_form J v w z r H) as [E F]. destruct (form_view w z F) as [V M]. eauto.
Qed.

Definition getter (s : spec) : option ((intform -> res (list Z)) * Z) :=
  match s with Su => Some (i_udec, 10) | Sx | SX => Some (i_hex, 16) | So => Some (i_oct, 8) | _ => None end.

Lemma sgn_zero z : (Z.sgn z =? 0) = (z =? 0).
Proof. destruct z; reflexivity. Qed.

Lemma zero_mod z m : 0 < m -> - m < z < m -> (z =? 0) = (z mod m =? 0).
Proof.
  intros Hm H. destruct (z =? 0) eqn:E; bools; symmetry.
  - subst. rewrite Z.mod_0_l by lia. reflexivity.
  - apply Z.eqb_neq. intros D. apply Z.mod_divide in D; [|lia]. destruct D as [k D]. subst z. destruct (Z.eq_dec k 0) as [->|Hk]; [lia|]. assert (1 * m <= Z.abs k * m) by (apply Z.mul_le_mono_nonneg_r; lia). assert (Z.abs (k * m) = Z.abs k * m) by (rewrite Z.abs_mul, (Z.abs_eq m) by lia; reflexivity). lia.
Qed.

Lemma land_255 z : Z.land z 255 = z mod 256.
Proof. change 255 with (Z.ones 8). apply Z.land_ones. lia. Qed.
Lemma land_65535 z : Z.land z 65535 = z mod 65536.
Proof. change 65535 with (Z.ones 16). apply Z.land_ones. lia. Qed.

Lemma uform_view w z n s g b : fits w z -> match w with Some k => n = z mod 2 ^ k | None => 0 <= z /\ n = z end ->
  getter s = Some (g, b) -> uint_view (form_of w z) n g b /\ java_magnitude n.
Proof.
  intros H En Hg. destruct w as [k|]; cbn [fits form_of] in *.
  2: { destruct En as [Hz ->]. rewrite Z.abs_eq in H by exact Hz. split; [|exact H]. split.
    - cbn [bigForm i_signum]. apply sgn_zero.
    - assert (E : (Z.sgn z <? 0) = false) by (apply Z.ltb_ge; pose proof (Z.sgn_nonneg z); lia).
      destruct s; try discriminate; injection Hg as <- <-; cbn [bigForm i_udec i_hex i_oct]; unfold ensureNonNegative;
        rewrite E; cbn [bind]; rewrite ?dec_abs, Z.abs_eq by lia; reflexivity. }
  destruct H as [Hk H]. subst n. destruct Hk as [->|[->|[->| ->]]]; unfold in_range in H.
  - change (2 ^ (8 - 1)) with 128 in H. change (8 =? 8) with true. cbv iota. rewrite pow2_8. pose proof (Z.mod_pos_bound z 256 ltac:(lia)).
    split; [split|].
    + cbn [byteForm i_signum]. rewrite sgn_zero. apply zero_mod; lia.
    + rewrite <- land_255. assert (U : uint32 (Z.land z 255) = Z.land z 255)
        by (rewrite land_255; unfold uint32; apply Z.mod_small; rewrite pow2_32; lia).
      destruct s; try discriminate; injection Hg as <- <-; cbn [byteForm i_udec i_hex i_oct]; rewrite U; reflexivity.
    + apply small_magnitude. rewrite pow2_64. lia.
  - change (2 ^ (16 - 1)) with 32768 in H. change (16 =? 8) with false. change (16 =? 16) with true. cbv iota.
    rewrite pow2_16. pose proof (Z.mod_pos_bound z 65536 ltac:(lia)).
    split; [split|].
    + cbn [shortForm i_signum]. rewrite sgn_zero. apply zero_mod; lia.
    + rewrite <- land_65535. assert (U : uint32 (Z.land z 65535) = Z.land z 65535)
        by (rewrite land_65535; unfold uint32; apply Z.mod_small; rewrite pow2_32; lia).
      destruct s; try discriminate; injection Hg as <- <-; cbn [shortForm i_udec i_hex i_oct]; rewrite U; reflexivity.
    + apply small_magnitude. rewrite pow2_64. lia.
  - change (2 ^ (32 - 1)) with 2147483648 in H. change (32 =? 8) with false. change (32 =? 16) with false. change (32 =? 32) with true. cbv iota.
    pose proof (Z.mod_pos_bound z (2 ^ 32) ltac:(lia)).
    split; [split|].
    + cbn [intForm i_signum]. rewrite sgn_zero. apply zero_mod; rewrite pow2_32; lia.
    + destruct s; try discriminate; injection Hg as <- <-; reflexivity.
    + apply small_magnitude. rewrite pow2_64, pow2_32 in *. lia.
  - change (2 ^ (64 - 1)) with 9223372036854775808 in H. change (64 =? 8) with false. change (64 =? 16) with false. change (64 =? 32) with false. cbv iota.
    pose proof (Z.mod_pos_bound z (2 ^ 64) ltac:(lia)).
    split; [split|].
    + cbn [longForm i_signum]. rewrite sgn_zero. apply zero_mod; rewrite pow2_64; lia.
    + destruct s; try discriminate; injection Hg as <- <-; reflexivity.
    + apply small_magnitude. lia.
Qed.

Lemma uint_view_of J v n r s g b : is_unsigned J v n -> getter s = Some (g, b) ->
  exists f, t_asIntForm (traitsOf J v r) = Ok f /\ uint_view f n g b /\ java_magnitude n.
Proof.
  intros (w & z & H & En) Hg. destruct (integral_form J v w z r H) as [E F]. destruct (uform_view w z n s g b F En Hg) as [V M]. eauto.
Qed.

(** a negative number of unbounded size cannot be printed as an unsigned one *)
Lemma negative_rejected J src s q v z r : directive src s q -> (s = Su \/ s = Sx \/ s = SX \/ s = So) -> integral J v None z -> z < 0 ->
  rejects J src [traitsOf J v r] (Printf NegativeUnsigned).
Proof.
  intros Hd Hs Hv Hz. apply (rejects_one J src s q _ _ Hd). intros c Hr Hq.
  assert (E1 : (Z.sgn z =? 0) = false) by (rewrite sgn_zero; apply Z.eqb_neq; lia).
  assert (E2 : (Z.sgn z <? 0) = true) by (apply Z.ltb_lt; destruct z; cbn; lia).
  assert (G : forall get p, (get = i_udec \/ get = i_hex \/ get = i_oct) ->
              formatUnsignedInteger c (bigForm z) get p = Err (Printf NegativeUnsigned)).
  { intros get p Hget. unfold formatUnsignedInteger. cbn [bigForm i_signum]. rewrite E1. cbn [andb].
    destruct Hget as [->|[->| ->]]; cbn [bigForm i_udec i_hex i_oct]; unfold ensureNonNegative; rewrite E2; reflexivity. }
  destruct (integral_form J v None z r Hv) as [T _]. cbn [form_of] in T.
  destruct Hs as [->|[->|[->| ->]]]; cbn [formatterFor]; unfold upperOf, withInt; rewrite T; cbn [bind];
    unfold fmt_u, fmt_x, fmt_o; rewrite G by auto; reflexivity.
Qed.

(** ** Announced lengths (C21) *)

Lemma sizeL_loop n d : 0 <= n <= 9223372036854775808 -> forall fuel i, 1 <= i -> i + Z.of_nat fuel = 19 ->
  (i = 1 \/ 10 ^ (i - 1) <= n) ->
  stringSizeL_loop fuel i (- 10 ^ i) (- n) d = zlen (digits 10 n) + d.
Proof.
  intros Hn. induction fuel as [|f IH]; intros i Hi Hf Hlow.
  - cbn [stringSizeL_loop]. assert (i = 19) as -> by lia. f_equal. symmetry. destruct Hlow as [H|H]; [lia|].
    change (10 ^ (19 - 1)) with (10 ^ 18) in H.
    apply digits_length_unique; change (10 ^ 19) with 10000000000000000000; change (10 ^ (19 - 1)) with (10 ^ 18); lia.
  - cbn [stringSizeL_loop]. destruct (- 10 ^ i <? - n) eqn:E; bools.
    + f_equal. symmetry. destruct (Z.eq_dec i 1) as [->|Hi1].
      * destruct (Z.eq_dec n 0) as [->|]; [reflexivity|]. apply digits_length_unique; change (10 ^ (1 - 1)) with 1; lia.
      * destruct Hlow as [Hlow|Hlow]; [lia|].
        pose proof (Z.pow_pos_nonneg 10 (i - 1) ltac:(lia) ltac:(lia)). apply digits_length_unique; lia.
    + assert (Hp : 10 ^ (i + 1) = 10 * 10 ^ i) by (rewrite Z.add_1_r, Z.pow_succ_r by lia; lia).
      destruct f as [|f'].
      * cbn [stringSizeL_loop]. assert (i = 18) as -> by lia. f_equal. symmetry. apply digits_length_unique; change (10 ^ 19) with 10000000000000000000; change (10 ^ (19 - 1)) with (10 ^ 18); lia.
      * rewrite wrap64_id.
        2: { unfold is_long, long_min, long_max. assert (10 ^ i <= 10 ^ 17) by (apply Z.pow_le_mono_r; lia).
             pose proof (Z.pow_pos_nonneg 10 i ltac:(lia) ltac:(lia)). change (10 ^ 17) with 100000000000000000 in *. lia. }
        replace (10 * - 10 ^ i) with (- 10 ^ (i + 1)) by lia. apply IH; try lia.
        right. replace (i + 1 - 1) with i by lia. lia.
Qed.

Lemma sizeI_loop n d : 0 <= n <= 2147483648 -> forall fuel i, 1 <= i -> i + Z.of_nat fuel = 10 ->
  (i = 1 \/ 10 ^ (i - 1) <= n) ->
  stringSizeI_loop fuel i (- 10 ^ i) (- n) d = zlen (digits 10 n) + d.
Proof.
  intros Hn. induction fuel as [|f IH]; intros i Hi Hf Hlow.
  - cbn [stringSizeI_loop]. assert (i = 10) as -> by lia. f_equal. symmetry. destruct Hlow as [H|H]; [lia|].
    change (10 ^ (10 - 1)) with (10 ^ 9) in H.
    apply digits_length_unique; change (10 ^ 10) with 10000000000; change (10 ^ (10 - 1)) with (10 ^ 9); lia.
  - cbn [stringSizeI_loop]. destruct (- 10 ^ i <? - n) eqn:E; bools.
    + f_equal. symmetry. destruct (Z.eq_dec i 1) as [->|Hi1].
      * destruct (Z.eq_dec n 0) as [->|]; [reflexivity|]. apply digits_length_unique; change (10 ^ (1 - 1)) with 1; lia.
      * destruct Hlow as [Hlow|Hlow]; [lia|].
        pose proof (Z.pow_pos_nonneg 10 (i - 1) ltac:(lia) ltac:(lia)). apply digits_length_unique; lia.
    + assert (Hp : 10 ^ (i + 1) = 10 * 10 ^ i) by (rewrite Z.add_1_r, Z.pow_succ_r by lia; lia).
      destruct f as [|f'].
      * cbn [stringSizeI_loop]. assert (i = 9) as -> by lia. f_equal. symmetry. apply digits_length_unique; change (10 ^ 10) with 10000000000; change (10 ^ (10 - 1)) with (10 ^ 9); lia.
      * rewrite wrap32_id.
        2: { unfold is_int, int_min, int_max. assert (10 ^ i <= 10 ^ 8) by (apply Z.pow_le_mono_r; lia).
             pose proof (Z.pow_pos_nonneg 10 i ltac:(lia) ltac:(lia)). change (10 ^ 8) with 100000000 in *. lia. }
        replace (10 * - 10 ^ i) with (- 10 ^ (i + 1)) by lia. apply IH; try lia.
        right. replace (i + 1 - 1) with i by lia. lia.
Qed.

Lemma zlen_dec_text z : zlen (dec_text z) = zlen (digits 10 (Z.abs z)) + (if z <? 0 then 1 else 0).
Proof.
  unfold dec_text. destruct (z <? 0) eqn:E; bools.
  - rewrite zlen_cons, zlen_numeral, Z.abs_neq by lia. lia.
  - rewrite zlen_numeral, Z.abs_eq by lia. lia.
Qed.

Lemma stringSizeL_spec z : is_long z -> stringSizeL z = zlen (dec_text z).
Proof.
  unfold is_long, long_min, long_max. intros H. rewrite zlen_dec_text. unfold stringSizeL.
  destruct (0 <=? z) eqn:E; bools.
  - rewrite wrap64_id by (unfold is_long, long_min, long_max; lia).
    replace (z <? 0) with false by (symmetry; apply Z.ltb_ge; lia). rewrite Z.abs_eq by lia.
    exact (sizeL_loop z 0 ltac:(lia) 18 1 ltac:(lia) eq_refl ltac:(auto)).
  - replace (z <? 0) with true by (symmetry; apply Z.ltb_lt; lia). rewrite Z.abs_neq by lia.
    pose proof (sizeL_loop (- z) 1 ltac:(lia) 18 1 ltac:(lia) eq_refl ltac:(auto)) as G. rewrite Z.opp_involutive in G. exact G.
Qed.

Lemma stringSizeI_spec z : is_int z -> stringSizeI z = zlen (dec_text z).
Proof.
  unfold is_int, int_min, int_max. intros H. rewrite zlen_dec_text. unfold stringSizeI.
  destruct (0 <=? z) eqn:E; bools.
  - rewrite wrap32_id by (unfold is_int, int_min, int_max; lia).
    replace (z <? 0) with false by (symmetry; apply Z.ltb_ge; lia). rewrite Z.abs_eq by lia.
    exact (sizeI_loop z 0 ltac:(lia) 9 1 ltac:(lia) eq_refl ltac:(auto)).
  - replace (z <? 0) with true by (symmetry; apply Z.ltb_lt; lia). rewrite Z.abs_neq by lia.
    pose proof (sizeI_loop (- z) 1 ltac:(lia) 9 1 ltac:(lia) eq_refl ltac:(auto)) as G. rewrite Z.opp_involutive in G. exact G.
Qed.

(** ** Texts *)

Lemma lazy_den t n : n = zlen t -> zlen t <= int_max -> exists a, lazySeq t n = Ok (Leaf a) /\ den_atom a t.
Proof.
  intros -> H. unfold lazySeq. destruct (s_lazy_den t (fun sb => Ok (sb ++ t)) H ltac:(reflexivity)) as (a & E & D).
  rewrite E. cbn [bind]. eauto.
Qed.

Lemma text_seq J v t r : is_text J v t -> zlen t <= int_max ->
  exists a, t_asSeq (traitsOf J v r) = Ok (Leaf a) /\ den_atom a t.
Proof.
  intros H Hm. assert (W : exists a, Ok (wrapS t) = Ok (Leaf a) /\ den_atom a t)
    by (exists (s_wrap t); split; [reflexivity|apply s_wrap_den; exact Hm]).
  destruct H as [s|s|a t Ha|b|c|z Hz|z Hz|z Hz|z Hz|z|b|b|d|x|o t Ho]; cbn [traitsOf]; try exact W.
  - apply lazy_den; [reflexivity|exact Hm].
  - exists a. split; [reflexivity|exact Ha].
  - apply lazy_den; [apply stringSizeI_spec, in_range_32; exact Hz|exact Hm].
  - apply lazy_den; [apply stringSizeL_spec, in_range_64; exact Hz|exact Hm].
  - assert (t_asSeq (objTraits o r) = seqOfString (objText o)) as -> by (destruct o; reflexivity).
    rewrite <- object_text_is, Ho. exact W.
Qed.

Lemma mod_16_32 a b : a mod 2 ^ 32 = b mod 2 ^ 32 -> a mod 65536 = b mod 65536.
Proof.
  intros G. assert (E : forall x, x mod 65536 = (x mod 2 ^ 32) mod 65536).
  { intros x. change (2 ^ 32) with (65536 * 65536). rewrite Z.rem_mul_r by lia.
    rewrite Z.mul_comm, Z.mod_add by lia. rewrite Z.mod_mod by lia. reflexivity. }
  rewrite (E a), (E b), G. reflexivity.
Qed.

Lemma head_char J v c t r : is_text J v (c :: t) -> zlen (c :: t) <= int_max ->
  (let* q := t_asSeq (traitsOf J v r) in s_charAt q 0) = Ok c.
Proof.
  intros H Hm. destruct (text_seq J v _ r H Hm) as (a & E & D). rewrite E. cbn [bind s_charAt].
  apply (a_charAt_ok a (c :: t)); [exact D|reflexivity].
Qed.

Lemma wrap32_low z w : low_bits 32 z w -> wrap32 z = w.
Proof.
  intros [R E]. rewrite <- (wrap32_id w) by (apply in_range_32; exact R). unfold wrap32. apply wrapN_eqm; [lia|]. congruence.
Qed.

Lemma int_of J v w r : int_value J v w -> t_asInt (traitsOf J v r) = Ok w /\ in_range 32 w.
Proof.
  assert (B : forall z, 0 <= z <= 65535 -> in_range 32 z) by (intros z Hz; apply in_range_32; unfold is_int, int_min, int_max; lia).
  intros H. destruct H as [z H|z H|z H|c H|b|z w H|z w H|f b w H1 H2|b z w H1 H2|u s z w H1 H2|v s w H1 H2 H3|m i t z w H1 H2|m t z w H1 H2|t s n w E H|l d i t H];
    cbn [traitsOf].
  - split; [reflexivity|]. unfold in_range in *. change (2 ^ (8 - 1)) with 128 in H. change (2 ^ (32 - 1)) with 2147483648. lia.
  - split; [reflexivity|]. unfold in_range in *. change (2 ^ (16 - 1)) with 32768 in H. change (2 ^ (32 - 1)) with 2147483648. lia.
  - split; [reflexivity|exact H].
  - split; [reflexivity|apply B; exact H].
  - split; [reflexivity|apply B; destruct b; lia].
  - split; [cbn [longTraits t_asInt]; rewrite (wrap32_low z w H); reflexivity|apply H].
  - split; [cbn [bigTraits t_asInt]; rewrite (wrap32_low z w H); reflexivity|apply H].
  - split; [|apply (narrowed_range rounded 32 b w ltac:(lia) H2)]. cbn [floatTraits t_asInt]. rewrite (roundF_is (f2d f) w); [reflexivity|]. apply (same_narrowed _ _ _ _ _ H1 H2).
  - split; [|apply H2]. cbn [doubleTraits t_asInt]. rewrite (roundD_is b z H1), (wrap32_low z w H2). reflexivity.
  - split; [|apply H2]. cbn [decTraits t_asInt]. rewrite (dec_trunc_is u s z H1), (wrap32_low z w H2). reflexivity.
  - split; [|exact H3]. destruct (chars_string J v s r H1) as (n & q & ->). cbn [charSeqTraits t_asInt bind].
    assert (E : parseJava (j_digit J) 32 s = Some w) by (apply parseJava_is; auto). rewrite E. reflexivity.
  - split; [|apply H2]. cbn [objTraits t_asInt bind]. rewrite (millis_seconds m z H1), (wrap32_low z w H2). reflexivity.
  - split; [|apply H2]. cbn [objTraits t_asInt bind]. rewrite (millis_seconds m z H1), (wrap32_low z w H2). reflexivity.
  - split; [|apply H]. cbn [temporalTraits t_asInt]. rewrite <- point_is, E. cbn [bind fst]. rewrite (wrap32_low s w H). reflexivity.
  - split; [reflexivity|exact H].
Qed.

Lemma char_of J v c r : is_char J v c -> t_asChar (traitsOf J v r) = Ok c.
Proof.
  intros H. destruct H as [v c t H Hm Hq|v w H1 H2 H].
  - assert (B : (1 <=? zlen (c :: t)) = true) by (apply Z.leb_le; rewrite zlen_cons; pose proof (zlen_nonneg t); lia).
    inversion H as [s|s|q s D]; subst v; subst s; cbn [traitsOf charSeqTraits t_asChar].
    + rewrite B. exact (head_char J (VStr (c :: t)) c t r (it_str J _) Hm).
    + rewrite B. exact (head_char J (VChars (c :: t)) c t r (it_chars J _) Hm).
    + specialize (Hq q eq_refl). rewrite (den_len _ _ Hq), B. cbn [bind]. apply (s_charAt_ok q (c :: t) 0 c Hq). reflexivity.
  - destruct (int_of J v w r H) as [E R].
    assert (C : t_asChar (traitsOf J v r) = charOfInt (t_asInt (traitsOf J v r))).
    { destruct H; try reflexivity.
      - cbn. f_equal. symmetry. apply Z.mod_small. lia.
      - exfalso. exact (H1 s H).
      - exfalso. exact (H2 t eq_refl). }
    rewrite C, E. reflexivity.
Qed.

(** ** Every rendering is what the formatter produces *)

Lemma renders_den J s x T c : renders J s x T -> rt_ok c -> exists u, formatterFor J s c x = Ok u /\ den u (T (q_of c)).
Proof.
  intros H Hr. destruct H as [v z r H|v n r H|v n r H|v n r H|v n r H|v t r H Hm|v t r H Hm| | |v x r H]; cbn [formatterFor];
    unfold upperOf, withInt.
  - destruct (int_view_of J v z r H) as (f & Ef & Hf & Hj). rewrite Ef. cbn [bind]. apply fmt_d_full; assumption.
  - destruct (uint_view_of J v n r Su i_udec 10 H eq_refl) as (f & Ef & Hf & Hj). rewrite Ef. cbn [bind]. apply fmt_u_den; assumption.
  - destruct (uint_view_of J v n r Sx i_hex 16 H eq_refl) as (f & Ef & Hf & Hj). rewrite Ef. cbn [bind]. apply fmt_x_full; assumption.
  - destruct (uint_view_of J v n r Sx i_hex 16 H eq_refl) as (f & Ef & Hf & Hj). rewrite Ef. cbn [bind].
    destruct (fmt_x_full c f n Hr Hf Hj) as (u & Eu & Du). rewrite Eu. cbn [bind]. apply s_upper_den. exact Du.
  - destruct (uint_view_of J v n r So i_oct 8 H eq_refl) as (f & Ef & Hf & Hj). rewrite Ef. cbn [bind]. apply fmt_o_full; assumption.
  - destruct (text_seq J v t r H Hm) as (a & E & D). rewrite E. cbn [bind]. apply fmt_s_den; assumption.
  - destruct (text_seq J v t r H Hm) as (a & E & D). rewrite E. cbn [bind].
    destruct (fmt_s_den c a t Hr D) as (u & Eu & Du). rewrite Eu. cbn [bind]. apply s_upper_den. exact Du.
  - cbn [nullTraits t_asSeq bind]. apply fmt_s_den; [assumption|apply s_wrap_den; vm_compute; discriminate].
  - cbn [nullTraits t_asSeq bind].
    destruct (fmt_s_den c (s_wrap (txt "null")) (txt "null") Hr) as (u & Eu & Du); [apply s_wrap_den; vm_compute; discriminate|].
    unfold wrapS. rewrite Eu. cbn [bind]. apply s_upper_den. exact Du.
  - rewrite (char_of J v x r H). cbn [bind]. apply fmt_c_den. exact Hr.
Qed.

Lemma renders_prints J src s q x T : directive src s q -> renders J s x T -> prints J src [x] (T q).
Proof.
  intros Hd H. apply (prints_one J src s q _ _ Hd). intros c Hr <-. apply renders_den; assumption.
Qed.

(** a composite Seq cut by the precision prints the right characters when no width is asked for *)
Lemma s_seq_prints J src q s t r : directive src Ss q -> den s t -> q_width q = 0 ->
  prints J src [traitsOf J (VSeq s) r] (c_s q t).
Proof.
  intros Hd D Hw. apply (prints_wden J src Ss q _ _ Hd). intros c Hr Hq _. cbn [formatterFor traitsOf charSeqTraits t_asSeq bind].
  subst q. assert (J0 : forall x, justify (q_of c) x = x).
  { intros x. apply justify_full. rewrite Hw. apply zlen_nonneg. }
  assert (SJ : forall u, 0 <= s_len u -> spaceJustify c u = Ok u).
  { intros u Hu. unfold spaceJustify. destruct (width_val c Hr) as (_ & _ & _ & W4).
    replace (s_len u <? width c) with false by (symmetry; apply Z.ltb_ge; lia). reflexivity. }
  unfold fmt_s, c_s. rewrite J0, (den_len _ _ D). pose proof (zlen_nonneg t).
  destruct (prec_cases c Hr) as [(P1 & P2 & P3)|(P1 & P2 & P3)]; rewrite P1, P3; cbn [andb bind].
  - exists s. split; [apply SJ; rewrite (den_len _ _ D); lia|apply den_wden; exact D].
  - destruct (c_prec c <? zlen t) eqn:E; bools.
    + destruct (s_sub_spec s t 0 (c_prec c) D) as (u & Eu & Wu & Lu); try lia.
      rewrite Eu. cbn [bind]. exists u. unfold slice in Wu. rewrite Z.sub_0_r in Wu. split; [|exact Wu]. apply SJ.
      destruct Lu as [Lu|(ps & i & l & -> & _)]; [rewrite (den_len _ _ Lu)|cbn [s_len]]; apply zlen_nonneg.
    + cbn [bind]. rewrite firstn_all2 by (unfold zlen in E; lia).
      exists s. split; [apply SJ; rewrite (den_len _ _ D); lia|apply den_wden; exact D].
Qed.

Lemma s_seq_uncut J src q s t r : directive src Ss q -> den s t ->
  (match q_prec q with Some p => zlen t <= p | None => True end) ->
  prints J src [traitsOf J (VSeq s) r] (c_s q t).
Proof.
  intros Hd D Hp. apply (prints_one J src Ss q _ _ Hd). intros c Hr <-. apply fmt_s_seq_den; assumption.
Qed.

(** ** Layout of whole conversions *)

Lemma renders_width J s x T q : renders J s x T -> zlen (T q) = Z.max (q_width q) (zlen (T (no_width q))).
Proof.
  intros H. destruct H; unfold upper; rewrite ?zlen_map.
  - apply j_d_len.
  - eapply field_len, c_u_field.
  - apply j_x_len.
  - apply j_x_len.
  - apply j_o_len.
  - eapply field_len, c_s_field.
  - eapply field_len, c_s_field.
  - eapply field_len, c_s_field.
  - eapply field_len, c_s_field.
  - eapply field_len, c_c_field.
Qed.

Lemma upper_justify q t : upper (justify q t) = justify q (upper t).
Proof.
  unfold upper, justify, spaces. rewrite zlen_map. destruct (q_left q); rewrite map_app, map_rep; reflexivity.
Qed.

Lemma renders_justified J s x T q : renders J s x T -> q_zero q = false -> T q = justify q (T (no_width q)).
Proof.
  intros H Hz. destruct H; rewrite <- ?upper_justify; try (apply f_equal);
    first [apply j_d_justified|apply c_u_justified|apply j_x_justified|apply j_o_justified
          |apply c_s_field|apply c_c_field]; first [exact Hz|reflexivity].
Qed.

(** ** Statements used in PropsInt.v *)

Lemma d_is_C J v z r src q : is_integer J v z -> directive src Sd q ->
  ~ (z = 0 /\ q_prec q = Some 0 /\ q_space q = true /\ q_plus q = false) ->
  prints J src [traitsOf J v r] (c_d q z).
Proof.
  intros Hv Hd Hn. assert (E : c_d q z = j_d q z).
  { unfold j_d. destruct (d_irregular q z) eqn:E; [|reflexivity]. exfalso. apply Hn. unfold d_irregular in E.
    apply andb_prop in E as [E Epl]. apply andb_prop in E as [E Esp]. apply andb_prop in E as [Ev E]. bools.
    destruct (q_prec q) as [[|p|p]|]; try discriminate. auto. }
  rewrite E. apply (renders_prints J src Sd q _ (fun q => j_d q z) Hd). constructor. exact Hv.
Qed.

Lemma d_reads_back J v z r src q : is_integer J v z -> directive src Sd q ->
  exists t, prints J src [traitsOf J v r] t /\ read_int t = z.
Proof.
  intros Hv Hd. exists (j_d q z). split; [|apply read_j_d].
  apply (renders_prints J src Sd q _ (fun q => j_d q z) Hd). constructor. exact Hv.
Qed.

Lemma is_unsigned_nonneg J v n : is_unsigned J v n -> 0 <= n.
Proof.
  intros (w & z & H & E). destruct w as [k|]; [|lia]. subst n.
  destruct (integral_form _ _ _ _ RPrimitive H) as [_ [[->|[->|[->| ->]]] _]]; apply Z.mod_pos_bound; lia.
Qed.

Lemma unsigned_read_back J v n r src q : is_unsigned J v n ->
    (directive src Su q -> exists t, prints J src [traitsOf J v r] t /\ read_uint 10 t = n) /\
    (directive src Sx q -> exists t, prints J src [traitsOf J v r] t /\ read_uint 16 t = n) /\
    (directive src SX q -> exists t, prints J src [traitsOf J v r] t /\ read_uint 16 t = n) /\
    (directive src So q -> exists t, prints J src [traitsOf J v r] t /\ read_uint 8 t = n).
Proof.
  intros Hv. pose proof (is_unsigned_nonneg _ _ _ Hv) as Hn. repeat split; intros Hd; eexists; (split; [eapply renders_prints; [exact Hd|]|]).
  - apply rn_u, Hv.
  - apply read_c_u, Hn.
  - apply rn_x, Hv.
  - apply read_j_x, Hn.
  - apply rn_X, Hv.
  - apply read_j_x, Hn.
  - apply rn_o, Hv.
  - apply read_j_o, Hn.
Qed.

Lemma x_reg q n : (q_alt q = false \/ n <> 0 \/ q_prec q <> None \/ q_zero q = false \/ q_left q = true) -> c_x q n = j_x q n.
Proof.
  intros H. unfold j_x. destruct (x_irregular q n) eqn:E; [|reflexivity]. exfalso. unfold x_irregular, no_prec in E.
  apply andb_prop in E as [E El]. apply andb_prop in E as [E Ez]. apply andb_prop in E as [E Ep]. apply andb_prop in E as [Ea En].
  bools. destruct (q_prec q); [discriminate|]. destruct H as [H|[H|[H|[H|H]]]]; congruence.
Qed.

Lemma o_reg q n : (q_alt q = false \/ n <> 0 \/ (q_prec q = None /\ (q_zero q = false \/ q_left q = true))) -> c_o q n = j_o q n.
Proof.
  intros H. unfold j_o. destruct (o_irregular q n) eqn:E; [|reflexivity]. exfalso. unfold o_irregular, no_prec in E.
  apply andb_prop in E as [E E3]. apply andb_prop in E as [Ea En]. bools.
  destruct H as [H|[H|[H1 H2]]]; try congruence. rewrite H1 in E3. cbn in E3. bools. destruct H2; congruence.
Qed.

Lemma unsigned_is_C J v n r src q : is_unsigned J v n ->
    (directive src Su q -> prints J src [traitsOf J v r] (c_u q n)) /\
    (directive src Sx q -> (q_alt q = false \/ n <> 0 \/ q_prec q <> None \/ q_zero q = false \/ q_left q = true) ->
       prints J src [traitsOf J v r] (c_x q n)) /\
    (directive src SX q -> (q_alt q = false \/ n <> 0 \/ q_prec q <> None \/ q_zero q = false \/ q_left q = true) ->
       prints J src [traitsOf J v r] (upper (c_x q n))) /\
    (directive src So q -> (q_alt q = false \/ n <> 0 \/ (q_prec q = None /\ (q_zero q = false \/ q_left q = true))) ->
       prints J src [traitsOf J v r] (c_o q n)).
Proof.
  intros Hv. split; [|split; [|split]]; intros Hd.
  - apply (renders_prints J src Su q _ (fun q => c_u q n) Hd). constructor; exact Hv.
  - intros H. rewrite (x_reg _ _ H). apply (renders_prints J src Sx q _ (fun q => j_x q n) Hd). constructor; exact Hv.
  - intros H. rewrite (x_reg _ _ H). apply (renders_prints J src SX q _ (fun q => upper (j_x q n)) Hd). constructor; exact Hv.
  - intros H. rewrite (o_reg _ _ H). apply (renders_prints J src So q _ (fun q => j_o q n) Hd). constructor; exact Hv.
Qed.

Lemma string_conversion J v t r src q : is_text J v t -> zlen t <= int_max ->
    (directive src Ss q ->
       prints J src [traitsOf J v r] (justify q (match q_prec q with Some p => firstn (Z.to_nat p) t | None => t end))) /\
    (directive src SS q ->
       prints J src [traitsOf J v r] (upper (justify q (match q_prec q with Some p => firstn (Z.to_nat p) t | None => t end)))).
Proof.
  intros Hv Hm. split; intros Hd.
  - apply (renders_prints J src Ss q _ (fun q => c_s q t) Hd). constructor; assumption.
  - apply (renders_prints J src SS q _ (fun q => upper (c_s q t)) Hd). constructor; assumption.
Qed.

Lemma string_of_null J src q : directive src Ss q -> prints J src [nullTraits] (c_s q (txt "null")).
Proof. intros Hd. apply (renders_prints J src Ss q _ (fun q => c_s q (txt "null")) Hd). constructor. Qed.

Lemma composite_string J src q s t r : directive src Ss q -> den s t ->
    (q_width q = 0 \/ (match q_prec q with Some p => zlen t <= p | None => True end)) ->
    prints J src [traitsOf J (VSeq s) r] (c_s q t).
Proof. intros Hd D [H|H]; [apply s_seq_prints|apply s_seq_uncut]; assumption. Qed.

Lemma directive_s : directive (txt "%s") Ss (mkSpec false false false false false 0 None).
Proof.
  apply (dir_text [] noFlags [] UNSET [] UNSET (ch "s")).
  - split; [constructor|]. split; [intros c []|reflexivity].
  - constructor.
  - discriminate.
  - constructor.
  - discriminate.
  - apply (conv_self Ss).
  - discriminate.
Qed.

Lemma lazy_numbers J v z r dtf : (v = VInt z /\ is_int z) \/ (v = VLong z /\ is_long z) ->
  exists apps, compile dtf (txt "%s") = Ok apps /\ ImplM.format J apps [traitsOf J v r] = Ok (dec_text z) /\
    forall sb target, formatInto J sb apps [traitsOf J v r] target = (target ++ dec_text z, None).
Proof.
  intros H. set (q := mkSpec false false false false false 0 None).
  assert (E : c_s q (dec_text z) = dec_text z) by (unfold c_s; apply justify_full; apply zlen_nonneg).
  assert (L : zlen (dec_text z) <= int_max).
  { destruct H as [[_ H]|[_ H]].
    - rewrite zlen_dec_text. unfold is_int, int_min, int_max in *.
      assert (zlen (digits 10 (Z.abs z)) <= 10) by (apply digits_len_le; try lia; change (10 ^ 10) with 10000000000; lia).
      destruct (z <? 0); lia.
    - rewrite zlen_dec_text. unfold is_long, long_min, long_max, int_max in *.
      assert (zlen (digits 10 (Z.abs z)) <= 19) by (apply digits_len_le; try lia; change (10 ^ 19) with 10000000000000000000; lia).
      destruct (z <? 0); lia. }
  assert (T : is_text J v (dec_text z)).
  { destruct H as [[-> H]|[-> H]]; constructor; [apply in_range_32|apply in_range_64]; exact H. }
  destruct (string_conversion J v (dec_text z) r (txt "%s") q T L) as [P _].
  specialize (P directive_s dtf). unfold c_s in E. rewrite E in P. exact P.
Qed.

Lemma int_zero_prints J v z n r src src0 s q : q_zero q = true -> q_left q = false -> q_prec q = None ->
  directive src s q -> directive src0 s (no_width q) ->
  (s = Sd /\ is_integer J v z) \/ (s = Su /\ is_unsigned J v n) \/
  ((s = Sx \/ s = SX \/ s = So) /\ is_unsigned J v n /\ (q_alt q = false \/ n <> 0)) ->
  exists t t0, prints J src [traitsOf J v r] t /\ prints J src0 [traitsOf J v r] t0 /\ zero_padded q t0 t.
Proof.
  intros Hz Hl Hp D D0 [ [-> H] | [ [-> H] | (Hs & H & Hn) ] ].
  - exists (j_d q z), (j_d (no_width q) z). repeat split; [| |apply int_zero_padded; assumption];
      eapply (renders_prints J _ Sd _ _ (fun q => j_d q z)); eauto; constructor; exact H.
  - exists (c_u q n), (c_u (no_width q) n). repeat split; [| |apply int_zero_padded; assumption];
      eapply (renders_prints J _ Su _ _ (fun q => c_u q n)); eauto; constructor; exact H.
  - destruct Hs as [ -> | [ -> | -> ] ].
    + exists (j_x q n), (j_x (no_width q) n). repeat split; [| |apply int_zero_padded; assumption];
        eapply (renders_prints J _ Sx _ _ (fun q => j_x q n)); eauto; constructor; exact H.
    + exists (upper (j_x q n)), (upper (j_x (no_width q) n)). repeat split; [| |apply zero_padded_upper, int_zero_padded; assumption];
        eapply (renders_prints J _ SX _ _ (fun q => upper (j_x q n))); eauto; constructor; exact H.
    + exists (j_o q n), (j_o (no_width q) n). repeat split; [| |apply int_zero_padded; assumption];
        eapply (renders_prints J _ So _ _ (fun q => j_o q n)); eauto; constructor; exact H.
Qed.

(** shows that a given text is a directive *)
Ltac is_dir t :=
  apply t;
  [ split; [repeat (apply NoDup_nil || apply NoDup_cons); cbn; intuition discriminate|split; [intros ? Hc; cbn in *; intuition|reflexivity]]
   | first [apply W_none | apply W_num; [discriminate|repeat constructor; discriminate|vm_compute; discriminate]]
   | discriminate
   | first [apply P_none | eapply P_num; [repeat constructor; discriminate|vm_compute; discriminate]]
   | discriminate
   | match goal with |- conv_char _ ?s => apply (conv_self s) end
   | discriminate ].

