(** Every Java value has an integer, int, character, floating-point and date view, or is rejected; no conversion fails otherwise. *)
From Coq Require Import QArith Qabs Qpower Lqa.
From Verif Require Import Base Digits UtilsM SeqM SeqSpec SeqP SeqSubP ContextM CompilerM GrammarSpec CompilerP CompilerP2 PatternP
  IntFormM FormatterM FmtSpec FmtP FmtP2 MathM MathP DecimalM FPDecimalM DoubleM BigDecM RoundM TraitsM ImplM ImplP DecSpec RoundP ShortP
  FloatSpec DirSpec CastP IntP LoopSpec LoopP NearP FloatArgP PropsFloat BigSpec BigDecP BigGenP PropsBig WidthP BigFixP ValueSpec.
Open Scope Z_scope.

(** ** Views exist *)

Lemma narrowed_exists (R : Q -> Z -> Prop) (f : Z -> Z) bits b : (forall b, R (sval b) (f b)) -> exists z, narrowed R bits b z.
Proof.
  intros H. destruct (Z.lt_trichotomy (magnitude b) inf_bits) as [L|[L|L]].
  - exists (saturated bits (f b)). apply nw_finite; [exact L|apply H].
  - eexists. apply nw_inf. exact L.
  - exists 0. apply nw_nan. exact L.
Qed.

Lemma same_value_exists f : in_range 32 f -> exists b, same_value f b.
Proof.
  intros R. exists (f2d f). destruct (Z.lt_trichotomy (f mod 2 ^ 31) (255 * 2 ^ 23)) as [L|[L|L]].
  - apply sv_finite, f2d_widens, L.
  - apply sv_inf; [exact R|exact L|apply float_inf, L].
  - apply sv_nan; [exact R|exact L|apply float_nan, L].
Qed.

Lemma low_bits_wrap bits z : 0 < bits -> low_bits bits z (wrapN bits z).
Proof. intros H. split; [apply wrapN_range; exact H|apply wrapN_mod; exact H]. Qed.

Lemma millis_trunc m : truncated (inject_Z m / 1000) (Z.quot m 1000).
Proof. apply truncated_quot; [lia|]. change (inject_Z 1000) with 1000%Q. field. Qed.

Lemma text_or_not dig bits s : (exists z, DirSpec.integer_text dig s z /\ in_range bits z) \/ (forall z, DirSpec.integer_text dig s z -> ~ in_range bits z).
Proof.
  destruct (parseJava dig bits s) as [z|] eqn:E.
  - left. exists z. apply parseJava_is. exact E.
  - right. intros z H1 H2. assert (parseJava dig bits s = Some z) by (apply parseJava_is; auto). congruence.
Qed.

Lemma in_range_dec bits z : {in_range bits z} + {~ in_range bits z}.
Proof.
  unfold in_range. destruct (Z_le_dec (- 2 ^ (bits - 1)) z); [|right; lia]. destruct (Z_lt_dec z (2 ^ (bits - 1))); [left; lia|right; lia].
Qed.

Lemma instant_ok J t s n : jdk_ok J -> java_value (VTemporal t) -> point J t = Some (s, n) -> in_range 64 s /\ 0 <= n < 1000000000.
Proof.
  intros HJ Hv E. destruct t; cbn [point] in E; try (apply (ok_instant J HJ _ _ _ E)). injection E as ->. exact Hv.
Qed.

Lemma foreign_case {A} (P : A -> Prop) (r : res A) : foreign P r -> (exists x, r = Ok x /\ P x) \/ exists n, r = Err (OtherExn n).
Proof. destruct r as [x|e]; intros H; [left; eauto|right]. destruct H as [n ->]. eauto. Qed.

Lemma foreign_err {A} (P : A -> Prop) e : foreign P (Err e) -> exists n, e = OtherExn n.
Proof. exact (fun H => H). Qed.

Lemma fails_foreign o e : java_value (VObj o) -> fails_long o e \/ fails_int o e \/ fails_double o e \/ fails_instant o e -> exists n, e = OtherExn n.
Proof.
  intros [_ H]. destruct o as [l d i t|m i t|m t|s|s|l|l|t]; cbn [fails_long fails_int fails_double fails_instant]; try tauto.
  - destruct H as (H1 & H2 & H3). intros [->|[->|[->| ->]]]; eapply foreign_err; eassumption.
  - destruct H as (H1 & H2). intros [->|[->|[->| ->]]]; eapply foreign_err; eassumption.
  - intros [->|[->|[->| ->]]]; eapply foreign_err; eassumption.
Qed.

Lemma integer_or_not J v : java_value v -> (exists w z, integral J v w z) \/ (exists e, not_integer J v e).
Proof.
  assert (C : forall s, chars J v s -> (exists w z, integral J v w z) \/ (exists e, not_integer J v e)).
  { intros s H. destruct (text_or_not (j_digit J) 64 s) as [(z & H1 & H2)|H1].
    - left. exists (Some 64), z. apply (ii_chars J v s); assumption.
    - right. eexists. apply (ni_chars J v s); assumption. }
  destruct v as [b|c|z|z|z|z|f|b|s|q|s|z|[u s]|t|o]; cbn [java_value]; intros H.
  - left. eexists _, _. apply ii_bool.
  - left. eexists _, _. apply ii_char. exact H.
  - left. eexists _, _. apply ii_byte. exact H.
  - left. eexists _, _. apply ii_short. exact H.
  - left. eexists _, _. apply ii_int. exact H.
  - left. eexists _, _. apply ii_long. exact H.
  - left. destruct (same_value_exists f H) as [b Hb]. destruct (narrowed_exists truncated dbl_trunc 32 b dbl_trunc_spec) as [z Hz].
    exists (Some 32), z. apply (ii_float J f b); assumption.
  - left. destruct (narrowed_exists truncated dbl_trunc 64 b dbl_trunc_spec) as [z Hz]. exists (Some 64), z. apply ii_double; assumption.
  - apply (C s). constructor.
  - destruct H as [t H]. apply (C t). constructor. apply den_wden, H.
  - apply (C s). constructor.
  - left. eexists _, _. apply ii_big. exact H.
  - assert (K : (u = 0 \/ s <= 646456992) \/ (u <> 0 /\ 646456992 < s)) by lia. destruct K as [K|[K1 K2]]; [|right; eexists; apply ni_tiny; assumption]. pose proof (dec_trunc u s) as T. destruct (Z_lt_ge_dec (Z.log2 (Z.abs (bd_toBigInteger (mkBD u s)))) 2147483647) as [L|L].
    + left. eexists _, _. apply ii_dec; [exact K|exact T|exact L].
    + right. eexists. apply (ni_huge J u s _ T). lia.
  - destruct (point J t) as [[s n]|] eqn:E.
    + destruct (in_range_dec 64 (s * 1000 + n / 1000000)) as [R|R].
      * left. eexists _, _. apply ii_millis, (ms_temporal J t s n E R).
      * right. eexists. apply (ni_far J t s n E R).
    + right. eexists. apply (ni_temporal J t E).
  - destruct H as [_ H]. destruct o as [l d i t|m i t|m t|s|s|l|l|t]; try solve [right; eexists; apply ni_object; intros []].
    + destruct H as [H _]. destruct (foreign_case _ _ H) as [(x & -> & Hx)|(n & ->)]; [left|right; eexists; apply ni_fails; reflexivity].
      eexists _, _. apply ii_number. exact Hx.
    + destruct H as [H _]. destruct (foreign_case _ _ H) as [(x & -> & Hx)|(n & ->)]; [left|right; eexists; apply ni_fails; reflexivity].
      eexists _, _. apply ii_millis, ms_date. exact Hx.
    + destruct (foreign_case _ _ H) as [(x & -> & Hx)|(n & ->)]; [left|right; eexists; apply ni_fails; reflexivity].
      eexists _, _. apply ii_millis, ms_calendar. exact Hx.
Qed.

Lemma int_or_not J v : java_value v -> (exists w, int_value J v w) \/ not_int J v \/ (exists o e, v = VObj o /\ fails_int o e).
Proof.
  assert (C : forall s, chars J v s -> (exists w, int_value J v w) \/ not_int J v \/ (exists o e, v = VObj o /\ fails_int o e)).
  { intros s H. destruct (text_or_not (j_digit J) 32 s) as [(z & H1 & H2)|H1].
    - left. exists z. apply (iv_chars J v s); assumption.
    - right. left. apply (nt_chars J v s); assumption. }
  assert (L : forall z, low_bits 32 z (wrap32 z)) by (intros z; apply low_bits_wrap; lia).
  destruct v as [b|c|z|z|z|z|f|b|s|q|s|z|[u s]|t|o]; cbn [java_value]; intros H.
  - left. eexists. apply iv_bool.
  - left. eexists. apply iv_char. exact H.
  - left. eexists. apply iv_byte. exact H.
  - left. eexists. apply iv_short. exact H.
  - left. eexists. apply iv_int. exact H.
  - left. eexists. apply iv_long. apply L.
  - left. destruct (same_value_exists f H) as [b Hb]. destruct (narrowed_exists rounded dbl_floorHalf 32 b dbl_floorHalf_spec) as [z Hz].
    exists z. apply (iv_float J f b); assumption.
  - left. destruct (narrowed_exists rounded dbl_floorHalf 64 b dbl_floorHalf_spec) as [z Hz]. eexists. apply (iv_double J b z); [exact Hz|apply L].
  - apply (C s). constructor.
  - destruct H as [t H]. apply (C t). constructor. apply den_wden, H.
  - apply (C s). constructor.
  - left. eexists. apply iv_big. apply L.
  - left. eexists. apply (iv_dec J u s _ _ (dec_trunc u s)). apply L.
  - destruct (point J t) as [[s n]|] eqn:E.
    + left. eexists. apply (iv_temporal J t s n _ E). apply L.
    + right. left. apply (nt_temporal J t E).
  - destruct H as [_ H]. destruct o as [l d i t|m i t|m t|s|s|l|l|t]; try solve [right; left; apply nt_object; intros []].
    + destruct H as (_ & _ & H). destruct (foreign_case _ _ H) as [(x & -> & Hx)|(n & ->)]; [left|right; right; eexists _, _; split; reflexivity].
      eexists. apply iv_number. exact Hx.
    + destruct m as [m|e]; [left|right; right; eexists _, _; split; reflexivity]. eexists. apply (iv_date J m i t _ _ (millis_trunc m)). apply L.
    + destruct m as [m|e]; [left|right; right; eexists _, _; split; reflexivity]. eexists. apply (iv_calendar J m t _ _ (millis_trunc m)). apply L.
Qed.

Lemma char_or_not J v : java_value v -> (exists c, is_char J v c) \/ not_char J v \/ (exists o e, v = VObj o /\ fails_int o e).
Proof.
  intros H. assert (N : forall s, chars J v s -> zlen s <= int_max -> (forall q, v = VSeq q -> den q s) -> (exists c, is_char J v c) \/ not_char J v \/ (exists o e, v = VObj o /\ fails_int o e)).
  { intros s C M D. destruct s as [|c s]; [right; left; apply nc_empty, C|]. left. exists c. apply (ic_first J v c s C M D). }
  assert (I : (forall s, ~ chars J v s) -> (forall t, v <> VTemporal t) -> ((exists w, int_value J v w) \/ not_int J v \/ (exists o e, v = VObj o /\ fails_int o e)) ->
    (exists c, is_char J v c) \/ not_char J v \/ (exists o e, v = VObj o /\ fails_int o e)).
  { intros C T [[w W]|[W|W]]; [left; eexists; apply (ic_int J v w C T W)|right; left|auto]. destruct W as [v s W _|t W|o W]; [exfalso; eapply C, W|exfalso; eapply T; reflexivity|].
    apply nc_object, W. }
  pose proof (int_or_not J v H) as IN.
  destruct v as [b|c|z|z|z|z|f|b|s|q|s|z|[u s]|t|o]; cbn [java_value] in H; try solve [apply I; [intros ? X; inversion X; fail|intros ? X; inversion X|exact IN]].
  - apply (N s); [constructor|exact H|discriminate].
  - destruct H as [t H]. apply (N t); [constructor; apply den_wden, H|apply (den_max _ _ H)|intros q' E; injection E as <-; exact H].
  - apply (N s); [constructor|exact H|discriminate].
  - right. left. apply nc_temporal.
Qed.

Lemma long_nearest z : in_range 64 z -> exists b, nearest_double (inject_Z z) b.
Proof. intros H. unfold in_range in H. change (2 ^ (64 - 1)) with (2 ^ 63) in H. exists (ofLong z). apply ofLong_nearest. lia. Qed.

Lemma millis_nearest m : in_range 64 m -> exists a b, nearest_double (inject_Z m) a /\ nearest_double (sval a / 1000) b.
Proof.
  intros H. unfold in_range in H. change (2 ^ (64 - 1)) with (2 ^ 63) in H. exists (ofLong m), (dbl_div (ofLong m) (ofLong 1000)).
  split; [apply ofLong_nearest; lia|]. destruct (ofLong_moderate m 1000 ltac:(lia) ltac:(lia)) as [M _].
  apply (dbl_div_nearest (ofLong m) (ofLong 1000) 1000 num_1000 ltac:(lia) M).
Qed.

Lemma in_range_weaken a b z : 1 <= a <= b -> in_range a z -> in_range b z.
Proof. unfold in_range. intros H R. pose proof (Z.pow_le_mono_r 2 (a - 1) (b - 1) ltac:(lia) ltac:(lia)). lia. Qed.

Lemma instant_nearest s n : in_range 64 s -> 0 <= n < 1000000000 ->
  exists a c d b, nearest_double (inject_Z s) a /\ nearest_double (inject_Z n) c /\ nearest_double (sval c / 1000000000) d /\ nearest_double (sval a + sval d) b.
Proof.
  intros Hs Hn. unfold in_range in Hs. change (2 ^ (64 - 1)) with (2 ^ 63) in Hs.
  destruct (ofLong_moderate n 1000000000 ltac:(lia) ltac:(lia)) as [M U].
  destruct (dbl_div_nearest (ofLong n) (ofLong 1000000000) 1000000000 num_nano ltac:(lia) M) as (N & _ & S).
  exists (ofLong s), (ofLong n), (dbl_div (ofLong n) (ofLong 1000000000)), (dbl_add (ofLong s) (dbl_div (ofLong n) (ofLong 1000000000))).
  split; [apply ofLong_nearest; lia|]. split; [apply ofLong_nearest; lia|]. split; [exact N|]. apply dbl_add_nearest.
  destruct (ofLong_moderate s 1 ltac:(lia) ltac:(lia)) as [_ Us].
  apply Qle_lt_trans with (Qabs (sval (ofLong s)) + Qabs (sval (dbl_div (ofLong n) (ofLong 1000000000))))%Q; [apply Qabs_triangle|].
  assert (E1 : (sval (ofLong s) / inject_Z 1 == sval (ofLong s))%Q) by (change (inject_Z 1) with (1 # 1); field). rewrite E1 in Us.
  apply Qle_lt_trans with (2 ^ 64 + 2 * 2 ^ 64)%Q; [|vm_compute; reflexivity].
  apply Qplus_le_compat; [exact Us|]. apply Qle_trans with (1 := S). apply Qmult_le_l; [reflexivity|exact U].
Qed.

Lemma float_or_not J v : jdk_ok J -> java_value v ->
  (exists b, is_double J v b) \/ is_nan J v \/ (exists u s, is_decimal v u s) \/ not_float J v \/ (exists o e, v = VObj o /\ fails_double o e).
Proof.
  intros HJ H. assert (C : forall s, chars J v s -> (exists b, is_double J v b) \/ not_float J v).
  { intros s C. destruct (j_parseDouble J s) as [b|] eqn:E.
    - left. exists b. apply (id_chars J v s b C E (ok_parse J HJ _ _ E)).
    - right. apply (nf_chars J v s C E). }
  assert (W : forall k z, 1 <= k <= 64 -> in_range k z -> exists b, nearest_double (inject_Z z) b).
  { intros k z Hk R. apply long_nearest, (in_range_weaken k 64); [lia|exact R]. }
  destruct v as [b|c|z|z|z|z|f|b|s|q|s|z|[u s]|t|o]; cbn [java_value] in H.
  - left. destruct (W 32 (if b then 1 else 0) ltac:(lia)) as [x X]; [destruct b; split; vm_compute; congruence|]. exists x. apply id_bool. exact X.
  - left. destruct (W 32 c ltac:(lia)) as [x X]; [unfold in_range; change (2 ^ (32 - 1)) with 2147483648; lia|]. exists x. apply id_char; assumption.
  - left. destruct (W 8 z ltac:(lia) H) as [x X]. exists x. apply id_byte; assumption.
  - left. destruct (W 16 z ltac:(lia) H) as [x X]. exists x. apply id_short; assumption.
  - left. destruct (W 32 z ltac:(lia) H) as [x X]. exists x. apply id_int; assumption.
  - left. destruct (W 64 z ltac:(lia) H) as [x X]. exists x. apply id_long; assumption.
  - destruct (Z.lt_trichotomy (f mod 2 ^ 31) (255 * 2 ^ 23)) as [L|[L|L]].
    + left. exists (f2d f). apply id_float, f2d_widens, L.
    + left. eexists. apply id_float_inf, L.
    + right. left. apply in_float; assumption.
  - left. exists b. apply id_double, H.
  - destruct (C s (cs_str J s)); auto.
  - destruct H as [t H]. destruct (C t (cs_seq J q t (den_wden _ _ H))); auto.
  - destruct (C s (cs_chars J s)); auto.
  - right. right. left. exists z, 0. constructor. split; [exact H|lia].
  - right. right. left. exists u, s. constructor. exact H.
  - destruct (point J t) as [[s n]|] eqn:E.
    + left. destruct (instant_ok J t s n HJ H E) as [R1 R2]. destruct (instant_nearest s n R1 R2) as (a & c & d & b & N1 & N2 & N3 & N4).
      exists b. apply (id_temporal J t s n a c d b); assumption.
    + right. right. right. left. apply (nf_temporal J t E).
  - destruct H as [_ H]. destruct o as [l d i t|m i t|m t|s|s|l|l|t]; try solve [right; right; right; left; apply nf_object; intros []].
    + destruct H as (_ & H & _). destruct (foreign_case _ _ H) as [(x & -> & Hx)|(n & ->)]; [left|right; right; right; right; eexists _, _; split; reflexivity].
      exists x. apply id_number. exact Hx.
    + destruct H as [H _]. destruct (foreign_case _ _ H) as [(x & -> & Hx)|(n & ->)]; [left|right; right; right; right; eexists _, _; split; reflexivity].
      destruct (millis_nearest x Hx) as (a & b & N1 & N2). exists b. apply (id_date J x i t a b); assumption.
    + destruct (foreign_case _ _ H) as [(x & -> & Hx)|(n & ->)]; [left|right; right; right; right; eexists _, _; split; reflexivity].
      destruct (millis_nearest x Hx) as (a & b & N1 & N2). exists b. apply (id_calendar J x t a b); assumption.
Qed.

Lemma at_millis_exists m : at_millis m (ofEpochMilli m).
Proof.
  unfold at_millis, ofEpochMilli. cbn [fst snd]. pose proof (Z.div_mod m 1000 ltac:(lia)). pose proof (Z.mod_pos_bound m 1000 ltac:(lia)). lia.
Qed.
Lemma at_millis_unique m i : at_millis m i -> i = ofEpochMilli m.
Proof.
  destruct i as [s n]. unfold at_millis, ofEpochMilli. cbn [fst snd]. intros [H R].
  assert (E : m / 1000 = s) by (symmetry; apply (Z.div_unique_pos m 1000 s (m - 1000 * s)); lia).
  pose proof (Z.div_mod m 1000 ltac:(lia)). f_equal; lia.
Qed.
Lemma at_number_is z i : 0 <= z -> at_number z i <-> longToInstant z = Ok i.
Proof.
  intros Hz. unfold at_number, longToInstant. replace (0 <=? z) with true by (symmetry; apply Z.leb_le; exact Hz).
  destruct (z <=? 4294967295).
  - unfold ofEpochSecond. split; [intros ->; reflexivity|intros E; injection E as <-; reflexivity].
  - split; [intros H; rewrite (at_millis_unique z i H); reflexivity|intros E; injection E as <-; apply at_millis_exists].
Qed.
Lemma at_number_exists z : 0 <= z -> exists i, at_number z i.
Proof.
  intros Hz. unfold at_number. destruct (z <=? 4294967295); eexists; [reflexivity|apply at_millis_exists].
Qed.

Lemma temporal_or_not J v : java_value v -> (exists t, is_temporal v t) \/ (exists e, not_temporal J v e).
Proof.
  intros H. destruct v as [b|c|z|z|z|z|f|b|s|q|s|z|d|t|o]; cbn [java_value] in H; try (right; eexists; constructor; fail).
  - left. destruct (at_number_exists (z mod 2 ^ 32)) as [i Hi]; [apply Z.mod_pos_bound; lia|]. eexists. apply tm_int, Hi.
  - destruct (Z_lt_ge_dec z 0) as [L|L]; [right; eexists; apply nm_long, L|]. left.
    destruct (at_number_exists z ltac:(lia)) as [i Hi]. eexists. apply tm_long; [lia|exact Hi].
  - right. eexists. apply (nm_chars J _ s). constructor.
  - right. destruct H as [t H]. eexists. apply (nm_chars J _ t). constructor. apply den_wden, H.
  - right. eexists. apply (nm_chars J _ s). constructor.
  - pose proof (low_bits_wrap 64 z ltac:(lia)) as B. destruct (Z_lt_ge_dec (wrapN 64 z) 0) as [L|L]; [right; eexists; apply (nm_big J z _ B L)|]. left.
    destruct (at_number_exists (wrapN 64 z) ltac:(lia)) as [i Hi]. eexists. apply (tm_big z _ i B); [lia|exact Hi].
  - left. eexists. apply tm_temporal.
  - destruct o as [l d i t|m i t|m t|s|s|l|l|t]; try solve [right; eexists; apply nm_object; intros []].
    + destruct l as [l|e]; [|right; exists e; apply nm_fails; reflexivity].
      destruct (Z_lt_ge_dec l 0) as [L|L]; [right; eexists; apply nm_number, L|]. left.
      destruct (at_number_exists l ltac:(lia)) as [k Hk]. eexists. apply tm_number; [lia|exact Hk].
    + destruct i as [i|e]; [|right; exists e; apply nm_fails; reflexivity]. left. eexists. apply tm_date.
    + destruct m as [m|e]; [|right; exists e; apply nm_fails; reflexivity]. left. eexists. apply tm_calendar, at_millis_exists.
Qed.

(** ** What the wrappers answer *)

Lemma parse_fails dig bits s : (forall z, DirSpec.integer_text dig s z -> ~ in_range bits z) -> parseJava dig bits s = None.
Proof. intros H. destruct (parseJava dig bits s) as [z|] eqn:E; [|reflexivity]. apply parseJava_is in E as [E1 E2]. exfalso. exact (H z E1 E2). Qed.

Lemma not_integer_form J v e r : not_integer J v e -> t_asIntForm (traitsOf J v r) = Err e.
Proof.
  intros H. destruct H as [v s C N|t E|o N|o e N|t s n E N|u s z T L|u s L]; cbn [traitsOf].
  - destruct (chars_string J v s r C) as (n & q & ->). cbn [charSeqTraits t_asIntForm bind]. rewrite (parse_fails _ _ _ N). reflexivity.
  - cbn [temporalTraits t_asIntForm]. rewrite <- point_is, E. reflexivity.
  - destruct o; cbn in N; try (exfalso; exact (N I)); reflexivity.
  - destruct o; cbn in N; try contradiction; subst; reflexivity.
  - cbn [temporalTraits t_asIntForm]. rewrite <- point_is, E. cbn [bind]. unfold toEpochMilli. cbn [fst snd].
    replace ((long_min <=? s * 1000 + n / 1000000) && (s * 1000 + n / 1000000 <=? long_max)) with false; [reflexivity|].
    symmetry. apply not_true_is_false. intros T. apply N. apply andb_prop in T as [T1 T2]. bools. apply in_range_64. unfold is_long. lia.
  - cbn [decTraits t_asIntForm]. unfold bd_bigInteger, checkTen. rewrite (dec_trunc_is u s z T). unfold bigInteger.
    replace (Z.log2 (Z.abs z) <? 2147483647) with false by (symmetry; apply Z.ltb_ge; exact L). destruct (bd_u (mkBD u s) =? 0), (0 <? bd_s (mkBD u s)), (bd_s (mkBD u s) <=? MAX_TEN); reflexivity.
  - cbn [decTraits t_asIntForm]. unfold bd_bigInteger, checkTen, MAX_TEN. cbn [bd_s bd_u]. replace (u =? 0) with false by (symmetry; apply Z.eqb_neq; assumption). replace (0 <? s) with true by (symmetry; apply Z.ltb_lt; lia).
    replace (s <=? 646456992) with false by (symmetry; apply Z.leb_gt; lia). reflexivity.
Qed.

Lemma not_int_fails J v r : not_int J v -> t_asInt (traitsOf J v r) = Err (Printf BadConversion).
Proof.
  intros H. destruct H as [v s C N|t E|o N]; cbn [traitsOf].
  - destruct (chars_string J v s r C) as (n & q & ->). cbn [charSeqTraits t_asInt bind]. rewrite (parse_fails _ _ _ N). reflexivity.
  - cbn [temporalTraits t_asInt]. rewrite <- point_is, E. reflexivity.
  - destruct o; cbn in N; try (exfalso; exact (N I)); reflexivity.
Qed.

Lemma fails_int_is J o e r : fails_int o e -> t_asInt (traitsOf J (VObj o) r) = Err e /\ t_asChar (traitsOf J (VObj o) r) = Err e.
Proof. destruct o; cbn; try contradiction; intros ->; split; reflexivity. Qed.
Lemma fails_double_is J o e r : fails_double o e -> t_asFloatForm (traitsOf J (VObj o) r) = Err e.
Proof. destruct o; cbn; try contradiction; intros ->; reflexivity. Qed.

Lemma not_char_fails J v r : java_value v -> not_char J v -> t_asChar (traitsOf J v r) = Err (Printf BadConversion).
Proof.
  intros Hv H. destruct H as [v C|t|o N]; cbn [traitsOf].
  - inversion C as [s|s|q s W]; subst; cbn [traitsOf charSeqTraits t_asChar]; try reflexivity.
    destruct Hv as [t Hv]. rewrite (den_len _ _ Hv).
    assert (t = []) as -> by (pose proof (s_toString_wden q t (den_wden _ _ Hv)) as A; pose proof (s_toString_wden q [] W) as B; congruence). reflexivity.
  - reflexivity.
  - destruct o; cbn in N; try (exfalso; exact (N I)); reflexivity.
Qed.

Lemma not_float_fails J v r : not_float J v -> t_asFloatForm (traitsOf J v r) = Err (Printf BadConversion).
Proof.
  intros H. destruct H as [v s C N|t E|o N]; cbn [traitsOf].
  - destruct (chars_string J v s r C) as (n & q & ->). cbn [charSeqTraits t_asFloatForm bind]. rewrite N. reflexivity.
  - cbn [temporalTraits t_asFloatForm]. rewrite <- point_is, E. reflexivity.
  - destruct o; cbn in N; try (exfalso; exact (N I)); reflexivity.
Qed.

Lemma wrap64_low z w : low_bits 64 z w -> wrap64 z = w.
Proof.
  intros [R E]. rewrite <- (wrap64_id w) by (apply in_range_64; exact R). unfold wrap64. apply wrapN_eqm; [lia|]. congruence.
Qed.

Lemma temporal_is J v t r : is_temporal v t -> t_asTemporal (traitsOf J v r) = Ok t.
Proof.
  intros H. destruct H as [t|z i N|z i Hz N|z w i B Hw N|l d n t i Hl N|m t i|m t i N]; cbn [traitsOf].
  - reflexivity.
  - cbn [intTraits t_asTemporal]. unfold instantOfLong, uint32. rewrite (proj1 (at_number_is _ _ (proj1 (Z.mod_pos_bound z (2 ^ 32) ltac:(lia)))) N). reflexivity.
  - cbn [longTraits t_asTemporal]. unfold instantOfLong. rewrite (proj1 (at_number_is _ _ Hz) N). reflexivity.
  - cbn [bigTraits t_asTemporal]. unfold instantOfLong. rewrite (wrap64_low z w B), (proj1 (at_number_is _ _ Hw) N). reflexivity.
  - cbn [objTraits t_asTemporal bind]. unfold instantOfLong. rewrite (proj1 (at_number_is _ _ Hl) N). reflexivity.
  - reflexivity.
  - cbn [objTraits t_asTemporal bind]. rewrite (at_millis_unique _ _ N). reflexivity.
Qed.

Lemma negative_instant z : z < 0 -> instantOfLong z = Err IllegalArg.
Proof. intros H. unfold instantOfLong, longToInstant. replace (0 <=? z) with false by (symmetry; apply Z.leb_gt; exact H). reflexivity. Qed.

Lemma not_temporal_fails J v e r : not_temporal J v e -> t_asTemporal (traitsOf J v r) = Err e.
Proof.
  intros H. destruct H as [z L|z w B L|l d n t L|o e F|b|c|z|z|b|b|v s C|d|o N]; cbn [traitsOf]; try reflexivity.
  - apply negative_instant, L.
  - cbn [bigTraits t_asTemporal]. rewrite (wrap64_low z w B). apply negative_instant, L.
  - cbn [objTraits t_asTemporal bind]. apply negative_instant, L.
  - destruct o; cbn in F; try contradiction; subst; reflexivity.
  - destruct (chars_string J v s r C) as (n & q & ->). reflexivity.
  - destruct o; cbn in N; try (exfalso; exact (N I)); reflexivity.
Qed.

Lemma is_temporal_unique v t t' : is_temporal v t -> is_temporal v t' -> t = t'.
Proof.
  intros A B. set (J := mkJdk (fun _ => []) (fun _ => []) (fun _ => None) (fun _ _ => Ok []) (fun i => Ok (TInstant i)) (fun _ => None) (fun _ => []) (fun _ => []) (fun _ => None)).
  pose proof (temporal_is J v t RNull A). pose proof (temporal_is J v t' RNull B). congruence.
Qed.

(** ** Every conversion of every argument ends well or with one of the documented errors *)

Definition outcome_ok (sp : spec) (r : res seq) : Prop :=
  (exists u t, r = Ok u /\ wden u t) \/ (exists e, r = Err e /\ conversion_error sp e).

Lemma ends_den sp r t : (exists u, r = Ok u /\ den u t) -> outcome_ok sp r.
Proof. intros (u & E & D). left. exists u, t. split; [exact E|apply den_wden, D]. Qed.

Lemma ends_upper sp r : outcome_ok sp r -> outcome_ok sp (upperOf r).
Proof.
  intros [(u & t & -> & W)|(e & -> & H)]; cbn [upperOf bind].
  - left. destruct (s_upper_wden _ _ W) as (x & Ex & Wx & _). eauto.
  - right. eauto.
Qed.

Lemma spaceJustify_ends c u t : rt_ok c -> wden u t -> 0 <= s_len u -> exists u' t', spaceJustify c u = Ok u' /\ wden u' t'.
Proof.
  intros Hc W L. unfold spaceJustify. destruct (width_val c Hc) as (W1 & W2 & W3 & W4).
  destruct (s_len u <? width c) eqn:E; bools; [|eauto].
  assert (width c = q_width (q_of c)) as Ew by (apply W2; unfold int_min; lia).
  rewrite wrap32_small by lia. destruct (repeated_den (ch " ") (width c - s_len u)) as (p & Ep & Dp); [rewrite int_max_val; lia|].
  rewrite Ep. cbn [bind]. destruct (hasFlag c LEFT_JUSTIFY).
  - eexists _, _. split; [reflexivity|]. apply s_append_wden; [exact W|apply den_wden, Dp|apply (den_isEmpty _ _ Dp)].
  - eexists _, _. split; [reflexivity|]. apply s_prepend_wden; [exact W|apply den_wden, Dp|apply (den_isEmpty _ _ Dp)].
Qed.

Lemma fmt_s_ok c s t : rt_ok c -> den s t -> exists u t', fmt_s c s = Ok u /\ wden u t'.
Proof.
  intros Hc D. unfold fmt_s. rewrite (den_len _ _ D). pose proof (zlen_nonneg t) as Zt.
  assert (G : forall u t', wden u t' -> 0 <= s_len u -> exists u' t', spaceJustify c u = Ok u' /\ wden u' t') by (intros; eapply spaceJustify_ends; eassumption).
  destruct (prec_cases c Hc) as [(P1 & P2 & P3)|(P1 & P2 & P3)]; rewrite P1; cbn [andb bind].
  - apply (G s t (den_wden _ _ D)). rewrite (den_len _ _ D). exact Zt.
  - destruct (c_prec c <? zlen t) eqn:E; bools; cbn [bind].
    + destruct (s_sub_spec s t 0 (c_prec c) D) as (u & Eu & Wu & Lu); try lia. rewrite Eu. cbn [bind]. apply (G u _ Wu).
      destruct Lu as [Lu|(ps & i & l & -> & _)]; [rewrite (den_len _ _ Lu)|cbn [s_len]]; apply zlen_nonneg.
    + apply (G s t (den_wden _ _ D)). rewrite (den_len _ _ D). exact Zt.
Qed.

Lemma fmt_s_ends sp c s t : rt_ok c -> den s t -> outcome_ok sp (fmt_s c s).
Proof. intros Hc D. left. apply (fmt_s_ok c s t Hc D). Qed.

(** *** integers *)

Lemma integer_spec_type s : s = Sd \/ s = Su \/ s = Sx \/ s = SX \/ s = So -> conversion_error s (Printf BadConversion).
Proof. intros H. apply ce_type; intros ->; destruct H as [H|[H|[H|[H|H]]]]; discriminate. Qed.

Lemma negative_form c z g p : z < 0 -> g = i_udec \/ g = i_hex \/ g = i_oct -> formatUnsignedInteger c (bigForm z) g p = Err (Printf NegativeUnsigned).
Proof.
  intros Hz Hg.
  assert (E1 : (Z.sgn z =? 0) = false) by (rewrite sgn_zero; apply Z.eqb_neq; lia).
  assert (E2 : (Z.sgn z <? 0) = true) by (apply Z.ltb_lt; destruct z; cbn; lia).
  unfold formatUnsignedInteger. cbn [bigForm i_signum]. rewrite E1. cbn [andb].
  destruct Hg as [->|[->| ->]]; cbn [bigForm i_udec i_hex i_oct]; unfold ensureNonNegative; rewrite E2; reflexivity.
Qed.

Lemma unsigned_or_negative J v w z : integral J v w z -> (exists n, is_unsigned J v n) \/ (w = None /\ z < 0).
Proof.
  intros H. destruct w as [k|].
  - left. eexists. exists (Some k), z. split; [exact H|reflexivity].
  - destruct (Z_lt_ge_dec z 0) as [L|L]; [right; auto|]. left. exists z. exists None, z. split; [exact H|]. split; [lia|reflexivity].
Qed.

Lemma integer_ends J v r s c : java_value v -> rt_ok c -> s = Sd \/ s = Su \/ s = Sx \/ s = SX \/ s = So ->
  outcome_ok s (formatterFor J s c (traitsOf J v r)).
Proof.
  intros Hv Hc Hs. destruct (integer_or_not J v Hv) as [(w & z & H)|(e & H)].
  - destruct (unsigned_or_negative J v w z H) as [(n & U)|[-> L]].
    + destruct Hs as [->|[->|[->|[->| ->]]]];
        [eapply ends_den, renders_den; [apply rn_d; exists w; exact H|exact Hc]|eapply ends_den, renders_den; [|exact Hc]..];
        [apply rn_u|apply rn_x|apply rn_X|apply rn_o]; exact U.
    + destruct Hs as [->|Hs]; [eapply ends_den, renders_den; [apply rn_d; exists None; exact H|exact Hc]|].
      destruct (integral_form J v None z r H) as [T _]. cbn [form_of] in T.
      assert (G : forall g p, g = i_udec \/ g = i_hex \/ g = i_oct -> outcome_ok s (withInt (traitsOf J v r) (fun f => formatUnsignedInteger c f g p))).
      { intros g p Hg. unfold withInt. rewrite T. cbn [bind]. rewrite (negative_form c z g p L Hg). right. eexists. split; [reflexivity|].
        apply ce_negative. exact Hs. }
      destruct Hs as [->|[->|[->| ->]]]; cbn [formatterFor]; try apply ends_upper; apply G; auto.
  - pose proof (not_integer_form J v e r H) as T.
    assert (Ce : conversion_error s e).
    { destruct H; try (apply integer_spec_type; exact Hs); try apply ce_foreign.
      destruct (fails_foreign o e Hv ltac:(left; assumption)) as [n ->]. apply ce_foreign. }
    destruct Hs as [->|[->|[->|[->| ->]]]]; cbn [formatterFor]; try apply ends_upper; unfold withInt; rewrite T; cbn [bind]; right; eauto.
Qed.

(** *** floating point *)

Lemma float_spec_type s : is_float_spec s -> conversion_error s (Printf BadConversion).
Proof. unfold is_float_spec. intros H. apply ce_type; intros ->; repeat (destruct H as [H|H]); discriminate. Qed.

Lemma with_float_ends J s c x F : is_float_spec s -> t_asFloatForm x = Ok F ->
  (forall G, float_conv c s = Some G -> outcome_ok s (G F)) -> outcome_ok s (formatterFor J s c x).
Proof.
  intros Hs E H. destruct Hs as [->|[->|[->|[->|[->|[->|[->| ->]]]]]]]; cbn [formatterFor float_conv] in *; try apply ends_upper;
    unfold withFloat; rewrite E; cbn [bind]; apply H; reflexivity.
Qed.

Lemma decimal_bounds v u s : printable v -> is_decimal v u s -> ndigits (Z.abs u) - s < 2000000000.
Proof. intros Hp H. destruct H as [u s Hj|z Hj]; [exact Hp|]. pose proof (ndigits_fits z (proj1 Hj)). lia. Qed.

Lemma float_ends J v r s c : jdk_ok J -> java_value v -> printable v -> rt_ok c -> is_float_spec s ->
  outcome_ok s (formatterFor J s c (traitsOf J v r)).
Proof.
  intros HJ Hv Hp Hc Hs.
  assert (A : float_arg J s v -> outcome_ok s (formatterFor J s c (traitsOf J v r))).
  { intros H. destruct (float_converts J s v r H) as (T & HT & _). eapply ends_den, HT. exact Hc. }
  destruct (float_or_not J v HJ Hv) as [(b & H)|[H|[(u & sc & H)|[H|(o & e & -> & H)]]]].
  - apply A, (fa_double J s v b Hs H).
  - apply A, (fa_nan J s v Hs H).
  - pose proof (decimal_bounds v u sc Hp H) as B. destruct (decimal_view J v u sc r H) as [Hj Ev].
    assert (X : (s = Sf \/ s = SF) \/ (s = Se \/ s = SE) \/ (s = Sg \/ s = SG) \/ (s = Sa \/ s = SA)) by (unfold is_float_spec in Hs; tauto).
    destruct X as [X|[X|[X|X]]].
    + apply (with_float_ends J s c _ _ Hs Ev). intros G EG. assert (G = fmt_f c) as -> by (destruct X as [-> | ->]; cbn in EG; congruence).
      assert (T : (u <> 0 /\ 646456992 < sc - prec_or 6 (q_of c)) \/ (u = 0 \/ sc - prec_or 6 (q_of c) <= 646456992)) by lia.
      destruct T as [[T1 T2]|T]; [right; exists (OtherExn 1); split; [apply fmt_f_tiny; assumption|apply ce_foreign]|].
      destruct (fixed_gives c u sc Hc Hj B T) as (w & Ew & Dw). left. eauto using den_wden.
    + apply (with_float_ends J s c _ _ Hs Ev). intros G EG. assert (G = fmt_e c) as -> by (destruct X as [-> | ->]; cbn in EG; congruence).
      destruct (Z_lt_ge_dec 2147483648 (last_exp (Z.abs u) (- sc) (prec_or 6 (q_of c) + 1))) as [T|T]; [right; exists (OtherExn 1); split; [apply fmt_e_big_fails; assumption|apply ce_foreign]|].
      destruct (fmt_e_big_exact c u sc Hc Hj ltac:(lia)) as (w & Ew & Dw). left. eauto using den_wden.
    + apply (with_float_ends J s c _ _ Hs Ev). intros G EG. assert (G = fmt_g c) as -> by (destruct X as [-> | ->]; cbn in EG; congruence).
      destruct (bg_positional (Z.abs u) (- sc) (g_prec (q_of c))) eqn:Bp.
      * destruct (fmt_g_big_exact c u sc Hc Hj (or_introl Bp)) as (w & Ew & Dw). left. eauto.
      * destruct (Z_lt_ge_dec 2147483648 (last_exp (Z.abs u) (- sc) (g_prec (q_of c)))) as [T|T]; [right; exists (OtherExn 1); split; [apply fmt_g_big_fails; assumption|apply ce_foreign]|].
        destruct (fmt_g_big_exact c u sc Hc Hj (or_intror (Z.ge_le _ _ T))) as (w & Ew & Dw). left. eauto.
    + apply (with_float_ends J s c _ _ Hs Ev). intros G EG. assert (G = fmt_a c) as -> by (destruct X as [-> | ->]; cbn in EG; congruence).
      right. exists (Printf NotHex). split; [reflexivity|]. apply ce_hex, X.
  - pose proof (not_float_fails J v r H) as T. right. exists (Printf BadConversion). split; [|apply float_spec_type, Hs].
    destruct Hs as [->|[->|[->|[->|[->|[->|[->| ->]]]]]]]; cbn [formatterFor]; unfold upperOf, withFloat; rewrite T; reflexivity.
  - pose proof (fails_double_is J o e r H) as T. destruct (fails_foreign o e Hv ltac:(tauto)) as [n ->]. right. exists (OtherExn n). split; [|apply ce_foreign].
    destruct Hs as [->|[->|[->|[->|[->|[->|[->| ->]]]]]]]; cbn [formatterFor]; unfold upperOf, withFloat; rewrite T; reflexivity.
Qed.

(** *** text *)

Lemma text_of J v : jdk_ok J -> java_value v -> (forall q, v <> VSeq q) ->
  (exists t, is_text J v t /\ zlen t <= int_max) \/ (exists o e, v = VObj o /\ object_text o = Err e /\ (e = NullPtr \/ exists n, e = OtherExn n)).
Proof.
  intros HJ Hv Hq.
  assert (N : forall z, Z.log2 (Z.abs z) < 2147483647 -> zlen (dec_text z) <= int_max).
  { intros z Hz. rewrite zlen_dec_text. pose proof (ndigits_fits z Hz) as F. unfold ndigits in F. rewrite int_max_val. destruct (z <? 0); lia. }
  assert (M : forall k z, 1 <= k <= 64 -> in_range k z -> zlen (dec_text z) <= int_max).
  { intros k z Hk R. apply N. apply (in_range_weaken k 64) in R; [|lia]. unfold in_range in R. change (2 ^ (64 - 1)) with (2 ^ 63) in R.
    destruct (Z.eq_dec z 0) as [->|]; [reflexivity|]. assert (Z.log2 (Z.abs z) < 64) by (apply Z.log2_lt_pow2; change (2 ^ 64) with (2 * 2 ^ 63); lia). lia. }
  destruct v as [b|c|z|z|z|z|f|b|s|q|s|z|d|t|o]; cbn [java_value] in Hv; try (exfalso; exact (Hq _ eq_refl)).
  - left. exists (if b then txt "true" else txt "false"). split; [constructor|destruct b; vm_compute; discriminate].
  - left. eexists. split; [constructor|vm_compute; discriminate].
  - left. eexists. split; [constructor; exact Hv|apply (M 8); [lia|exact Hv]].
  - left. eexists. split; [constructor; exact Hv|apply (M 16); [lia|exact Hv]].
  - left. eexists. split; [constructor; exact Hv|apply (M 32); [lia|exact Hv]].
  - left. eexists. split; [constructor; exact Hv|apply (M 64); [lia|exact Hv]].
  - left. eexists. split; [constructor|apply (ok_float J HJ)].
  - left. eexists. split; [constructor|apply (ok_double J HJ)].
  - left. eexists. split; [constructor|exact Hv].
  - left. eexists. split; [constructor|exact Hv].
  - left. eexists. split; [constructor|apply N, Hv].
  - left. eexists. split; [constructor|apply (ok_decimal J HJ)].
  - left. eexists. split; [constructor|apply (ok_temporal J HJ)].
  - destruct Hv as [Hv _]. unfold string_result, foreign_text, foreign in Hv. destruct (object_text o) as [t|e] eqn:E.
    + left. exists t. split; [constructor; exact E|destruct Hv as [Hv|Hv]; [discriminate Hv|exact Hv]].
    + right. exists o, e. split; [reflexivity|]. split; [exact E|]. destruct Hv as [Hv|Hv]; [left; congruence|right; exact Hv].
Qed.

Lemma string_ends J v r c : jdk_ok J -> java_value v -> rt_ok c ->
  outcome_ok Ss (let* s := t_asSeq (traitsOf J v r) in fmt_s c s).
Proof.
  intros HJ Hv Hc. assert (D : (exists q, v = VSeq q) \/ forall q, v <> VSeq q) by (destruct v; try (right; discriminate); left; eauto).
  destruct D as [[q ->]|D].
  - destruct Hv as [t Hv]. cbn [traitsOf charSeqTraits t_asSeq bind]. apply (fmt_s_ends Ss c q t Hc Hv).
  - destruct (text_of J v HJ Hv D) as [(t & T & M)|(o & e & -> & E & He)].
    + apply (ends_den _ _ (c_s (q_of c) t)). apply (renders_den J Ss (traitsOf J v r) (fun q => c_s q t) c); [constructor; assumption|exact Hc].
    + assert (t_asSeq (traitsOf J (VObj o) r) = Err e) as -> by (cbn [traitsOf]; assert (t_asSeq (objTraits o r) = seqOfString (objText o)) as -> by (destruct o; reflexivity); rewrite <- object_text_is, E; reflexivity).
      cbn [bind]. right. exists e. split; [reflexivity|]. destruct He as [->|[n ->]]; [apply ce_null; auto|apply ce_foreign].
Qed.

(** *** dates *)

Lemma dated_is J c x t d : t_asTemporal x = Ok t -> dated J (c_dtf c) t d ->
  fmt_t J c x = (let* s := d in spaceJustify c (wrapS s)).
Proof. intros E H. unfold fmt_t. rewrite E. cbn [bind]. destruct H as [p t|i|i|i|i|i z H|i e H|i]; cbn [bestDefaultFormatter bind]; try rewrite H; reflexivity. Qed.

Lemma dated_total J p t : exists d, dated J p t d.
Proof.
  destruct p as [p|]; [eexists; apply dd_pattern|]. destruct t as [i|i|i|i|i|i]; try (eexists; constructor; fail).
  destruct (j_atSystemZone J i) as [z|e] eqn:E; eexists; [apply dd_instant, E|apply dd_instant_fails, E].
Qed.

Lemma dated_errors J p t e s : jdk_ok J -> s = St \/ s = ST -> dated J p t (Err e) -> conversion_error s e.
Proof.
  intros HJ Hs H. assert (F : forall f u, j_format J f u = Err e -> conversion_error s e).
  { intros f u E. pose proof (ok_format J HJ f u) as K. rewrite E in K. destruct K as [n ->]. apply ce_foreign. }
  inversion H; try (eapply F; eassumption); subst.
  - destruct (ok_zone J HJ i e) as [n ->]; [assumption|apply ce_foreign].
  - apply ce_type; destruct Hs; subst; discriminate.
Qed.

Lemma dated_text J p t s : jdk_ok J -> dated J p t (Ok s) -> zlen s <= int_max.
Proof.
  intros HJ H. assert (F : forall f u, j_format J f u = Ok s -> zlen s <= int_max).
  { intros f u E. pose proof (ok_format J HJ f u) as K. rewrite E in K. exact K. }
  inversion H; eapply F; eassumption.
Qed.

Lemma fmt_t_ends J x c s : jdk_ok J -> rt_ok c -> s = St \/ s = ST ->
  (exists t, t_asTemporal x = Ok t) \/ (exists e, t_asTemporal x = Err e /\ conversion_error s e) -> outcome_ok s (fmt_t J c x).
Proof.
  intros HJ Hc Hs [[t E]|(e & E & Ce)].
  - destruct (dated_total J (c_dtf c) t) as [d D]. rewrite (dated_is J c x t d E D). destruct d as [s0|e]; cbn [bind].
    + eapply ends_den, spaceJustify_den; [exact Hc|]. apply wrapS_den, (dated_text J _ _ _ HJ D).
    + right. exists e. split; [reflexivity|]. apply (dated_errors J _ _ _ s HJ Hs D).
  - right. exists e. split; [|exact Ce]. unfold fmt_t. rewrite E. reflexivity.
Qed.

Lemma date_ends J v r c s : jdk_ok J -> java_value v -> rt_ok c -> s = St \/ s = ST -> outcome_ok s (fmt_t J c (traitsOf J v r)).
Proof.
  intros HJ Hv Hc Hs. apply fmt_t_ends; try assumption. destruct (temporal_or_not J v Hv) as [[t H]|[e H]].
  - left. exists t. apply temporal_is, H.
  - right. exists e. split; [apply not_temporal_fails, H|]. destruct H; try (apply ce_date; exact Hs); try (apply ce_type; destruct Hs; subst; discriminate).
    destruct (fails_foreign o e Hv ltac:(tauto)) as [n ->]. apply ce_foreign.
Qed.

(** *** references *)

Lemma fmt_p_den c name h : rt_ok c -> zlen name <= 65535 ->
  exists u, fmt_p c (RObj name h) = Ok u /\ den u (justify (q_of c) (pointer_text name h)).
Proof.
  intros Hc Hn. unfold fmt_p, pointer_text. change (uint32 h) with (h mod 2 ^ 32).
  pose proof (Z.mod_pos_bound h (2 ^ 32) ltac:(lia)) as B. set (n := h mod 2 ^ 32) in *.
  assert (L : zlen (numeral 16 n) <= 715827883) by (apply numeral_fits; [lia|]; apply small_magnitude; rewrite pow2_64, pow2_32 in *; lia).
  pose proof (zlen_nonneg name). pose proof (zlen_nonneg (numeral 16 n)).
  apply spaceJustify_den; [exact Hc|]. apply s_prepend_den; [|apply wrapS_den; rewrite int_max_val; lia|].
  - apply s_prepend_den; [apply wrapS_den; rewrite int_max_val; lia|apply chS_den|]. rewrite zlen_app, int_max_val. change (zlen (txt "@")) with 1. lia.
  - rewrite !zlen_app, int_max_val. change (zlen (txt "@")) with 1. lia.
Qed.

Lemma pointer_ends J c x : rt_ok c -> ref_ok (t_ref x) -> outcome_ok Sp (formatterFor J Sp c x).
Proof.
  intros Hc Hr. cbn [formatterFor]. destruct (t_ref x) as [| |name h]; cbn [fmt_p].
  - right. eexists. split; [reflexivity|apply ce_pointer].
  - eapply ends_den, spaceJustify_den; [exact Hc|]. apply wrapS_den. vm_compute. discriminate.
  - eapply ends_den. apply (fmt_p_den c name h Hc (proj2 Hr)).
Qed.

Lemma traits_ref J v r : t_ref (traitsOf J v r) = r.
Proof. destruct v; try reflexivity. destruct o; reflexivity. Qed.

(** *** all of them *)

Lemma argument_ends J x sp c : jdk_ok J -> argument J x -> context_ok c -> outcome_ok sp (formatterFor J sp c x).
Proof.
  intros HJ Hx Hc. change (rt_ok c) in Hc. destruct Hx as [|v r Hv Hp Hr].
  - assert (B : forall s, s <> Sn -> s <> Spct -> s <> Sp -> s <> Ss -> s <> SS -> outcome_ok s (Err (Printf BadConversion)))
      by (intros; right; eexists; split; [reflexivity|apply ce_type; assumption]).
    destruct sp; try (apply B; discriminate).
    + cbn [formatterFor nullTraits t_asSeq bind]. apply (fmt_s_ends _ c _ (txt "null") Hc). apply wrapS_den. vm_compute. discriminate.
    + cbn [formatterFor nullTraits t_asSeq bind]. apply ends_upper, (fmt_s_ends _ c _ (txt "null") Hc). apply wrapS_den. vm_compute. discriminate.
    + apply (ends_den _ _ []). eexists. split; [reflexivity|apply emptyS_den].
    + apply pointer_ends; [exact Hc|exact I].
    + apply (ends_den _ _ (txt "%")). eexists. split; [reflexivity|apply chS_den].
  - destruct sp; try solve [apply integer_ends; [exact Hv|exact Hc|auto 6]]; try solve [apply float_ends; try assumption; unfold is_float_spec; auto 10].
    + cbn [formatterFor]. destruct (char_or_not J v Hv) as [[x H]|[H|(o & e & -> & H)]].
      * rewrite (char_of J v x r H). cbn [bind]. eapply ends_den, fmt_c_den, Hc.
      * rewrite (not_char_fails J v r Hv H). cbn [bind]. right. eexists. split; [reflexivity|apply ce_type; discriminate].
      * rewrite (proj2 (fails_int_is J o e r H)). cbn [bind]. right. exists e. split; [reflexivity|].
        destruct (fails_foreign o e Hv ltac:(tauto)) as [n ->]. apply ce_foreign.
    + apply string_ends; assumption.
    + cbn [formatterFor]. apply ends_upper. destruct (string_ends J v r c HJ Hv Hc) as [S|(e & E & Ce)]; [left; exact S|right].
      exists e. split; [exact E|]. inversion Ce; subst; try (exfalso; intuition discriminate); [apply ce_foreign|apply ce_null; auto].
    + apply date_ends; auto.
    + cbn [formatterFor]. apply ends_upper, date_ends; auto.
    + apply (ends_den _ _ []). eexists. split; [reflexivity|apply emptyS_den].
    + apply pointer_ends; [exact Hc|]. rewrite traits_ref. exact Hr.
    + apply (ends_den _ _ (txt "%")). eexists. split; [reflexivity|apply chS_den].
Qed.

Lemma argument_int J x : jdk_ok J -> argument J x -> (exists w, t_asInt x = Ok w /\ is_int w) \/
  (exists e, t_asInt x = Err e /\ (e = Printf BadConversion \/ exists n, e = OtherExn n)).
Proof.
  intros HJ Hx. destruct Hx as [|v r Hv Hp Hr]; [right; eexists; split; [reflexivity|left; reflexivity]|]. destruct (int_or_not J v Hv) as [[w W]|[W|(o & e & -> & W)]].
  - left. exists w. destruct (int_of J v w r W) as [E R]. split; [exact E|apply in_range_32, R].
  - right. eexists. split; [apply not_int_fails, W|left; reflexivity].
  - right. exists e. split; [apply (proj1 (fails_int_is J o e r W))|right]. apply (fails_foreign o e Hv). tauto.
Qed.

Lemma argument_honest J x : jdk_ok J -> argument J x -> honest J x.
Proof.
  intros HJ Hx. split.
  - intros w E. destruct (argument_int J x HJ Hx) as [(w' & E' & R)|(e & E' & _)]; rewrite E in E'; [injection E' as <-; exact R|discriminate].
  - intros sp c s Hc E. destruct (argument_ends J x sp c HJ Hx Hc) as [(u & t & E' & W)|(e & E' & _)]; rewrite E in E'; [|discriminate].
    injection E' as <-. eauto.
Qed.

Lemma argument_quiet J x : jdk_ok J -> argument J x -> quiet_arg J x.
Proof.
  intros HJ Hx. split.
  - destruct (argument_int J x HJ Hx) as [(w & E & _)|(e & E & [->|[n ->]])]; rewrite E; discriminate.
  - intros sp c Hc E. destruct (argument_ends J x sp c HJ Hx Hc) as [(u & t & E' & W)|(e & E' & Ce)]; rewrite E in E'; [discriminate|].
    injection E' as <-. inversion Ce.
Qed.
