(** SeqFormatter refined to texts: justification, sign, integer, character and string conversions. *)
From Verif Require Import Base Digits UtilsM SeqM SeqSpec SeqP SeqSubP ContextM IntFormM FormatterM FmtSpec.

(** The contexts a conversion can receive at run time (see AppenderP.v: every reachable context is such). *)
Definition rt_ok (c : ctx) : Prop :=
  (c_width c = UNSET \/ 0 <= c_width c <= 65536 \/ (c_width c = int_min /\ f_left (c_flags c) = true)) /\
  (c_prec c = UNSET \/ 0 <= c_prec c <= 65536).

(** the directive a context stands for *)
Definition q_of (c : ctx) : fspec :=
  mkSpec (f_left (c_flags c)) (f_alt (c_flags c)) (f_plus (c_flags c)) (f_space (c_flags c)) (f_zero (c_flags c))
    (Z.max 0 (c_width c)) (if c_prec c <? 0 then None else Some (c_prec c)).

Ltac bools := repeat match goal with
  | H : (_ <? _) = true |- _ => apply Z.ltb_lt in H
  | H : (_ <? _) = false |- _ => apply Z.ltb_ge in H
  | H : (_ <=? _) = true |- _ => apply Z.leb_le in H
  | H : (_ <=? _) = false |- _ => apply Z.leb_gt in H
  | H : (_ =? _) = true |- _ => apply Z.eqb_eq in H
  | H : (_ =? _) = false |- _ => apply Z.eqb_neq in H
  | H : (_ && _) = true |- _ => apply andb_prop in H as [? ?]
  | H : (_ || _) = false |- _ => apply orb_false_elim in H as [? ?]
  | H : negb _ = true |- _ => apply negb_true_iff in H
  | H : negb _ = false |- _ => apply negb_false_iff in H
  end.

Lemma wrap32_small x : -2147483648 <= x <= 2147483647 -> wrap32 x = x.
Proof. intros. apply wrap32_id. exact H. Qed.

Lemma int_max_val : int_max = 2147483647. Proof. reflexivity. Qed.

Lemma repeated_den x n : 1 <= n <= int_max -> exists s, repeated x n = Ok s /\ den s (rep x n).
Proof.
  intros H. unfold repeated. destruct (s_repeated_den x n H) as (a & E & D). rewrite E. cbn [bind].
  eexists; split; [reflexivity|]. constructor; exact D.
Qed.

Lemma chS_den c : den (chS c) [c].
Proof. constructor. apply s_ch_den. Qed.

Lemma wrapS_den s : zlen s <= int_max -> den (wrapS s) s.
Proof. intros. constructor. apply s_wrap_den. assumption. Qed.

Lemma emptyS_den : den emptyS [].
Proof. constructor. split; [vm_compute; discriminate|reflexivity]. Qed.

Lemma width_val c : rt_ok c -> Z.max 0 (width c) = q_width (q_of c) /\ (width c <> int_min -> width c = q_width (q_of c)) /\
  0 <= q_width (q_of c) <= 65536 /\ width c <= q_width (q_of c).
Proof.
  intros [Hw _]. unfold width, isWidthSet, q_of, UNSET in *. cbn [q_width].
  destruct (c_width c =? -1) eqn:E; bools; cbn [negb]; unfold int_min in *; repeat split; try lia.
Qed.

Lemma width_nonleft c : rt_ok c -> f_left (c_flags c) = false -> width c = q_width (q_of c).
Proof.
  intros H Hl. pose proof H as [Hw _]. destruct (width_val c H) as (_ & H2 & _). apply H2.
  unfold width, isWidthSet, UNSET in *. destruct (c_width c =? -1) eqn:E; cbn [negb]; [vm_compute; discriminate|].
  bools. destruct Hw as [Hw|[Hw|[Hw Hw2]]]; unfold int_min; try lia. congruence.
Qed.

Lemma spaceJustify_den c s t : rt_ok c -> den s t ->
  exists u, spaceJustify c s = Ok u /\ den u (justify (q_of c) t).
Proof.
  intros Hc Hd. unfold spaceJustify, justify. destruct (width_val c Hc) as (W1 & W2 & W3 & W4).
  rewrite (den_len _ _ Hd). pose proof (den_max _ _ Hd) as Hm. pose proof (zlen_nonneg t) as Hn.
  rewrite int_max_val in *. unfold spaces.
  destruct (zlen t <? width c) eqn:E; bools.
  - assert (width c = q_width (q_of c)) as Ew by (apply W2; unfold int_min; lia).
    rewrite Ew in *. rewrite wrap32_small by lia.
    destruct (repeated_den (ch " ") (q_width (q_of c) - zlen t)) as (p & Ep & Dp); [rewrite int_max_val; lia|].
    rewrite Ep. cbn [bind]. eexists; split; [reflexivity|].
    change (hasFlag c LEFT_JUSTIFY) with (q_left (q_of c)). destruct (q_left (q_of c)).
    + apply s_append_den; [assumption|assumption|]. rewrite zlen_app, zlen_rep, int_max_val. lia.
    + apply s_prepend_den; [assumption|assumption|]. rewrite zlen_app, zlen_rep, int_max_val. lia.
  - eexists; split; [reflexivity|]. rewrite rep_nonpos by lia. rewrite app_nil_r. destruct (q_left (q_of c)); exact Hd.
Qed.

Lemma zlen_sign_text q neg : 0 <= zlen (sign_text q neg) <= 1.
Proof. unfold sign_text. destruct neg, (q_plus q), (q_space q); vm_compute; split; discriminate. Qed.

Lemma sign_den c s t neg : den s t -> zlen t < int_max -> den (sign c s neg) (sign_text (q_of c) neg ++ t).
Proof.
  intros Hd Hm. unfold sign, sign_text.
  assert (G : forall x, den (s_prepend s (chS x)) ([x] ++ t)).
  { intros x. apply s_prepend_den; [assumption|apply chS_den|]. rewrite zlen_app, zlen_one. lia. }
  destruct neg; [apply G|].
  change (hasFlag c PLUS) with (q_plus (q_of c)). destruct (q_plus (q_of c)); [apply G|].
  change (hasFlag c LEADING_SPACE) with (q_space (q_of c)). destruct (q_space (q_of c)); [apply G|]. exact Hd.
Qed.

Lemma hasSign_text c neg : zlen (sign_text (q_of c) neg) = if hasSign c neg then 1 else 0.
Proof.
  unfold hasSign, sign_text. change (hasFlag c PLUS) with (q_plus (q_of c)).
  change (hasFlag c LEADING_SPACE) with (q_space (q_of c)).
  destruct neg, (q_plus (q_of c)), (q_space (q_of c)); reflexivity.
Qed.

Lemma prepend_zeros s t w : den s t -> w <= 65537 -> zlen t < int_max -> -10 <= w ->
  exists u, (if s_len s <? w then
                  let* pad := repeated (ch "0") (wrap32 (w - s_len s)) in Ok (s_prepend s pad)
                else Ok s) = Ok u /\ den u (zeros (w - zlen t) ++ t) /\ zlen (zeros (w - zlen t) ++ t) <= Z.max (zlen t) w.
Proof.
  intros Hd Hw Hm Hw0. rewrite (den_len _ _ Hd). pose proof (zlen_nonneg t). unfold zeros.
  rewrite zlen_app, zlen_rep. rewrite int_max_val in *.
  destruct (zlen t <? w) eqn:E; bools.
  - rewrite wrap32_small by lia. destruct (repeated_den (ch "0") (w - zlen t)) as (p & Ep & Dp); [rewrite int_max_val; lia|].
    rewrite Ep. cbn [bind]. eexists; split; [reflexivity|]. split; [|lia].
    apply s_prepend_den; [assumption|assumption|]. rewrite zlen_app, zlen_rep, int_max_val. lia.
  - eexists; split; [reflexivity|]. rewrite rep_nonpos by lia. split; [exact Hd|lia].
Qed.

Lemma signAndJustify_den c s t neg : rt_ok c -> den s t -> zlen t < int_max ->
  exists u, signAndJustify c s neg = Ok u /\
    den u (pad_number (q_of c) (q_zero (q_of c)) (sign_text (q_of c) neg) t).
Proof.
  intros Hc Hd Hm. unfold signAndJustify, pad_number.
  change (hasFlag c ZERO_PAD) with (q_zero (q_of c)). change (hasFlag c LEFT_JUSTIFY) with (q_left (q_of c)).
  destruct (q_zero (q_of c)) eqn:Ez, (q_left (q_of c)) eqn:El; cbn [negb orb andb];
    try (apply spaceJustify_den; [assumption|]; apply sign_den; assumption).
  rewrite (width_nonleft c Hc El). destruct (width_val c Hc) as (_ & _ & W3 & _).
  set (w := q_width (q_of c)) in *.
  pose proof (hasSign_text c neg) as HS.
  assert (Ew : (if hasSign c neg then wrap32 (w - 1) else w) = w - zlen (sign_text (q_of c) neg)).
  { rewrite HS. destruct (hasSign c neg); [apply wrap32_small|]; lia. }
  rewrite Ew. pose proof (zlen_sign_text (q_of c) neg).
  destruct (prepend_zeros s t (w - zlen (sign_text (q_of c) neg)) Hd) as (u & Eu & Du & Lu); try lia.
  rewrite Eu. cbn [bind]. eexists; split; [reflexivity|]. apply sign_den; [exact Du|].
  rewrite int_max_val in *. lia.
Qed.

(** ** Integers *)

Lemma numeral_len b n : 8 <= b -> 0 <= n -> zlen (numeral b n) <= Z.log2 n / 3 + 1.
Proof.
  intros Hb Hn. rewrite zlen_numeral. pose proof (Z.log2_nonneg n).
  pose proof (Z.div_pos (Z.log2 n) 3 ltac:(lia) ltac:(lia)).
  apply digits_len_le; try lia.
  destruct (Z.eq_dec n 0) as [->|Hz]; [apply Z.pow_pos_nonneg; lia|].
  pose proof (Z.log2_spec n ltac:(lia)) as [_ Hl].
  apply Z.lt_le_trans with (2 ^ Z.succ (Z.log2 n)); [exact Hl|].
  apply Z.le_trans with (2 ^ (3 * (Z.log2 n / 3 + 1))).
  - apply Z.pow_le_mono_r; [lia|]. pose proof (Z.div_mod (Z.log2 n) 3 ltac:(lia)).
    pose proof (Z.mod_pos_bound (Z.log2 n) 3 ltac:(lia)). lia.
  - rewrite Z.pow_mul_r by lia. apply Z.pow_le_mono_l. split; [lia|]. exact Hb.
Qed.

Lemma numeral_nonempty b n : 2 <= b -> 0 <= n -> 1 <= zlen (numeral b n).
Proof. intros. rewrite zlen_numeral. apply digits_nonempty; lia. Qed.

(** magnitudes a java.math.BigInteger can hold (BigInteger.MAX_MAG_LENGTH: fewer than 2^31 bits) *)
Definition java_magnitude (n : Z) : Prop := 0 <= n /\ Z.log2 n < 2147483647.

Lemma numeral_fits b n : 8 <= b -> java_magnitude n -> zlen (numeral b n) <= 715827883.
Proof.
  intros Hb [Hn Hl]. pose proof (numeral_len b n Hb Hn).
  assert (Z.log2 n / 3 <= 2147483647 / 3) by (apply Z.div_le_mono; lia).
  change (2147483647 / 3) with 715827882 in *. lia.
Qed.

Lemma padDigits_den p s t : den s t -> zlen t < int_max -> -10 <= p <= 65537 ->
  exists u, padDigits p s = Ok u /\ den u (min_digits p t) /\ zlen (min_digits p t) <= Z.max (zlen t) p.
Proof. intros Hd Hm Hp. apply prepend_zeros; try assumption; lia. Qed.

Lemma prec_cases c : rt_ok c ->
  (isPrecisionSet c = false /\ c_prec c = -1 /\ q_prec (q_of c) = None) \/
  (isPrecisionSet c = true /\ 0 <= c_prec c <= 65536 /\ q_prec (q_of c) = Some (c_prec c)).
Proof.
  intros [_ Hp]. unfold isPrecisionSet, q_of, UNSET in *. cbn [q_prec].
  destruct Hp as [->|Hp]; [left; auto|right].
  replace (c_prec c =? -1) with false by (symmetry; apply Z.eqb_neq; lia).
  replace (c_prec c <? 0) with false by (symmetry; apply Z.ltb_ge; lia). auto.
Qed.

Lemma min_digits_le p t : p <= zlen t -> min_digits p t = t.
Proof. intros. unfold min_digits, zeros. rewrite rep_nonpos by lia. reflexivity. Qed.

Lemma zlen_min_digits p t : zlen (min_digits p t) = Z.max p (zlen t).
Proof. unfold min_digits, zeros. rewrite zlen_app, zlen_rep. lia. Qed.

Lemma justify_full q t : q_width q <= zlen t -> justify q t = t.
Proof. intros. unfold justify, spaces. rewrite rep_nonpos by lia. rewrite app_nil_r. destruct (q_left q); reflexivity. Qed.

Lemma zlen_justify q t : zlen (justify q t) = Z.max (q_width q) (zlen t).
Proof. unfold justify, spaces. destruct (q_left q); rewrite zlen_app, zlen_rep; lia. Qed.

(** [v] is presented to the formatter by the interface value [f] *)
Record int_view (f : intform) (v : Z) : Prop := {
  iv_sign : i_signum f = Z.sgn v;
  iv_dec : i_dec f = Ok (numeral 10 (Z.abs v)) }.

Lemma fmt_d_den c f v : rt_ok c -> int_view f v -> java_magnitude (Z.abs v) ->
  ~ (v = 0 /\ q_prec (q_of c) = Some 0 /\ q_space (q_of c) = true /\ q_plus (q_of c) = false) ->
  exists u, fmt_d c f = Ok u /\ den u (c_d (q_of c) v).
Proof.
  intros Hc [Hs Hd] Hj Hnot. unfold fmt_d. rewrite Hs, Hd.
  pose proof (numeral_fits 10 (Z.abs v) ltac:(lia) Hj) as HL.
  pose proof (numeral_nonempty 10 (Z.abs v) ltac:(lia) ltac:(lia)) as HL1.
  assert (Esg : (Z.sgn v =? 0) = (v =? 0)) by (destruct v; reflexivity).
  assert (Esn : (Z.sgn v <? 0) = (v <? 0)) by (destruct v; reflexivity).
  rewrite Esg, Esn.
  destruct (width_val c Hc) as (_ & _ & W3 & _).
  assert (HW : den (wrapS (numeral 10 (Z.abs v))) (numeral 10 (Z.abs v))) by (apply wrapS_den; rewrite int_max_val; lia).
  destruct (prec_cases c Hc) as [(P1 & P2 & P3)|(P1 & P2 & P3)].
  - (* no precision *)
    rewrite P1, P2. change (-1 =? 0) with false. rewrite andb_false_r. cbn [bind].
    unfold c_d, no_prec, int_digits, pad_number. rewrite P3. rewrite andb_true_r.
    change (hasFlag c ZERO_PAD) with (q_zero (q_of c)). change (hasFlag c LEFT_JUSTIFY) with (q_left (q_of c)).
    assert (Plain : exists u, (let* v0 := padDigits 1 (wrapS (numeral 10 (Z.abs v))) in spaceJustify c (sign c v0 (v <? 0))) = Ok u /\
       den u (justify (q_of c) (sign_text (q_of c) (v <? 0) ++ numeral 10 (Z.abs v)))).
    { destruct (padDigits_den 1 _ _ HW) as (u & Eu & Du & _); [rewrite int_max_val; lia|lia|].
      rewrite Eu. cbn [bind]. rewrite min_digits_le in Du by lia.
      apply spaceJustify_den; [assumption|]. apply sign_den; [assumption|rewrite int_max_val; lia]. }
    destruct (q_zero (q_of c)) eqn:Ez, (q_left (q_of c)) eqn:El; rewrite ?andb_false_r; cbn [andb negb];
      try exact Plain.
    destruct (isWidthSet c) eqn:Ew; cbn [andb].
    + assert (Ewv : c_width c = q_width (q_of c)).
      { rewrite <- (width_nonleft c Hc El). unfold width. rewrite Ew. reflexivity. }
      rewrite Ewv. set (w := q_width (q_of c)) in *. pose proof (hasSign_text c (v <? 0)) as HS.
      pose proof (zlen_sign_text (q_of c) (v <? 0)) as ZS. set (sg := sign_text (q_of c) (v <? 0)) in *.
      assert (E : (if hasSign c (v <? 0) then wrap32 (w - 1) else w) = w - zlen sg).
      { rewrite HS. destruct (hasSign c (v <? 0)); [apply wrap32_small|]; lia. }
      rewrite E. destruct (padDigits_den (w - zlen sg) _ _ HW) as (u & Eu & Du & Lu); [rewrite int_max_val; lia|lia|].
      rewrite Eu. cbn [bind].
      assert (Dsg : den (sign c u (v <? 0)) (sg ++ min_digits (w - zlen sg) (numeral 10 (Z.abs v)))).
      { apply sign_den; [assumption|]. rewrite int_max_val. lia. }
      destruct (spaceJustify_den c _ _ Hc Dsg) as (u2 & Eu2 & Du2). exists u2. split; [exact Eu2|].
      rewrite justify_full in Du2; [exact Du2|]. rewrite zlen_app, zlen_min_digits. unfold w. lia.
    + assert (Ewv : q_width (q_of c) = 0).
      { rewrite <- (width_nonleft c Hc El). unfold width. rewrite Ew. reflexivity. }
      destruct Plain as (u & Eu & Du). exists u. split; [exact Eu|].
      rewrite justify_full in Du by (rewrite Ewv; apply zlen_nonneg).
      rewrite Ewv. unfold zeros. rewrite rep_nonpos; [exact Du|].
      pose proof (zlen_nonneg (sign_text (q_of c) (v <? 0))). lia.
  - (* precision given *)
    rewrite P1. unfold c_d, no_prec, int_digits, pad_number. rewrite P3. rewrite andb_false_r. cbn [andb].
    assert (Ez : (Z.abs v =? 0) = (v =? 0)) by (destruct v; reflexivity). rewrite Ez.
    destruct ((v =? 0) && (c_prec c =? 0)) eqn:E0.
    + bools. subst v. cbn [Z.ltb Z.compare]. rewrite P3, H0 in Hnot.
      unfold sign_text. change (0 <? 0) with false. cbv iota.
      change (hasFlag c PLUS) with (q_plus (q_of c)).
      destruct (q_plus (q_of c)) eqn:Ep.
      * apply spaceJustify_den; [assumption|]. apply chS_den.
      * destruct (q_space (q_of c)) eqn:Esp; [exfalso; apply Hnot; auto|].
        apply spaceJustify_den; [assumption|apply emptyS_den].
    + cbn [bind].
      destruct (padDigits_den (c_prec c) _ _ HW) as (u & Eu & Du & Lu); [rewrite int_max_val; lia|lia|].
      rewrite Eu. cbn [bind]. apply spaceJustify_den; [assumption|].
      apply sign_den; [assumption|rewrite int_max_val; lia].
Qed.

(** ** Unsigned conversions *)

Lemma numeral_head_nonzero b n : 2 <= b <= 16 -> 0 < n -> exists d r, numeral b n = d :: r /\ d <> 48.
Proof.
  intros Hb Hn. unfold numeral. destruct (digits_head b n ltac:(lia) Hn) as (d & r & -> & Hd).
  exists (digit_char d), (map digit_char r). split; [reflexivity|]. unfold digit_char.
  destruct (d <? 10) eqn:E; bools; lia.
Qed.

(** the octal '#' rule on a padded numeral *)
Lemma force_zero_pad n p : 0 < n -> force_zero (min_digits p (numeral 8 n)) = txt "0" ++ min_digits (p - 1) (numeral 8 n).
Proof.
  intros Hn. unfold min_digits, zeros. set (t := numeral 8 n). destruct (Z_le_gt_dec p (zlen t)) as [H|H].
  - rewrite !rep_nonpos by lia. cbn [app]. destruct (numeral_head_nonzero 8 n ltac:(lia) Hn) as (d & r & E & Hd).
    unfold t. rewrite E. unfold force_zero. destruct d as [|d|d]; try reflexivity.
    do 6 (destruct d as [d|d|]; try reflexivity). tauto.
  - replace (p - zlen t) with ((p - 1 - zlen t) + 1) by lia. rewrite rep_succ by lia. reflexivity.
Qed.

Record uint_view (f : intform) (n : Z) (get : intform -> res (list Z)) (b : Z) : Prop := {
  uv_zero : (i_signum f =? 0) = (n =? 0);
  uv_get : get f = Ok (numeral b n) }.

Lemma fmtU_plain c f n get b prefix : rt_ok c -> uint_view f n get b -> 8 <= b <= 16 -> java_magnitude n ->
  (q_alt (q_of c) = false \/ prefix = []) ->
  exists u, formatUnsignedInteger c f get prefix = Ok u /\
    den u (pad_number (q_of c) (q_zero (q_of c) && no_prec (q_of c)) [] (int_digits b n (q_prec (q_of c)))).
Proof.
  intros Hc [Hz Hg] Hb Hj Halt. unfold formatUnsignedInteger. rewrite Hz, Hg.
  pose proof Hj as [Hn _].
  pose proof (numeral_fits b n ltac:(lia) Hj) as HL.
  pose proof (numeral_nonempty b n ltac:(lia) ltac:(lia)) as HL1.
  destruct (width_val c Hc) as (_ & _ & W3 & _).
  assert (HW : den (wrapS (numeral b n)) (numeral b n)) by (apply wrapS_den; rewrite int_max_val; lia).
  change (hasFlag c ALTERNATE) with (q_alt (q_of c)).
  change (hasFlag c ZERO_PAD) with (q_zero (q_of c)). change (hasFlag c LEFT_JUSTIFY) with (q_left (q_of c)).
  assert (Epre : forall s t, den s t -> den (if negb (n =? 0) && q_alt (q_of c) then s_prepend s (wrapS prefix) else s) t).
  { intros s t D. destruct Halt as [->| ->]; [rewrite andb_false_r; exact D|].
    destruct (negb (n =? 0) && q_alt (q_of c)); [|exact D].
    change t with ([] ++ t). apply s_prepend_den; [exact D|apply emptyS_den|cbn [app]; eapply den_max; eauto]. }
  assert (Eoct : q_alt (q_of c) && (match prefix with [48] => true | _ => false end) = false).
  { destruct Halt as [->| ->]; [reflexivity|apply andb_false_r]. }
  assert (Ew0 : (if q_alt (q_of c) then wrap32 (c_width c - zlen prefix) else c_width c) = c_width c).
  { destruct Halt as [->| ->]; [reflexivity|]. change (zlen (@nil Z)) with 0. rewrite Z.sub_0_r.
    destruct (q_alt (q_of c)); [|reflexivity]. apply wrap32_small. destruct Hc as [[Hw|[Hw|[Hw _]]] _]; unfold UNSET, int_min in *; lia. }
  destruct (prec_cases c Hc) as [(P1 & P2 & P3)|(P1 & P2 & P3)].
  - rewrite P1, P2. change (-1 =? 0) with false. rewrite andb_false_r. cbn [bind]. rewrite Ew0.
    unfold no_prec, int_digits, pad_number. rewrite P3, andb_true_r. cbn [app].
    assert (Plain : exists u, (let* v0 := padDigits 1 (wrapS (numeral b n)) in
        spaceJustify c (if negb (n =? 0) && q_alt (q_of c) then s_prepend v0 (wrapS prefix) else v0)) = Ok u /\
       den u (justify (q_of c) (numeral b n))).
    { destruct (padDigits_den 1 _ _ HW) as (u & Eu & Du & _); [rewrite int_max_val; lia|lia|].
      rewrite Eu. cbn [bind]. rewrite min_digits_le in Du by lia.
      apply spaceJustify_den; [assumption|]. apply Epre. exact Du. }
    destruct (q_zero (q_of c)) eqn:Ez, (q_left (q_of c)) eqn:El; rewrite ?andb_false_r; cbn [andb negb]; try exact Plain.
    destruct (isWidthSet c) eqn:Ew; cbn [andb].
    + assert (Ewv : c_width c = q_width (q_of c)).
      { rewrite <- (width_nonleft c Hc El). unfold width. rewrite Ew. reflexivity. }
      rewrite Ewv. set (w := q_width (q_of c)) in *.
      destruct (padDigits_den w _ _ HW) as (u & Eu & Du & Lu); [rewrite int_max_val; lia|lia|].
      rewrite Eu. cbn [bind]. pose proof (Epre _ _ Du) as Dp.
      destruct (spaceJustify_den c _ _ Hc Dp) as (u2 & Eu2 & Du2). exists u2. split; [exact Eu2|].
      rewrite justify_full in Du2 by (rewrite zlen_min_digits; unfold w; lia).
      unfold min_digits in Du2. change (zlen (@nil Z)) with 0. rewrite Z.sub_0_r. exact Du2.
    + assert (Ewv : q_width (q_of c) = 0).
      { rewrite <- (width_nonleft c Hc El). unfold width. rewrite Ew. reflexivity. }
      destruct Plain as (u & Eu & Du). exists u. split; [exact Eu|].
      rewrite justify_full in Du by (rewrite Ewv; apply zlen_nonneg).
      rewrite Ewv. unfold zeros. change (zlen (@nil Z)) with 0. rewrite rep_nonpos by lia. exact Du.
  - rewrite P1. unfold no_prec, int_digits, pad_number. rewrite P3, andb_false_r. cbn [andb app]. rewrite Eoct.
    destruct ((n =? 0) && (c_prec c =? 0)) eqn:E0.
    + apply spaceJustify_den; [assumption|apply emptyS_den].
    + cbn [bind].
      destruct (padDigits_den (c_prec c) _ _ HW) as (u & Eu & Du & Lu); [rewrite int_max_val; lia|lia|].
      rewrite Eu. cbn [bind]. apply spaceJustify_den; [assumption|]. apply Epre. exact Du.
Qed.

Lemma fmt_u_den c f n : rt_ok c -> uint_view f n i_udec 10 -> java_magnitude n ->
  exists u, fmt_u c f = Ok u /\ den u (c_u (q_of c) n).
Proof. intros. apply (fmtU_plain c f n i_udec 10 []); auto. lia. Qed.

(** the inputs on which %x with '#' follows C *)
Definition x_regular (q : fspec) (n : Z) : Prop :=
  q_alt q = false \/ n <> 0 \/ q_prec q <> None \/ q_zero q = false \/ q_left q = true.

Lemma fmt_x_den c f n : rt_ok c -> uint_view f n i_hex 16 -> java_magnitude n ->
  x_regular (q_of c) n ->
  exists u, fmt_x c f = Ok u /\ den u (c_x (q_of c) n).
Proof.
  intros Hc Hv Hj Hr. unfold fmt_x, c_x.
  destruct (q_alt (q_of c)) eqn:Ea; cbn [andb].
  2: { apply (fmtU_plain c f n i_hex 16 (txt "0x")); auto; lia. }
  destruct Hv as [Hz Hg]. unfold formatUnsignedInteger. rewrite Hz, Hg. pose proof Hj as [Hn _].
  pose proof (numeral_fits 16 n ltac:(lia) Hj) as HL.
  pose proof (numeral_nonempty 16 n ltac:(lia) ltac:(lia)) as HL1.
  destruct (width_val c Hc) as (_ & _ & W3 & _).
  assert (HW : den (wrapS (numeral 16 n)) (numeral 16 n)) by (apply wrapS_den; rewrite int_max_val; lia).
  change (hasFlag c ALTERNATE) with (q_alt (q_of c)). rewrite Ea.
  change (hasFlag c ZERO_PAD) with (q_zero (q_of c)). change (hasFlag c LEFT_JUSTIFY) with (q_left (q_of c)).
  change (match txt "0x" with [48] => true | _ => false end) with false. cbn [andb]. rewrite andb_true_r.
  set (pre := if negb (n =? 0) then txt "0x" else []).
  assert (Epre : forall s t, den s t -> zlen t <= 800000000 ->
            den (if negb (n =? 0) then s_prepend s (wrapS (txt "0x")) else s) (pre ++ t)).
  { intros s t D Lt. subst pre. destruct (n =? 0); cbn [negb]; [exact D|].
    apply s_prepend_den; [exact D|apply wrapS_den; vm_compute; discriminate|].
    rewrite zlen_app, int_max_val. change (zlen (txt "0x")) with 2. lia. }
  destruct (prec_cases c Hc) as [(P1 & P2 & P3)|(P1 & P2 & P3)].
  - rewrite P1, P2. change (-1 =? 0) with false. rewrite andb_false_r. cbn [bind].
    unfold no_prec, int_digits, pad_number. rewrite P3, andb_true_r.
    assert (Plain : exists u, (let* v0 := padDigits 1 (wrapS (numeral 16 n)) in
        spaceJustify c (if negb (n =? 0) then s_prepend v0 (wrapS (txt "0x")) else v0)) = Ok u /\
       den u (justify (q_of c) (pre ++ numeral 16 n))).
    { destruct (padDigits_den 1 _ _ HW) as (u & Eu & Du & _); [rewrite int_max_val; lia|lia|].
      rewrite Eu. cbn [bind]. rewrite min_digits_le in Du by lia.
      apply spaceJustify_den; [assumption|]. apply Epre; [exact Du|lia]. }
    destruct (q_zero (q_of c)) eqn:Ez, (q_left (q_of c)) eqn:El; rewrite ?andb_false_r; cbn [andb negb]; try exact Plain.
    assert (Hn0 : n <> 0).
    { destruct Hr as [Hr|[Hr|[Hr|[Hr|Hr]]]]; congruence. }
    assert (En : (n =? 0) = false) by (apply Z.eqb_neq; exact Hn0).
    destruct (isWidthSet c) eqn:Ew; cbn [andb].
    + assert (Ewv : c_width c = q_width (q_of c)).
      { rewrite <- (width_nonleft c Hc El). unfold width. rewrite Ew. reflexivity. }
      rewrite Ewv. set (w := q_width (q_of c)) in *. change (zlen (txt "0x")) with 2.
      rewrite wrap32_small by lia.
      destruct (padDigits_den (w - 2) _ _ HW) as (u & Eu & Du & Lu); [rewrite int_max_val; lia|lia|].
      rewrite Eu. cbn [bind]. assert (Dp := Epre _ _ Du ltac:(lia)).
      destruct (spaceJustify_den c _ _ Hc Dp) as (u2 & Eu2 & Du2). exists u2. split; [exact Eu2|].
      assert (Epv : pre = txt "0x") by (unfold pre; rewrite En; reflexivity).
      rewrite justify_full in Du2.
      2: { rewrite Epv, zlen_app, zlen_min_digits. change (zlen (txt "0x")) with 2. unfold w. lia. }
      unfold min_digits in Du2. rewrite Epv in *. change (zlen (txt "0x")) with 2. exact Du2.
    + assert (Ewv : q_width (q_of c) = 0).
      { rewrite <- (width_nonleft c Hc El). unfold width. rewrite Ew. reflexivity. }
      destruct Plain as (u & Eu & Du). exists u. split; [exact Eu|].
      rewrite justify_full in Du by (rewrite Ewv; apply zlen_nonneg).
      rewrite Ewv. unfold zeros. pose proof (zlen_nonneg pre). rewrite rep_nonpos by lia. exact Du.
  - rewrite P1. unfold no_prec, int_digits, pad_number. rewrite P3, andb_false_r. cbn [andb].
    destruct ((n =? 0) && (c_prec c =? 0)) eqn:E0.
    + bools. assert (pre = []) as -> by (unfold pre; rewrite H, Z.eqb_refl; reflexivity).
      apply spaceJustify_den; [assumption|apply emptyS_den].
    + cbn [bind].
      destruct (padDigits_den (c_prec c) _ _ HW) as (u & Eu & Du & Lu); [rewrite int_max_val; lia|lia|].
      rewrite Eu. cbn [bind]. apply spaceJustify_den; [assumption|]. apply Epre; [exact Du|lia].
Qed.

(** the inputs on which %o with '#' follows C *)
Definition o_regular (q : fspec) (n : Z) : Prop :=
  q_alt q = false \/ n <> 0 \/ (q_prec q = None /\ (q_zero q = false \/ q_left q = true)).

Lemma fmt_o_den c f n : rt_ok c -> uint_view f n i_oct 8 -> java_magnitude n ->
  o_regular (q_of c) n ->
  exists u, fmt_o c f = Ok u /\ den u (c_o (q_of c) n).
Proof.
  intros Hc Hv Hj Hr. unfold fmt_o, c_o. cbn zeta.
  destruct (q_alt (q_of c)) eqn:Ea; cbn [andb].
  2: { apply (fmtU_plain c f n i_oct 8 (txt "0")); auto; lia. }
  destruct Hv as [Hz Hg]. unfold formatUnsignedInteger. rewrite Hz, Hg. pose proof Hj as [Hn _].
  pose proof (numeral_fits 8 n ltac:(lia) Hj) as HL.
  pose proof (numeral_nonempty 8 n ltac:(lia) ltac:(lia)) as HL1.
  destruct (width_val c Hc) as (_ & _ & W3 & _).
  assert (HW : den (wrapS (numeral 8 n)) (numeral 8 n)) by (apply wrapS_den; rewrite int_max_val; lia).
  change (hasFlag c ALTERNATE) with (q_alt (q_of c)). rewrite Ea.
  change (hasFlag c ZERO_PAD) with (q_zero (q_of c)). change (hasFlag c LEFT_JUSTIFY) with (q_left (q_of c)).
  change (match txt "0" with [48] => true | _ => false end) with true. cbn [andb]. rewrite andb_true_r.
  change (zlen (txt "0")) with 1.
  set (pre := if negb (n =? 0) then txt "0" else []).
  assert (Epre : forall s t, den s t -> zlen t <= 800000000 ->
            den (if negb (n =? 0) then s_prepend s (wrapS (txt "0")) else s) (pre ++ t)).
  { intros s t D Lt. subst pre. destruct (n =? 0); cbn [negb]; [exact D|].
    apply s_prepend_den; [exact D|apply wrapS_den; vm_compute; discriminate|].
    rewrite zlen_app, int_max_val. change (zlen (txt "0")) with 1. lia. }
  assert (Enum : force_zero (numeral 8 n) = pre ++ numeral 8 n).
  { unfold pre. destruct (Z.eq_dec n 0) as [->|Hn0]; [reflexivity|].
    replace (n =? 0) with false by (symmetry; apply Z.eqb_neq; lia). cbn [negb].
    pose proof (force_zero_pad n 1 ltac:(lia)) as F. rewrite !min_digits_le in F by lia. exact F. }
  destruct (prec_cases c Hc) as [(P1 & P2 & P3)|(P1 & P2 & P3)].
  - rewrite P1, P2. change (-1 =? 0) with false. rewrite andb_false_r. cbn [bind].
    unfold no_prec, int_digits, pad_number. rewrite P3, andb_true_r. rewrite Enum. cbn [app].
    assert (Plain : exists u, (let* v0 := padDigits 1 (wrapS (numeral 8 n)) in
        spaceJustify c (if negb (n =? 0) then s_prepend v0 (wrapS (txt "0")) else v0)) = Ok u /\
       den u (justify (q_of c) (pre ++ numeral 8 n))).
    { destruct (padDigits_den 1 _ _ HW) as (u & Eu & Du & _); [rewrite int_max_val; lia|lia|].
      rewrite Eu. cbn [bind]. rewrite min_digits_le in Du by lia.
      apply spaceJustify_den; [assumption|]. apply Epre; [exact Du|lia]. }
    destruct (q_zero (q_of c)) eqn:Ez, (q_left (q_of c)) eqn:El; rewrite ?andb_false_r; cbn [andb negb]; try exact Plain.
    assert (Hn0 : n <> 0).
    { destruct Hr as [Hr|[Hr|[_ [Hr|Hr]]]]; congruence. }
    assert (En : (n =? 0) = false) by (apply Z.eqb_neq; exact Hn0).
    assert (Epv : pre = txt "0") by (unfold pre; rewrite En; reflexivity).
    change (zlen (@nil Z)) with 0. rewrite Z.sub_0_r.
    destruct (isWidthSet c) eqn:Ew; cbn [andb].
    + assert (Ewv : c_width c = q_width (q_of c)).
      { rewrite <- (width_nonleft c Hc El). unfold width. rewrite Ew. reflexivity. }
      rewrite Ewv. set (w := q_width (q_of c)) in *.
      rewrite wrap32_small by lia.
      destruct (padDigits_den (w - 1) _ _ HW) as (u & Eu & Du & Lu); [rewrite int_max_val; lia|lia|].
      rewrite Eu. cbn [bind]. assert (Dp := Epre _ _ Du ltac:(lia)).
      destruct (spaceJustify_den c _ _ Hc Dp) as (u2 & Eu2 & Du2). exists u2. split; [exact Eu2|].
      rewrite justify_full in Du2.
      2: { rewrite Epv, zlen_app, zlen_min_digits. change (zlen (txt "0")) with 1. unfold w. lia. }
      unfold min_digits, zeros in *. rewrite Epv in *. rewrite zlen_app. change (zlen (txt "0")) with 1.
      replace (w - (1 + zlen (numeral 8 n))) with (w - 1 - zlen (numeral 8 n)) by lia.
      change (txt "0") with (rep (ch "0") 1) in *. rewrite app_assoc in Du2 |- *.
      destruct (Z_le_gt_dec (w - 1 - zlen (numeral 8 n)) 0) as [Q|Q].
      * rewrite (rep_nonpos _ (w - 1 - _)) in * by lia. exact Du2.
      * rewrite <- rep_add in * by lia. rewrite Z.add_comm. exact Du2.
    + assert (Ewv : q_width (q_of c) = 0).
      { rewrite <- (width_nonleft c Hc El). unfold width. rewrite Ew. reflexivity. }
      destruct Plain as (u & Eu & Du). exists u. split; [exact Eu|].
      rewrite justify_full in Du by (rewrite Ewv; apply zlen_nonneg).
      rewrite Ewv. unfold zeros. pose proof (zlen_nonneg (pre ++ numeral 8 n)). rewrite rep_nonpos by lia. exact Du.
  - assert (Hn0 : n <> 0).
    { destruct Hr as [Hr|[Hr|[Hr _]]]; congruence. }
    assert (En : (n =? 0) = false) by (apply Z.eqb_neq; exact Hn0).
    rewrite P1. unfold no_prec, int_digits, pad_number. rewrite P3, andb_false_r. cbn [andb app].
    rewrite En. cbn [andb bind]. rewrite En in Epre. cbn [negb] in *.
    rewrite wrap32_small by lia.
    destruct (padDigits_den (c_prec c - 1) _ _ HW) as (u & Eu & Du & Lu); [rewrite int_max_val; lia|lia|].
    rewrite Eu. cbn [bind]. apply spaceJustify_den; [assumption|]. rewrite force_zero_pad by lia.
    assert (pre = txt "0") as Epv by (unfold pre; rewrite En; reflexivity). rewrite Epv in Epre.
    apply Epre; [exact Du|lia].
Qed.

(** ** Characters and strings *)

Lemma fmt_c_den c x : rt_ok c -> exists u, fmt_c c x = Ok u /\ den u (c_c (q_of c) x).
Proof. intros Hc. apply spaceJustify_den; [assumption|apply chS_den]. Qed.

Lemma fmt_s_den c a t : rt_ok c -> den_atom a t -> exists u, fmt_s c (Leaf a) = Ok u /\ den u (c_s (q_of c) t).
Proof.
  intros Hc Ha. unfold fmt_s, c_s. cbn [s_len]. rewrite (den_atom_len _ _ Ha).
  destruct (prec_cases c Hc) as [(P1 & P2 & P3)|(P1 & P2 & P3)]; rewrite P1, P3; cbn [andb bind].
  - apply spaceJustify_den; [assumption|constructor; exact Ha].
  - destruct (c_prec c <? zlen t) eqn:E; bools.
    + destruct (s_sub_leaf a t 0 (c_prec c) Ha) as (b & Eb & Db); try lia.
      rewrite Eb. cbn [bind]. apply spaceJustify_den; [assumption|].
      unfold slice in Db. rewrite Z.sub_0_r in Db. exact Db.
    + cbn [bind]. rewrite firstn_all2 by (unfold zlen in E; lia).
      apply spaceJustify_den; [assumption|constructor; exact Ha].
Qed.

(** %s of a composite sequence: right when nothing is cut *)
Lemma fmt_s_seq_den c s t : rt_ok c -> den s t ->
  (match q_prec (q_of c) with Some p => zlen t <= p | None => True end) ->
  exists u, fmt_s c s = Ok u /\ den u (c_s (q_of c) t).
Proof.
  intros Hc Hd Hp. unfold fmt_s, c_s. rewrite (den_len _ _ Hd).
  destruct (prec_cases c Hc) as [(P1 & P2 & P3)|(P1 & P2 & P3)]; rewrite P1, P3 in *; cbn [andb bind].
  - apply spaceJustify_den; assumption.
  - replace (c_prec c <? zlen t) with false by (symmetry; apply Z.ltb_ge; lia). cbn [bind].
    rewrite firstn_all2 by (unfold zlen in Hp; lia). apply spaceJustify_den; assumption.
Qed.
