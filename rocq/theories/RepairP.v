(** Proofs about the repaired conversions of RepairM.v. *)
From Verif Require Import Base Digits UtilsM SeqM SeqSpec SeqP SeqSubP ContextM CompilerM IntFormM FormatterM FmtSpec FmtP FmtP2 MathM DecimalM FPDecimalM DoubleM BigDecM
  RoundM TraitsM ImplM DecSpec FloatSpec BigSpec FPDecP FloatP DoubleP AnnP BigDecP BigGenP CastP FloatArgP RepairM.
Open Scope Z_scope.

(** ** subSequence *)

Lemma s_sub'_den s t i j : den s t -> 0 <= i -> i <= j -> j <= zlen t -> exists u, s_sub' s i j = Ok u /\ den u (slice t i j).
Proof.
  intros Hd Hi Hij Hj. pose proof (den_wden _ _ Hd) as Hw. pose proof (wden_ne _ _ Hw) as Hne.
  pose proof (den_len _ _ Hd) as Hl. pose proof (den_max _ _ Hd) as Hm. destruct (wden_leaves _ _ Hw) as (ts & F & Et).
  assert (G : exists u,
    (let* _ := checkPositionIndexes i j (s_len s) in
     if i =? j then Ok (Leaf AEmpty)
     else if (i =? 0) && (j =? s_len s) then Ok s
     else
       let* atoms := Ok (leaves s) in
       let* (buf, _, _) := sub_loop atoms i j [] in
       match buf with
       | [x] => Ok (Leaf x)
       | _ => Ok (Arr buf (wrap32 (j - i)))
       end) = Ok u /\ den u (slice t i j)).
  { rewrite checkIdxs_ok by lia. cbn [bind]. destruct (i =? j) eqn:E; bools.
    { subst j. eexists; split; [reflexivity|]. rewrite slice_empty by lia. constructor; split; [vm_compute; discriminate|reflexivity]. }
    destruct ((i =? 0) && (j =? s_len s)) eqn:E2.
    { apply andb_prop in E2 as [E2 E3]. bools. eexists; split; [reflexivity|]. subst i. replace j with (zlen t) by lia. rewrite slice_full. assumption. }
    subst t. destruct (sub_loop_spec (leaves s) ts i j [] F) as (init & it & x & last & s' & e' & R1 & R2 & R3 & R4 & R5 & R6 & R7); try lia.
    rewrite R1. cbn [bind app].
    assert (Hlast : zlen (concat it ++ last) = j - i) by (rewrite R6; rewrite zlen_slice by lia; lia).
    rewrite wrap32_id by (unfold is_int, int_min; lia).
    destruct init as [|p0 init].
    - inversion R2; subst. cbn [app concat] in *. eexists; split; [reflexivity|]. rewrite <- R6. constructor; exact R4.
    - inversion R2; subst. cbn [app]. exists (Arr (p0 :: init ++ [x]) (j - i)). split.
      { destruct (init ++ [x]) as [|q l2] eqn:Eq; [destruct init; discriminate|]. reflexivity. }
      rewrite <- R6, <- Hlast. replace (concat (y :: l') ++ last) with (concat ((y :: l') ++ [last])) by (rewrite concat_app; cbn [concat]; rewrite app_nil_r; reflexivity).
      constructor.
      + constructor; [assumption|]. apply Forall2_app; [assumption|]. constructor; [exact R4|constructor].
      + rewrite concat_app. cbn [concat]. rewrite app_nil_r. cbn [concat] in *. rewrite Hlast. lia. }
  destruct s.
  - inversion Hd; subst. cbn [s_sub']. destruct (a_sub_den _ _ i j H0) as (b & Eb & Db); try lia. rewrite Eb. cbn [bind]. eexists; split; [reflexivity|]. constructor; exact Db.
  - unfold s_sub'. rewrite s_iter_spec by exact Hne. exact G.
  - unfold s_sub'. rewrite s_iter_spec by exact Hne. exact G.
Qed.

Lemma s_sub'_bad s t i j : den s t -> ~ (0 <= i /\ i <= j /\ j <= zlen t) -> s_sub' s i j = s_sub s i j.
Proof.
  intros Hd Hb. pose proof (den_len _ _ Hd) as Hl. destruct s; [reflexivity| |]; unfold s_sub', s_sub; rewrite checkIdxs_bad by lia; reflexivity.
Qed.

(** ** integers *)

Lemma fmt_d'_den c f v : rt_ok c -> int_view f v -> java_magnitude (Z.abs v) -> exists u, fmt_d' c f = Ok u /\ den u (c_d (q_of c) v).
Proof.
  intros Hc Hv Hj. unfold fmt_d'. destruct Hv as [Hs Hd]. rewrite Hs. assert (Esg : (Z.sgn v =? 0) = (v =? 0)) by (destruct v; reflexivity). rewrite Esg.
  destruct ((v =? 0) && (c_prec c =? 0)) eqn:E.
  - apply andb_prop in E as [Ev Ep]. bools. subst v. destruct (prec_cases c Hc) as [(P1 & P2 & P3)|(P1 & P2 & P3)]; [lia|].
    unfold c_d, pad_number, no_prec, int_digits. rewrite P3, Ep. rewrite andb_false_r. cbn [andb Z.abs Z.ltb Z.eqb Z.compare].
    apply spaceJustify_den; [exact Hc|]. apply sign_den; [apply emptyS_den|reflexivity].
  - apply fmt_d_den; [exact Hc|split; assumption|exact Hj|]. intros (-> & P & _). destruct (prec_cases c Hc) as [(P1 & P2 & P3)|(P1 & P2 & P3)]; rewrite P3 in P; [discriminate|].
    injection P as P. rewrite P in E. discriminate E.
Qed.

(** without the '#' flag *)
Definition no_alt (c : ctx) : ctx :=
  mkCtx (mkFlags (f_left (c_flags c)) false (f_plus (c_flags c)) (f_space (c_flags c)) (f_zero (c_flags c))) (c_width c) (c_prec c) (c_dtf c).

Lemma no_alt_ok c : rt_ok c -> rt_ok (no_alt c).
Proof. intros H. exact H. Qed.

(** for a number other than 0 nothing changes *)
Lemma unsigned'_same c f get prefix : (i_signum f =? 0) = false -> formatUnsignedInteger' c f get prefix = formatUnsignedInteger c f get prefix.
Proof.
  intros E. unfold formatUnsignedInteger', formatUnsignedInteger. rewrite E. cbn [andb negb]. rewrite andb_true_r. destruct (get f); [|reflexivity]. cbn [bind]. reflexivity.
Qed.

(** for 0 the '#' flag plays no role, except for "%#.0o" *)
Lemma unsigned'_zero c f get prefix : (i_signum f =? 0) = true ->
  hasFlag c ALTERNATE && (match prefix with [48] => true | _ => false end) && (c_prec c =? 0) = false ->
  formatUnsignedInteger' c f get prefix = formatUnsignedInteger (no_alt c) f get prefix.
Proof.
  intros E O. unfold formatUnsignedInteger', formatUnsignedInteger. rewrite E. cbn [andb negb]. rewrite andb_false_r.
  change (hasFlag (no_alt c) ALTERNATE) with false. cbn [andb]. change (c_prec (no_alt c)) with (c_prec c).
  destruct (c_prec c =? 0); [rewrite andb_true_r in O; rewrite O; reflexivity|]. reflexivity.
Qed.

Lemma fmt_x'_den c f n : rt_ok c -> uint_view f n i_hex 16 -> java_magnitude n -> exists u, fmt_x' c f = Ok u /\ den u (c_x (q_of c) n).
Proof.
  intros Hc Hv Hj. unfold fmt_x'. destruct (n =? 0) eqn:E.
  - rewrite unsigned'_zero; [|destruct Hv as [-> _]; exact E|rewrite andb_false_r; reflexivity].
    destruct (fmtU_plain (no_alt c) f n i_hex 16 (txt "0x") (no_alt_ok c Hc) Hv ltac:(lia) Hj (or_introl eq_refl)) as (u & Eu & Du). exists u. split; [exact Eu|].
    unfold c_x. rewrite E. cbn [negb]. rewrite andb_false_r. exact Du.
  - rewrite unsigned'_same by (destruct Hv as [-> _]; exact E). apply fmt_x_den; try assumption. right. left. bools. exact E.
Qed.

Lemma force_zero_zero p : 1 <= p -> force_zero (min_digits p (txt "0")) = min_digits p (txt "0").
Proof.
  intros H. unfold min_digits, zeros. destruct (Z.eq_dec p 1) as [->|Np]; [reflexivity|]. change (zlen (txt "0")) with 1.
  replace (p - 1) with (p - 2 + 1) by lia. rewrite rep_succ by lia. reflexivity.
Qed.

Lemma fmt_o'_den c f n : rt_ok c -> uint_view f n i_oct 8 -> java_magnitude n -> exists u, fmt_o' c f = Ok u /\ den u (c_o (q_of c) n).
Proof.
  intros Hc Hv Hj. unfold fmt_o'. destruct (n =? 0) eqn:E.
  - assert (n = 0) by (bools; assumption). subst n. destruct (hasFlag c ALTERNATE && (c_prec c =? 0)) eqn:O.
    + apply andb_prop in O as [O P]. unfold formatUnsignedInteger'. destruct Hv as [Hz _]. rewrite Hz, P, O. cbn [Z.eqb andb].
      destruct (prec_cases c Hc) as [(P1 & P2 & P3)|(P1 & P2 & P3)]; [rewrite P2 in P; discriminate P|].
      unfold c_o, pad_number, no_prec, int_digits. rewrite P3, P. change (q_alt (q_of c)) with (hasFlag c ALTERNATE). rewrite O. rewrite andb_false_r. cbn [andb Z.eqb app].
      apply spaceJustify_den; [exact Hc|apply chS_den].
    + rewrite unsigned'_zero; [|destruct Hv as [-> _]; reflexivity|].
      2:{ destruct (hasFlag c ALTERNATE); [|reflexivity]. cbn [andb] in O. rewrite O. apply andb_false_r. }
      destruct (fmtU_plain (no_alt c) f 0 i_oct 8 (txt "0") (no_alt_ok c Hc) Hv ltac:(lia) Hj (or_introl eq_refl)) as (u & Eu & Du). exists u. split; [exact Eu|].
      change (q_prec (q_of (no_alt c))) with (q_prec (q_of c)) in Du. unfold c_o. cbv zeta.
      assert (Ef : (if q_alt (q_of c) then force_zero (int_digits 8 0 (q_prec (q_of c))) else int_digits 8 0 (q_prec (q_of c))) = int_digits 8 0 (q_prec (q_of c))).
      { destruct (q_alt (q_of c)) eqn:Ea; [|reflexivity]. change (q_alt (q_of c)) with (hasFlag c ALTERNATE) in Ea. rewrite Ea in O. cbn [andb] in O.
        destruct (prec_cases c Hc) as [(P1 & P2 & P3)|(P1 & P2 & P3)]; rewrite P3; [reflexivity|]. cbn [int_digits]. rewrite O. cbn [Z.eqb andb].
        change (numeral 8 0) with (txt "0"). apply force_zero_zero. bools. lia. }
      rewrite Ef. exact Du.
  - rewrite unsigned'_same by (destruct Hv as [-> _]; exact E). apply fmt_o_den; try assumption. right. left. bools. exact E.
Qed.

(** ** NaN and infinities *)

Lemma special'_den c b : rt_ok c -> inf_bits <= magnitude b ->
  exists u, nanOrInfinity' c (doubleForm b) = Ok u /\ den u (if magnitude b =? inf_bits then c_inf (q_of c) (b <? 0) else c_nan (q_of c)).
Proof.
  intros Hr Hb. destruct (double_class b) as [E1 E2]. unfold nanOrInfinity'. cbn [doubleForm f_isNaN f_signum]. rewrite E1.
  destruct (Z.ltb_spec inf_bits (magnitude b)) as [L|L].
  - replace (magnitude b =? inf_bits) with false by (symmetry; apply Z.eqb_neq; lia). apply spaceJustify_den; [exact Hr|]. apply wrap_den. vm_compute. discriminate.
  - assert (E : magnitude b = inf_bits) by lia. rewrite E, Z.eqb_refl.
    assert (C : (dbl_compare0 b <? 0) = (b <? 0)).
    { unfold dbl_compare0, dbl_neg, dbl_isZero. change (dbl_mag b) with (magnitude b). rewrite E1, E. change (inf_bits <? inf_bits) with false. change (inf_bits =? 0) with false. destruct (b <? 0); reflexivity. }
    rewrite C. unfold c_inf. apply spaceJustify_den; [exact Hr|]. apply sign_den; [apply wrap_den; vm_compute; discriminate|reflexivity].
Qed.

(** ** texts *)

Lemma fmt_s'_den c s t : rt_ok c -> den s t -> exists u, fmt_s' c s = Ok u /\ den u (c_s (q_of c) t).
Proof.
  intros Hc Hd. unfold fmt_s', c_s. rewrite (den_len _ _ Hd).
  destruct (prec_cases c Hc) as [(P1 & P2 & P3)|(P1 & P2 & P3)]; rewrite P1, P3; cbn [andb bind].
  - apply spaceJustify_den; assumption.
  - destruct (c_prec c <? zlen t) eqn:E; bools; cbn [bind].
    + destruct (s_sub'_den s t 0 (c_prec c) Hd) as (b & Eb & Db); try lia. rewrite Eb. cbn [bind]. apply spaceJustify_den; [assumption|].
      unfold slice in Db. rewrite Z.sub_0_r in Db. exact Db.
    + rewrite firstn_all2 by (unfold zlen in E; lia). apply spaceJustify_den; assumption.
Qed.

(** ** %g *)

Lemma strip'_cut s A F : den s (A ++ ch "." :: F) -> index_of (ch ".") A = -1 ->
  stripTrailingZeros' s = s_sub' s 0 (zlen (A ++ strip_fraction F)).
Proof.
  intros Hd Ha. unfold stripTrailingZeros'. rewrite (s_indexOf_wden _ _ _ (den_wden _ _ Hd) (den_max _ _ Hd)). cbn [bind].
  rewrite index_of_app, Ha. cbn [index_of]. change (ch "." =? ch ".") with true. cbn match. change (-1 =? -1) with true. change (0 =? -1) with false. cbn match.
  pose proof (zlen_nonneg A) as La. rewrite Z.add_0_r. unfold NOT_FOUND. replace (zlen A =? -1) with false by (symmetry; apply Z.eqb_neq; lia).
  rewrite (den_len _ _ Hd). rewrite zlen_app, zlen_cons in *. pose proof (zlen_nonneg F) as Lf.
  replace (zlen A + (1 + zlen F) - 1) with (zlen A + zlen F) by lia.
  rewrite (stripLoop_spec s A F []); [|rewrite app_nil_r; exact Hd|unfold zlen; lia]. cbn [bind]. f_equal.
  unfold strip_fraction. rewrite zlen_app. pose proof (zlen_nonneg (strip0 F)). destruct (strip0 F) as [|y r].
  - change (zlen (@nil Z)) with 0. rewrite Z.add_0_r, Z.eqb_refl. lia.
  - rewrite !zlen_cons in *. pose proof (zlen_nonneg r). replace (zlen A + (1 + zlen r) =? zlen A) with false by (symmetry; apply Z.eqb_neq; lia). lia.
Qed.

Lemma strip'_den s A F : den s (A ++ ch "." :: F) -> index_of (ch ".") A = -1 ->
  exists u, stripTrailingZeros' s = Ok u /\ den u (A ++ strip_fraction F).
Proof.
  intros Hd Ha. rewrite (strip'_cut s A F Hd Ha).
  assert (exists R, A ++ ch "." :: F = (A ++ strip_fraction F) ++ R) as [R ER].
  { destruct (strip0_prefix F) as (k & E & Hk). unfold strip_fraction. destruct (strip0 F) as [|y r].
    - exists (ch "." :: rep (ch "0") k). rewrite E, app_nil_r. reflexivity.
    - exists (rep (ch "0") k). rewrite E, <- !app_assoc. reflexivity. }
  destruct (s_sub'_den s _ 0 (zlen (A ++ strip_fraction F)) Hd) as (u & Eu & Du).
  - lia.
  - apply zlen_nonneg.
  - rewrite ER. rewrite (zlen_app (A ++ strip_fraction F) R). pose proof (zlen_nonneg R). lia.
  - exists u. split; [exact Eu|]. rewrite ER, slice_prefix in Du. exact Du.
Qed.

Lemma strip'_decimal s N p : den s (decimal_text N p) -> 0 <= N -> 0 <= p -> exists u, stripTrailingZeros' s = Ok u /\ den u (short_text N p).
Proof.
  intros Hd HN Hp. destruct (Z.eq_dec p 0) as [->|Ep].
  - rewrite short_text_0. exists s. split; [|exact Hd]. unfold stripTrailingZeros'. rewrite (s_indexOf_wden _ _ _ (den_wden _ _ Hd) (den_max _ _ Hd)). cbn [bind].
    rewrite decimal_text_dot by lia. reflexivity.
  - rewrite short_text_strip by lia. rewrite decimal_text_split in Hd by lia. apply strip'_den; [exact Hd|]. pose proof (pow10_pos p Hp). apply no_dot, numeral_dig, Z.div_pos; lia.
Qed.

Lemma strip'_dot s N : den s (alt_text N 0) -> 0 <= N -> exists u, stripTrailingZeros' s = Ok u /\ den u (decimal_text N 0).
Proof.
  intros Hd HN. unfold alt_text in Hd. cbn [Z.eqb] in Hd. change (txt ".") with (ch "." :: []) in Hd.
  destruct (strip'_den s (decimal_text N 0) [] Hd) as (u & E & D); [rewrite decimal_text_dot by lia; reflexivity|].
  exists u. unfold strip_fraction in *. cbn [strip0] in *. rewrite app_nil_r in *. auto.
Qed.

(** padToPrecision of a text that ends with the point *)
Lemma padToPrecision_dot s N P : den s (alt_text N 0) -> 0 < N -> 0 <= P <= 70000 -> zlen (decimal_text N 0) + P + 2 <= int_max ->
  exists u, padToPrecision s P = Ok u /\ den u (alt_text (N * 10 ^ Z.max 0 (P - ndigits N)) (Z.max 0 (P - ndigits N))).
Proof.
  intros Hd HN HP Hm. unfold padToPrecision. change 0 with (zlen (@nil Z)) at 1.
  rewrite (sigLoop_spec s (alt_text N 0) []); [|exact Hd|rewrite (den_len _ _ Hd); unfold zlen; lia].
  assert (Es : sigc (alt_text N 0) 0 false = (ndigits N, true)).
  { unfold alt_text. rewrite sigc_app, sigc_decimal by lia. reflexivity. }
  cbn [bind]. rewrite Es. cbn [bind].
  rewrite (s_indexOf_wden _ _ (ch "0") (den_wden _ _ Hd) (den_max _ _ Hd)). cbn [bind negb andb].
  rewrite (s_indexOf_wden _ _ _ (den_wden _ _ Hd) (den_max _ _ Hd)). cbn [bind].
  assert (Ei : (index_of (ch ".") (alt_text N 0) =? -1) = false).
  { unfold alt_text. rewrite index_of_app, decimal_text_dot by lia. pose proof (zlen_nonneg (decimal_text N 0)). cbn -[zlen]. destruct (zlen (decimal_text N 0) + 0 =? -1) eqn:E; bools; [lia|reflexivity]. }
  rewrite Ei. destruct (ndigits_bounds N HN) as (N1 & _ & _). assert (Ln : ndigits N = zlen (decimal_text N 0)).
  { rewrite integer_text, zlen_numeral. reflexivity. }
  rewrite int_max_val in *. rewrite (wrap32_small (P - ndigits N)) by lia.
  destruct (0 <? P - ndigits N) eqn:E; bools.
  - rewrite Z.max_r by lia. pose proof (append_zeros _ _ (P - ndigits N) Hd ltac:(lia)) as Z. rewrite wrap32_small in Z by lia.
    destruct Z as (u & Eu & Du). { rewrite zlen_alt_text by lia. rewrite Z.pow_0_r, Z.div_1_r, zlen_numeral. fold (ndigits N). rewrite int_max_val. lia. }
    exists u. split; [exact Eu|]. rewrite alt_text_pad in Du by lia. rewrite Z.add_0_l in Du. exact Du.
  - rewrite Z.max_l by lia. rewrite Z.mul_1_r. eexists. split; [reflexivity|exact Hd].
Qed.
