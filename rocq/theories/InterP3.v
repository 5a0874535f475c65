(** C104: %f, %c and %s at the level of texts. *)
From Coq Require Import QArith.
From Verif Require Import Base Digits ContextM CompilerM SeqSpec FmtSpec FmtP FloatSpec FloatP FPDecP ExactSpec BigSpec WholeSpec FlagP InterSpec InterP InterP2.
Open Scope Z_scope.

(** ** %f *)
Definition body_of (q : fspec) (N : Z) : list Z := if q_alt q then alt_text N (prec_or 6 q) else decimal_text N (prec_or 6 q).
Definition least_body (q : fspec) : Z := 1 + (if prec_or 6 q =? 0 then (if q_alt q then 1 else 0) else prec_or 6 q + 1).
Lemma prec_or_nonneg q : prec_fine q -> 0 <= prec_or 6 q.
Proof. unfold prec_fine, prec_or. destruct (q_prec q); lia. Qed.
Lemma body_len q N : prec_fine q -> zlen (body_of q N) = zlen (numeral 10 (N / 10 ^ prec_or 6 q)) + least_body q - 1.
Proof.
  intros Hp. pose proof (prec_or_nonneg q Hp) as P. unfold body_of, least_body. destruct (q_alt q); [rewrite zlen_alt_text by exact P|rewrite zlen_decimal_text by exact P]; destruct (Z.eqb_spec (prec_or 6 q) 0); lia.
Qed.
Lemma body_least q N : prec_fine q -> 0 <= N -> least_body q <= zlen (body_of q N).
Proof.
  intros Hp HN. rewrite body_len by exact Hp. pose proof (prec_or_nonneg q Hp) as P. pose proof (Z.pow_pos_nonneg 10 _ ltac:(lia) P).
  pose proof (numeral_nonempty 10 (N / 10 ^ prec_or 6 q) ltac:(lia) ltac:(apply Z.div_pos; lia)). lia.
Qed.
Lemma shortest_least q : shortest_fixed q = least_body q + (if q_plus q || q_space q then 1 else 0).
Proof. unfold shortest_fixed, least_body. cbv zeta. lia. Qed.
Lemma least_body_pos q : prec_fine q -> 1 <= least_body q.
Proof. intros Hp. pose proof (prec_or_nonneg q Hp). unfold least_body. destruct (_ =? 0), (q_alt q); lia. Qed.

Lemma plainest_f_body q N : body_of (plainest_f q) N = body_of q N.
Proof.
  unfold body_of. change (prec_or 6 (plainest_f q)) with (prec_or 6 q). change (q_alt (plainest_f q)) with (q_alt q && (prec_or 6 q =? 0)). unfold alt_text.
  destruct (q_alt q); cbn [andb]; [|reflexivity]. destruct (Z.eqb_spec (prec_or 6 q) 0); [reflexivity|]. rewrite app_nil_r. reflexivity.
Qed.
Lemma plainest_f_prec q : prec_or 6 (plainest_f q) = prec_or 6 q. Proof. reflexivity. Qed.
Lemma plainest_f_sign q n : sign_text (plainest_f q) n = sign_text q n.
Proof. destruct q. apply sign_text_same. Qed.
Lemma sign_len q n : (if q_plus q || q_space q then 1 else 0) <= zlen (sign_text q n) <= 1.
Proof. unfold sign_text. destruct n, (q_plus q), (q_space q); cbn; lia. Qed.

Lemma plainest_f_field q t : 3 <= zlen t \/ shortest_fixed q <= zlen t -> 1 <= zlen t -> justify (plainest_f q) t = justify q t.
Proof. intros H H1. symmetry. rewrite !justify_just. unfold plainest_f. cbv zeta. cbn [q_width q_left]. apply just_plainest; lia. Qed.

Lemma plainest_f_finite q neg t : prec_fine q -> least_body q <= zlen t -> finite_text (plainest_f q) neg t = finite_text q neg t.
Proof.
  intros Hp Ht. pose proof (shortest_least q) as Sl. pose proof (least_body_pos q Hp). pose proof (sign_len q neg) as Ls. pose proof (zlen_nonneg (sign_text q neg)). unfold finite_text. rewrite plainest_f_sign. unfold pad_number.
  change (q_zero (plainest_f q)) with (q_zero q && negb (q_left q) && (shortest_fixed q <? q_width q)).
  change (q_left (plainest_f q)) with (q_left q && (Z.min 3 (shortest_fixed q) <? q_width q)).
  change (q_width (plainest_f q)) with (width_above (Z.min 3 (shortest_fixed q)) (q_width q)).
  assert (J : justify (plainest_f q) (sign_text q neg ++ t) = justify q (sign_text q neg ++ t)) by (apply plainest_f_field; rewrite zlen_app; lia).
  destruct (q_zero q && negb (q_left q)) eqn:Z0; cbn [andb].
  - apply andb_true_iff in Z0 as [_ Z0]. apply negb_true_iff in Z0. rewrite Z0. cbn [andb negb]. rewrite andb_true_r. destruct (Z.ltb_spec (shortest_fixed q) (q_width q)).
    + unfold width_above. destruct (Z.leb_spec (q_width q) (Z.min 3 (shortest_fixed q))); [lia|reflexivity].
    + rewrite J. rewrite justify_fits by (rewrite zlen_app; lia). rewrite zeros_neg by lia. reflexivity.
  - exact J.
Qed.

(** the numbers 0 and 10^k *)
Lemma body_power q k : prec_fine q -> 0 <= k ->
  count 48 (body_of q (10 ^ k * 10 ^ prec_or 6 q)) = k + prec_or 6 q /\ count 43 (body_of q (10 ^ k * 10 ^ prec_or 6 q)) = 0 /\
  zlen (body_of q (10 ^ k * 10 ^ prec_or 6 q)) = k + least_body q /\ blank_first (body_of q (10 ^ k * 10 ^ prec_or 6 q)) = false.
Proof.
  intros Hp Hk. pose proof (prec_or_nonneg q Hp) as P. set (p := prec_or 6 q) in *. pose proof (Z.pow_pos_nonneg 10 k ltac:(lia) Hk) as Pk. pose proof (Z.pow_pos_nonneg 10 p ltac:(lia) P) as Pp.
  assert (E : 10 ^ k * 10 ^ p / 10 ^ p = 10 ^ k) by (apply Z.div_mul; lia).
  assert (N : numeral 10 (10 ^ k) = 49 :: zeros k) by (rewrite <- (Z.mul_1_l (10 ^ k)), numeral_shift by lia; reflexivity).
  assert (Z48 : forall n, count 48 (zeros n) = Z.max 0 n) by (intros n; unfold zeros; rewrite count_rep; reflexivity).
  assert (Z43 : forall n, count 43 (zeros n) = 0) by (intros n; unfold zeros; rewrite count_rep; reflexivity).
  assert (D : decimal_text (10 ^ k * 10 ^ p) p = 49 :: zeros k ++ (if p =? 0 then [] else 46 :: zeros p)).
  { unfold decimal_text. rewrite E, N, fraction_shift by lia. reflexivity. }
  assert (L : zlen (body_of q (10 ^ k * 10 ^ p)) = k + least_body q) by (rewrite body_len by exact Hp; fold p; rewrite E, N, zlen_cons, zeros_len; lia).
  assert (B : body_of q (10 ^ k * 10 ^ p) = 49 :: zeros k ++ (if p =? 0 then (if q_alt q then [46] else []) else 46 :: zeros p)).
  { unfold body_of. fold p. unfold alt_text. rewrite D. destruct (q_alt q); [|destruct (p =? 0); reflexivity]. destruct (p =? 0); [rewrite app_nil_r; reflexivity|rewrite app_nil_r; reflexivity]. }
  refine (conj _ (conj _ (conj L _))); rewrite B; [| |reflexivity]; cbn [count]; rewrite count_app.
  - rewrite Z48. destruct (Z.eqb_spec p 0); [destruct (q_alt q); cbn; lia|]. cbn [count]. rewrite Z48. cbn. lia.
  - rewrite Z43. destruct (Z.eqb_spec p 0); [destruct (q_alt q); cbn; lia|]. cbn [count]. rewrite Z43. cbn. lia.
Qed.
Lemma body_zero q : prec_fine q -> count 48 (body_of q 0) = 1 + prec_or 6 q /\ zlen (body_of q 0) = least_body q /\ blank_last (body_of q 0) = false.
Proof.
  intros Hp. pose proof (prec_or_nonneg q Hp) as P. set (p := prec_or 6 q) in *. pose proof (Z.pow_pos_nonneg 10 p ltac:(lia) P) as Pp.
  assert (F : fraction p 0 = zeros p) by (rewrite <- (fraction_shift 0 p) by lia; f_equal; lia).
  assert (D : decimal_text 0 p = 48 :: (if p =? 0 then [] else 46 :: zeros p)) by (unfold decimal_text; rewrite Z.div_0_l, F by lia; reflexivity).
  assert (B : body_of q 0 = 48 :: (if p =? 0 then (if q_alt q then [46] else []) else 46 :: zeros p)).
  { unfold body_of. fold p. unfold alt_text. rewrite D. destruct (q_alt q); [|destruct (p =? 0); reflexivity]. destruct (p =? 0); [reflexivity|rewrite app_nil_r; reflexivity]. }
  assert (L : zlen (body_of q 0) = least_body q) by (rewrite body_len by exact Hp; fold p; rewrite Z.div_0_l by lia; change (zlen (numeral 10 0)) with 1; lia).
  refine (conj _ (conj L _)); rewrite B.
  - destruct (Z.eqb_spec p 0) as [E|]; [rewrite E; destruct (q_alt q); reflexivity|]. cbn [count]. unfold zeros. rewrite count_rep. cbn -[Z.max Z.add]. lia.
  - apply blank_last_no. constructor; [lia|]. destruct (Z.eqb_spec p 0); [destruct (q_alt q); repeat constructor; lia|]. constructor; [lia|apply zeros_chars].
Qed.

Lemma finite_fits q neg t : q_width q <= zlen t -> finite_text q neg t = sign_text q neg ++ t.
Proof. intros H. apply pad_number_fits. pose proof (zlen_nonneg (sign_text q neg)). lia. Qed.

Definition f_probe (q q' : fspec) : Z := q_width q + q_width q'.
Definition f_filled (q : fspec) : bool := q_zero q && negb (q_left q) && (shortest_fixed q <? q_width q).
(** the text of zero *)
Lemma fixed_zero q : prec_fine q ->
  count 48 (finite_text q false (body_of q 0)) = (if f_filled q then q_width q - shortest_fixed q else 0) + (1 + prec_or 6 q) /\
  zlen (finite_text q false (body_of q 0)) = Z.max (q_width q) (shortest_fixed q) /\
  blank_last (finite_text q false (body_of q 0)) = (q_left q && (shortest_fixed q <? q_width q)).
Proof.
  intros Hp. destruct (body_zero q Hp) as (C & L & B). pose proof (shortest_least q) as Sl. pose proof (least_body_pos q Hp) as Lp.
  assert (Sn : zlen (sign_text q false) = if q_plus q || q_space q then 1 else 0) by (unfold sign_text; destruct (q_plus q), (q_space q); reflexivity).
  assert (C0 : count 48 (sign_text q false) = 0) by (unfold sign_text; destruct (q_plus q), (q_space q); reflexivity).
  assert (Z48 : forall n, count 48 (zeros n) = Z.max 0 n) by (intros n; unfold zeros; rewrite count_rep; reflexivity).
  assert (Ne : body_of q 0 <> []) by (apply nonempty_len; lia).
  unfold finite_text, pad_number, f_filled. destruct (q_zero q && negb (q_left q)) eqn:Z0; cbn [andb].
  - apply andb_true_iff in Z0 as [_ Z0]. apply negb_true_iff in Z0. rewrite Z0. cbn [andb].
    rewrite !count_app, !zlen_app, Z48, zeros_len, C, C0, L, Sn. refine (conj _ (conj _ _)).
    + destruct (Z.ltb_spec (shortest_fixed q) (q_width q)); lia.
    + lia.
    + rewrite app_assoc, blank_last_app by exact Ne. exact B.
  - rewrite justify_just. rewrite count_just, just_len by lia. rewrite count_app, zlen_app, C, C0, L, Sn. refine (conj _ (conj _ _)); [lia|lia|].
    rewrite just_blank_last; [| |rewrite blank_last_app by exact Ne; exact B].
    + rewrite zlen_app, Sn, L. f_equal. f_equal. lia.
    + intros E. apply app_eq_nil in E as [_ E]. contradiction.
Qed.

Lemma plainest_f_unique q q' : prec_fine q -> prec_fine q' -> 0 <= q_width q -> 0 <= q_width q' ->
  alike (justify q (txt "NaN")) (justify q' (txt "NaN")) ->
  alike (finite_text q false (body_of q 0)) (finite_text q' false (body_of q' 0)) ->
  (let k := f_probe q q' in alike (finite_text q false (body_of q (10 ^ k * 10 ^ prec_or 6 q))) (finite_text q' false (body_of q' (10 ^ k * 10 ^ prec_or 6 q')))) ->
  plainest_f q = plainest_f q'.
Proof.
  intros Hp Hp' Hw Hw' Hn H0 Hb. cbv zeta in Hb. set (k := f_probe q q') in *. assert (Hk : q_width q <= k /\ q_width q' <= k) by (unfold k, f_probe; lia).
  pose proof (least_body_pos q Hp) as Lp. pose proof (least_body_pos q' Hp') as Lp'.
  destruct (body_power q k Hp ltac:(lia)) as (B1 & B2 & B3 & B4). destruct (body_power q' k Hp' ltac:(lia)) as (B1' & B2' & B3' & B4').
  rewrite !finite_fits in Hb by lia.
  assert (S48 : forall q, count 48 (sign_text q false) = 0) by (intros r; unfold sign_text; destruct (q_plus r), (q_space r); reflexivity).
  assert (S43 : forall q, count 43 (sign_text q false) = if q_plus q then 1 else 0) by (intros r; unfold sign_text; destruct (q_plus r), (q_space r); reflexivity).
  assert (Sl : forall q, zlen (sign_text q false) = if q_plus q || q_space q then 1 else 0) by (intros r; unfold sign_text; destruct (q_plus r), (q_space r); reflexivity).
  assert (Sb : forall q t, blank_first t = false -> blank_first (sign_text q false ++ t) = q_space q && negb (q_plus q)).
  { intros r t Ht. unfold sign_text. destruct (q_plus r), (q_space r); try reflexivity. exact Ht. }
  pose proof (al_zeros _ _ Hb) as E1. pose proof (al_plus _ _ Hb) as E2. pose proof (al_len _ _ Hb) as E3. pose proof (al_first _ _ Hb) as E4.
  rewrite !count_app, !S48, B1, B1' in E1. rewrite !count_app, !S43, B2, B2' in E2. rewrite !zlen_app, !Sl, B3, B3' in E3. rewrite !Sb in E4 by assumption. clear Hb.
  assert (Pp : prec_or 6 q = prec_or 6 q') by lia. assert (Pl : q_plus q = q_plus q') by (revert E2; clear; destruct (q_plus q), (q_plus q'); lia || reflexivity).
  assert (Sg : q_plus q || q_space q = q_plus q' || q_space q') by (rewrite <- Pl in *; destruct (q_plus q), (q_space q), (q_space q'); cbn in *; congruence).
  rewrite <- Sg in E3. assert (Lb : least_body q = least_body q') by lia.
  assert (Al : q_alt q && (prec_or 6 q =? 0) = q_alt q' && (prec_or 6 q' =? 0)).
  { rewrite <- Pp. unfold least_body in Lb. rewrite <- Pp in Lb. destruct (Z.eqb_spec (prec_or 6 q) 0); [|rewrite !andb_false_r; reflexivity]. destruct (q_alt q), (q_alt q'); lia || reflexivity. }
  assert (Sf : shortest_fixed q = shortest_fixed q') by (rewrite !shortest_least, <- Lb, <- Sg; reflexivity).
  clear B1 B2 B3 B4 B1' B2' B3' B4' E1 E2 E3. destruct (fixed_zero q Hp) as (F1 & F2 & F3). destruct (fixed_zero q' Hp') as (G1 & G2 & G3).
  pose proof (al_zeros _ _ H0) as Z1. pose proof (al_len _ _ H0) as Z2. pose proof (al_last _ _ H0) as Z3. rewrite F1, G1 in Z1. rewrite F2, G2 in Z2. rewrite F3, G3 in Z3. rewrite <- Pp, <- Sf in *. clear F1 F2 F3 G1 G2 G3 H0.
  pose proof (al_len _ _ Hn) as N1. pose proof (al_last _ _ Hn) as N2. rewrite !justify_just, !just_len in N1. change (zlen (txt "NaN")) with 3 in N1.
  rewrite !justify_just, !just_blank_last in N2 by (reflexivity || discriminate). change (zlen (txt "NaN")) with 3 in N2.
  assert (Ff : f_filled q = f_filled q').
  { destruct (f_filled q) eqn:X, (f_filled q') eqn:Y; try reflexivity; exfalso.
    - unfold f_filled in X. rewrite !andb_true_iff in X. destruct X as [_ X]. apply Z.ltb_lt in X. lia.
    - unfold f_filled in Y. rewrite !andb_true_iff in Y. destruct Y as [_ Y]. apply Z.ltb_lt in Y. lia. }
  assert (Sp : 1 <= shortest_fixed q) by (rewrite shortest_least; destruct (q_plus q || q_space q); lia).
  assert (Wd : Z.max (q_width q) (Z.min 3 (shortest_fixed q)) = Z.max (q_width q') (Z.min 3 (shortest_fixed q))) by lia.
  unfold plainest_f. cbv zeta. fold (f_filled q) (f_filled q'). rewrite <- Pp, <- Sf, <- Ff, <- Pl. rewrite <- Pl in E4. rewrite <- Al, <- E4. f_equal; [|apply above_unique; lia].
  destruct (Z.leb_spec (q_width q) (Z.min 3 (shortest_fixed q))).
  - replace (Z.min 3 (shortest_fixed q) <? q_width q) with false by (symmetry; apply Z.ltb_ge; lia). replace (Z.min 3 (shortest_fixed q) <? q_width q') with false by (symmetry; apply Z.ltb_ge; lia).
    rewrite !andb_false_r. reflexivity.
  - assert (Ew : q_width q = q_width q') by lia. rewrite <- Ew in *. replace (Z.min 3 (shortest_fixed q) <? q_width q) with true by (symmetry; apply Z.ltb_lt; lia). rewrite !andb_true_r.
    destruct (Z.ltb_spec 3 (q_width q)); [rewrite !andb_true_r in N2; exact N2|]. destruct (Z.ltb_spec (shortest_fixed q) (q_width q)); [rewrite !andb_true_r in Z3; exact Z3|lia].
Qed.

(** ** %c *)
Lemma plainest_c_same q c : justify (plainest Sc q) [c] = justify q [c].
Proof. symmetry. rewrite !justify_just. cbn [plainest q_width q_left]. apply just_plainest; [change (zlen [c]) with 1; lia|right; change (zlen [c]) with 1; lia]. Qed.
Lemma plainest_c_unique q q' : 0 <= q_width q -> 0 <= q_width q' -> alike (justify q [48]) (justify q' [48]) -> plainest Sc q = plainest Sc q'.
Proof.
  intros Hw Hw' H. pose proof (al_len _ _ H) as E. pose proof (al_last _ _ H) as E2. rewrite !justify_just, !just_len in E. rewrite !justify_just, !just_blank_last in E2 by (reflexivity || discriminate).
  change (zlen [48]) with 1 in *. cbn [plainest]. f_equal; [exact E2|apply above_unique; lia].
Qed.

(** ** %p *)
Lemma plainest_p_same q t : 3 <= zlen t -> justify (plainest Sp q) t = justify q t.
Proof. intros H. symmetry. rewrite !justify_just. cbn [plainest q_width q_left]. apply just_plainest; [exact H|right; exact H]. Qed.
Lemma plainest_p_unique q q' : 0 <= q_width q -> 0 <= q_width q' -> alike (justify q [97; 64; 48]) (justify q' [97; 64; 48]) -> plainest Sp q = plainest Sp q'.
Proof.
  intros Hw Hw' H. pose proof (al_len _ _ H) as E. pose proof (al_last _ _ H) as E2. rewrite !justify_just, !just_len in E. rewrite !justify_just, !just_blank_last in E2 by (reflexivity || discriminate).
  change (zlen [97; 64; 48]) with 3 in *. cbn [plainest]. f_equal; [exact E2|apply above_unique; lia].
Qed.

(** ** %s *)
Lemma leaf_start_below ts j : 0 < j -> leaf_start ts j < j.
Proof. revert j. induction ts as [|t ts IH]; intros j H; cbn [leaf_start]; [lia|]. destruct (Z.leb_spec j (zlen t)); [lia|]. specialize (IH (j - zlen t) ltac:(lia)). lia. Qed.
Lemma leaf_start_0 ts : leaf_start ts 0 = 0.
Proof. destruct ts as [|t ts]; cbn [leaf_start]; [reflexivity|]. pose proof (zlen_nonneg t). destruct (Z.leb_spec 0 (zlen t)); lia. Qed.

Lemma just_side w l l' t : w <= zlen t \/ t = [] -> just w l t = just w l' t.
Proof. intros [H| ->]; [rewrite !just_fits by exact H; reflexivity|]. unfold just. rewrite app_nil_r. destruct l, l'; reflexivity. Qed.
Lemma just_one w l l' t : w <= 1 -> just w l t = just w l' t.
Proof. intros H. apply just_side. destruct t; [right; reflexivity|left]. rewrite zlen_cons. pose proof (zlen_nonneg t). lia. Qed.
Definition s_left (q : fspec) : bool := q_left q && (1 <? q_width q) && match q_prec q with Some 0 => false | _ => true end.
Lemma s_side q t : prec_fine q -> 0 <= q_width q -> (forall p, q_prec q = Some p -> zlen t <= p) -> just (q_width q) (s_left q) t = just (q_width q) (q_left q) t.
Proof.
  intros Hp Hw Ht. unfold s_left. destruct (Z.ltb_spec 1 (q_width q)); [|apply just_one; lia]. rewrite andb_true_r. destruct (q_prec q) as [p|]; [|rewrite andb_true_r; reflexivity].
  destruct p; [|rewrite andb_true_r; reflexivity..]. apply just_side. right. specialize (Ht 0 eq_refl). destruct t; [reflexivity|]. rewrite zlen_cons in Ht. pose proof (zlen_nonneg t). lia.
Qed.
Lemma firstn_fits (t : list Z) p : 0 <= p -> zlen (firstn (Z.to_nat p) t) <= p.
Proof. intros H. unfold zlen. rewrite firstn_length. lia. Qed.

Lemma plainest_s_same s q t : text_conv s = true -> prec_fine q -> 0 <= q_width q -> c_s (plainest s q) t = c_s q t.
Proof.
  intros Hs Hp Hw. assert (E : plainest s q = mkSpec (s_left q) false false false false (q_width q) (q_prec q)) by (destruct s; try discriminate; reflexivity). rewrite E.
  unfold c_s. rewrite !justify_just. cbn [q_width q_left q_prec]. apply s_side; [exact Hp|exact Hw|]. intros p Ep. rewrite Ep. apply firstn_fits. unfold prec_fine in Hp. rewrite Ep in Hp. exact Hp.
Qed.
Lemma plainest_s_seq s q t ts : text_conv s = true -> prec_fine q -> 0 <= q_width q -> seq_text (plainest s q) t ts = seq_text q t ts.
Proof.
  intros Hs Hp Hw. assert (E : plainest s q = mkSpec (s_left q) false false false false (q_width q) (q_prec q)) by (destruct s; try discriminate; reflexivity). rewrite E.
  unfold seq_text. cbn [q_prec]. destruct (q_prec q) as [p|] eqn:Ep.
  - assert (P0 : 0 <= p) by (unfold prec_fine in Hp; rewrite Ep in Hp; exact Hp). destruct (Z.ltb_spec p (zlen t)).
    + rewrite !justify_just. unfold widen. cbn [q_width q_left]. unfold s_left. rewrite Ep. destruct (Z.eqb_spec p 0) as [->|Np].
      * rewrite leaf_start_0. apply just_side. right. reflexivity.
      * replace (match p with 0 => false | _ => true end) with true by (destruct p; [contradiction|reflexivity..]). rewrite andb_true_r. destruct (Z.ltb_spec 1 (q_width q)); [rewrite andb_true_r; reflexivity|].
        apply just_side. left. pose proof (leaf_start_below ts p ltac:(lia)). unfold zlen in *. rewrite firstn_length. lia.
    + rewrite !justify_just. cbn [q_width q_left]. apply s_side; [exact Hp|exact Hw|]. intros r E'. rewrite Ep in E'. injection E' as <-. lia.
  - rewrite !justify_just. cbn [q_width q_left]. apply s_side; [exact Hp|exact Hw|]. rewrite Ep. discriminate.
Qed.
Definition s_probe (q q' : fspec) : Z := 1 + (match q_prec q with Some p => p | None => 0 end) + (match q_prec q' with Some p => p | None => 0 end).
Lemma plainest_s_unique s q q' : text_conv s = true -> prec_fine q -> prec_fine q' -> 0 <= q_width q -> 0 <= q_width q' ->
  (forall n, n = 0 \/ n = 1 \/ n = s_probe q q' -> alike (c_s q (zeros n)) (c_s q' (zeros n))) -> plainest s q = plainest s q'.
Proof.
  intros Hs Hp Hp' Hw Hw' H.
  assert (E : forall q, plainest s q = mkSpec (s_left q) false false false false (q_width q) (q_prec q)) by (intros r; destruct s; try discriminate; reflexivity). rewrite !E. clear E.
  pose proof (H 0 ltac:(auto)) as H0. pose proof (H 1 ltac:(auto)) as H1. pose proof (H (s_probe q q') ltac:(auto)) as Hb. clear H.
  unfold c_s in *. rewrite !justify_just in *.
  assert (W : q_width q = q_width q').
  { pose proof (al_len _ _ H0) as E. rewrite !just_len in E. change (zeros 0) with (@nil Z) in E.
    assert (C : forall q, zlen (match q_prec q with Some p => firstn (Z.to_nat p) (@nil Z) | None => @nil Z end) = 0) by (intros r; destruct (q_prec r); [rewrite firstn_nil|]; reflexivity). rewrite !C in E. lia. }
  assert (P : q_prec q = q_prec q').
  { pose proof (al_zeros _ _ Hb) as E. rewrite !count_just in E by lia. unfold s_probe, prec_fine in *.
    assert (C : forall n p, 0 <= p -> count 48 (firstn (Z.to_nat p) (zeros n)) = Z.min p (Z.max 0 n)).
    { intros n p B. assert (firstn (Z.to_nat p) (zeros n) = zeros (Z.min p (Z.max 0 n))) as ->.
      { unfold zeros, rep. replace (Z.to_nat (Z.min p (Z.max 0 n))) with (Nat.min (Z.to_nat p) (Z.to_nat n)) by lia. generalize (Z.to_nat p), (Z.to_nat n). clear.
        induction n as [|n IH]; intros [|m]; cbn; try reflexivity. f_equal. apply IH. }
      unfold zeros. rewrite count_rep. cbn [Z.eqb]. change (ch "0" =? 48) with true. cbv iota. lia. }
    assert (C0 : forall n, count 48 (zeros n) = Z.max 0 n) by (intros n; unfold zeros; rewrite count_rep; reflexivity).
    destruct (q_prec q) as [p|], (q_prec q') as [p'|]; rewrite ?C, ?C0 in E by lia; [f_equal; lia|lia|lia|reflexivity]. }
  rewrite <- W, <- P. f_equal. unfold s_left. rewrite <- W, <- P. destruct (Z.ltb_spec 1 (q_width q)) as [B|B]; [|rewrite !andb_false_r; reflexivity]. rewrite !andb_true_r.
  pose proof (al_last _ _ H1) as E. rewrite <- W, <- P in E. unfold prec_fine in Hp. change (zeros 1) with [48] in E.
  assert (C : match q_prec q with Some 0 => false | _ => true end = true -> match q_prec q with Some p => firstn (Z.to_nat p) [48] | None => [48] end = [48]).
  { destruct (q_prec q) as [p|]; [|reflexivity]. intros X. destruct p as [|p|p]; [discriminate| |lia]. cbn [Z.to_nat]. destruct (Pos2Nat.is_succ p) as [n ->]. cbn. rewrite firstn_nil. reflexivity. }
  destruct (match q_prec q with Some 0 => false | _ => true end); [|rewrite !andb_false_r; reflexivity]. rewrite !andb_true_r. rewrite C in E by reflexivity.
  rewrite !just_blank_last in E by (reflexivity || discriminate). change (zlen [48]) with 1 in E. replace (1 <? q_width q) with true in E by (symmetry; apply Z.ltb_lt; exact B). rewrite !andb_true_r in E. exact E.
Qed.
