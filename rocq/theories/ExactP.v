(** Exact results where a property fails: the length recorded for a slice, and what depends on it. *)
From Coq Require Import QArith Qabs Qpower Lqa.
From Verif Require Import Base Digits UtilsM SeqM SeqSpec SeqP SeqSubP SeqExpr SeqExprP ContextM CompilerM GrammarSpec IntFormM FormatterM MathM MathP DecimalM FPDecimalM DoubleM BigDecM RoundM TraitsM ImplM
  ReadSpec ReadP FmtSpec FmtP FmtP2 DirSpec GCheck CertTable CertCheck IrrCheck SchubM ShortP SchubP DecSpec RoundP FloatSpec FPDecP FloatP DoubleP CastP NearP FloatQ FloatArgP IntP PropsInt PropsDouble PropsFloat BigSpec AnnP BigDecP BigGenP PropsBig WidthP
  ReadFSpec ReadFP ReadFP2 BigReadP ExactSpec.
Open Scope Z_scope.

(** ** slices *)

Lemma leaf_start_range ts : forall j, 0 <= j -> 0 <= leaf_start ts j <= j.
Proof.
  induction ts as [|t r IH]; intros j Hj; cbn [leaf_start]; [lia|]. destruct (Z.leb_spec j (zlen t)) as [L|L]; [lia|].
  pose proof (zlen_nonneg t). specialize (IH (j - zlen t) ltac:(lia)). lia.
Qed.

Lemma leaf_start_before ts : forall j, 0 < j -> j <= zlen (concat ts) -> leaf_start ts j < j.
Proof.
  induction ts as [|t r IH]; intros j Hj Hl; cbn [leaf_start concat] in *; [lia|]. rewrite zlen_app in Hl. destruct (Z.leb_spec j (zlen t)) as [L|L]; [lia|].
  specialize (IH (j - zlen t) ltac:(lia) ltac:(lia)). lia.
Qed.

Lemma sub_loop_length atoms : forall ts start end_ buf b s' e', Forall2 den_atom atoms ts -> 0 <= start -> start < end_ -> end_ <= zlen (concat ts) ->
  sub_loop atoms start end_ buf = Ok (b, s', e') -> e' - s' = end_ - Z.max start (leaf_start ts end_).
Proof.
  induction atoms as [|a r IH]; intros ts start end_ buf b s' e' F Hs Hse He E; inversion F as [|a0 t r0 ts' Ha Hr]; subst; cbn [sub_loop concat leaf_start] in *.
  - change (zlen (@nil Z)) with 0 in He. lia.
  - rewrite (den_atom_len _ _ Ha) in E. rewrite zlen_app in He. pose proof (zlen_nonneg t). destruct (Z.ltb_spec start (zlen t)) as [L|L].
    + destruct (Z.leb_spec end_ (zlen t)) as [M|M].
      * destruct (a_sub a start end_) as [x|x]; cbn [bind] in E; [|discriminate]. injection E as <- <- <-. lia.
      * destruct (a_sub a start (zlen t)) as [x|x]; cbn [bind] in E; [|discriminate].
        pose proof (IH ts' 0 (end_ - zlen t) _ b s' e' Hr ltac:(lia) ltac:(lia) ltac:(lia) E). pose proof (leaf_start_range ts' (end_ - zlen t) ltac:(lia)). lia.
    + replace (end_ <=? zlen t) with false by (symmetry; apply Z.leb_gt; lia).
      pose proof (IH ts' (start - zlen t) (end_ - zlen t) _ b s' e' Hr ltac:(lia) ltac:(lia) ltac:(lia) E). lia.
Qed.

(** the recorded length of a slice counts the characters from its last leaf *)
Lemma s_sub_length s t ts i j u : den s t -> Forall2 den_atom (leaves s) ts -> 0 <= i -> i < j -> j <= zlen t -> (0 < i \/ j < zlen t) ->
  s_sub s i j = Ok u -> s_len u = j - Z.max i (leaf_start ts j).
Proof.
  intros Hd F Hi Hij Hj Hp E. pose proof (den_wden _ _ Hd) as Hw. pose proof (wden_ne _ _ Hw) as Hne. pose proof (den_len _ _ Hd) as Hl. pose proof (den_max _ _ Hd) as Hm.
  assert (Et : t = concat ts).
  { destruct (wden_leaves _ _ Hw) as (ts' & F' & ->). f_equal. clear - F F'. revert ts F. induction F' as [|a t' r ts' Ha Hr IH]; intros ts F; inversion F as [|a0 t0 r0 ts0 Ha0 Hr0]; subst; [reflexivity|].
    rewrite (IH _ Hr0). f_equal. pose proof (a_toSB_den _ _ [] Ha) as A. pose proof (a_toSB_den _ _ [] Ha0) as B. cbn [app] in A, B. congruence. }
  assert (G : (let* _ := checkPositionIndexes i j (s_len s) in
     if i =? j then Ok (Leaf AEmpty) else if (i =? 0) && (j =? s_len s) then Ok s
     else let* atoms := Ok (leaves s) in let* (buf, start', end') := sub_loop atoms i j [] in
       match buf with [x] => Ok (Leaf x) | _ => Ok (Arr buf (wrap32 (end' - start'))) end) = Ok u -> s_len u = j - Z.max i (leaf_start ts j)).
  { rewrite checkIdxs_ok by lia. cbn [bind]. replace (i =? j) with false by (symmetry; apply Z.eqb_neq; lia).
    replace ((i =? 0) && (j =? s_len s)) with false by (symmetry; apply andb_false_iff; rewrite !Z.eqb_neq; lia).
    subst t. destruct (sub_loop_spec (leaves s) ts i j [] F) as (init & it & x & last & s' & e' & R1 & R2 & R3 & R4 & R5 & R6 & R7); try lia.
    pose proof (sub_loop_length _ _ _ _ _ _ _ _ F Hi Hij Hj R1) as L. rewrite R1. cbn [bind app].
    assert (W : wrap32 (e' - s') = zlen last).
    { rewrite R7. apply wrap32_id. assert (zlen (concat it ++ last) = j - i) by (rewrite R6; apply zlen_slice; lia). rewrite zlen_app in H.
      pose proof (zlen_nonneg (concat it)). pose proof (zlen_nonneg last). unfold is_int, int_min. lia. }
    destruct (init ++ [x]) as [|y [|y2 yr]] eqn:Eb; intros EE.
    - destruct init; discriminate.
    - injection EE as <-. destruct init as [|i0 [|i1 ir]]; try discriminate. cbn [app] in Eb. injection Eb as <-. cbn [s_len]. rewrite (den_atom_len _ _ R4). lia.
    - injection EE as <-. cbn [s_len]. rewrite W. lia. }
  destruct s as [a|l r n k|ps n].
  - inversion Hd as [a1 t1 Ha| |]; subst. cbn [leaves] in F. inversion F as [|a0 y r0 ys Ha0 Hr0]; subst. inversion Hr0; subst.
    cbn [concat leaf_start] in *. rewrite app_nil_r in *. replace (j <=? zlen y) with true by (symmetry; apply Z.leb_le; lia).
    destruct (s_sub_leaf a y i j Ha Hi ltac:(lia) Hj) as (b & Eb & Db). rewrite Eb in E. injection E as <-. rewrite (den_len _ _ Db), zlen_slice by lia. lia.
  - unfold s_sub in E. rewrite s_iter_spec in E by exact Hne. exact (G E).
  - unfold s_sub in E. rewrite s_iter_spec in E by exact Hne. exact (G E).
Qed.

(** charAt of a slice goes by the recorded length *)
Lemma slice_charAt s t i j u : den s t -> 0 <= i -> i <= j -> j <= zlen t -> s_sub s i j = Ok u ->
  forall k, s_charAt u k = if (0 <=? k) && (k <? s_len u) then match znth (slice t i j) k with Some c => Ok c | None => Err IndexOOB end else Err IndexOOB.
Proof.
  intros Hd Hi Hij Hj E k. destruct (s_sub_spec s t i j Hd Hi Hij Hj) as (u' & E' & W & L). assert (u' = u) by congruence. subst u'.
  assert (Bd : 0 <= s_len u <= zlen (slice t i j)).
  { destruct L as [L|(ps & ini & last & -> & Es & _)]; [rewrite (den_len _ _ L); pose proof (zlen_nonneg (slice t i j)); lia|].
    cbn [s_len]. rewrite Es, zlen_app. pose proof (zlen_nonneg ini). pose proof (zlen_nonneg last). lia. }
  destruct ((0 <=? k) && (k <? s_len u)) eqn:B.
  - apply andb_prop in B as [B1 B2]. apply Z.leb_le in B1. apply Z.ltb_lt in B2. destruct (znth (slice t i j) k) as [c|] eqn:Ec.
    + destruct L as [L|(ps & ini & last & -> & Es & _)]; [apply (s_charAt_ok _ _ _ _ L Ec)|].
      pose proof (wden_ne _ _ W) as Hne. destruct (wden_leaves _ _ W) as (ts & F & Et). unfold s_charAt. cbn [s_len] in *. rewrite checkIdx_ok by lia. cbn [bind].
      rewrite s_iter_spec by exact Hne. cbn [bind]. eapply charAt_loop_spec; [exact F|]. congruence.
    + exfalso. unfold znth in Ec. destruct (Z.ltb_spec k 0) as [K|K]; [lia|]. apply nth_error_None in Ec. unfold zlen in Bd. lia.
  - assert (B' : ~ (0 <= k < s_len u)).
    { apply andb_false_iff in B as [B|B]; [apply Z.leb_gt in B|apply Z.ltb_ge in B]; lia. }
    destruct L as [L|(ps & ini & last & -> & Es & _)]; [apply (s_charAt_bad _ _ _ L); rewrite <- (den_len _ _ L); exact B'|].
    unfold s_charAt. rewrite checkIdx_bad by exact B'. reflexivity.
Qed.

(** ** %s of a composite sequence *)

Lemma fmt_s_cut c s t ts p : rt_ok c -> den s t -> Forall2 den_atom (leaves s) ts -> q_prec (q_of c) = Some p -> p < zlen t ->
  exists u, fmt_s c s = Ok u /\ wden u (justify (widen (q_of c) (leaf_start ts p)) (firstn (Z.to_nat p) t)).
Proof.
  intros Hc Hd F Ep Hp. unfold fmt_s. rewrite (den_len _ _ Hd).
  destruct (prec_cases c Hc) as [(P1 & P2 & P3)|(P1 & P2 & P3)]; rewrite P3 in Ep; [discriminate|]. injection Ep as <-. rewrite P1.
  replace (c_prec c <? zlen t) with true by (symmetry; apply Z.ltb_lt; lia). cbn [andb].
  destruct (s_sub_spec s t 0 (c_prec c) Hd) as (u & Eu & Wu & Lu); try lia. rewrite Eu. cbn [bind].
  assert (Sl : slice t 0 (c_prec c) = firstn (Z.to_nat (c_prec c)) t) by (unfold slice; rewrite Z.sub_0_r; reflexivity).
  assert (Ls : s_len u = c_prec c - leaf_start ts (c_prec c)).
  { destruct (Z.eq_dec (c_prec c) 0) as [Z0|NZ].
    - assert (L0 : leaf_start ts 0 = 0) by (pose proof (leaf_start_range ts 0 ltac:(lia)); lia). rewrite Z0 in *. rewrite L0.
      destruct Lu as [L|(ps & ini & last & -> & Es & N1 & N2)]; [rewrite (den_len _ _ L), zlen_slice by lia; lia|].
      assert (Ez : zlen (slice t 0 0) = zlen (ini ++ last)) by (rewrite Es; reflexivity). rewrite zlen_slice, zlen_app in Ez by lia. pose proof (zlen_nonneg ini). pose proof (zlen_nonneg last).
      cbn [s_len]. lia.
    - rewrite (s_sub_length s t ts 0 (c_prec c) u Hd F ltac:(lia) ltac:(lia) ltac:(lia) ltac:(lia) Eu). pose proof (leaf_start_range ts (c_prec c) ltac:(lia)). lia. }
  pose proof (leaf_start_range ts (c_prec c) ltac:(lia)) as Rg. pose proof (den_max _ _ Hd) as Hm.
  assert (A : adn u (firstn (Z.to_nat (c_prec c)) t) (c_prec c - leaf_start ts (c_prec c))).
  { rewrite <- Ls. rewrite <- Sl. destruct Lu as [L|(ps & ini & last & -> & Es & N1 & N2)].
    - rewrite (den_len _ _ L). constructor. exact L.
    - cbn [s_len] in *. constructor; [exact Wu|]. pose proof (zlen_nonneg last). lia. }
  destruct (spaceJustify_adn c u _ _ (leaf_start ts (c_prec c)) Hc A) as (w & Ew & Ww & _); [|lia|].
  - rewrite <- Sl, zlen_slice by lia. lia.
  - exists w. split; [exact Ew|exact Ww].
Qed.

Lemma fmt_s_wden c s t ts : rt_ok c -> den s t -> Forall2 den_atom (leaves s) ts ->
  exists u, fmt_s c s = Ok u /\ wden u (match q_prec (q_of c) with
    | Some p => if p <? zlen t then justify (widen (q_of c) (leaf_start ts p)) (firstn (Z.to_nat p) t) else justify (q_of c) t
    | None => justify (q_of c) t end).
Proof.
  intros Hc Hd F. destruct (q_prec (q_of c)) as [p|] eqn:Ep.
  - destruct (Z.ltb_spec p (zlen t)) as [L|L]; [apply fmt_s_cut; assumption|].
    destruct (fmt_s_seq_den c s t Hc Hd) as (u & Eu & Du); [rewrite Ep; exact L|]. exists u. split; [exact Eu|]. apply den_wden.
    unfold c_s in Du. rewrite Ep, firstn_all2 in Du by (unfold zlen in L; lia). exact Du.
  - destruct (fmt_s_seq_den c s t Hc Hd) as (u & Eu & Du); [rewrite Ep; exact I|]. exists u. split; [exact Eu|]. apply den_wden. unfold c_s in Du. rewrite Ep in Du. exact Du.
Qed.

Lemma composite_exact J src s0 q s t ts r : directive src s0 q -> s0 = Ss \/ s0 = SS -> den s t -> Forall2 den_atom (leaves s) ts ->
  prints J src [traitsOf J (VSeq s) r] (match s0 with SS => upper (seq_text q t ts) | _ => seq_text q t ts end).
Proof.
  intros Hd Hs D F. apply (prints_wden J src s0 q _ _ Hd). intros c Hr Hq _. destruct (fmt_s_wden c s t ts Hr D F) as (u & Eu & Wu). rewrite Hq in Wu.
  destruct Hs as [-> | ->]; cbn [formatterFor traitsOf charSeqTraits t_asSeq bind].
  - exists u. split; [exact Eu|exact Wu].
  - unfold upperOf. rewrite Eu. cbn [bind]. destruct (s_upper_wden u _ Wu) as (w & Ew & Ww & _). exists w. split; [exact Ew|exact Ww].
Qed.

(** ** %g of decimal numbers *)

Lemma cut_loss_zero j : cut_loss 0 j = 0.
Proof. unfold cut_loss. assert (E : forall n, drop_zeros n 0 = (0, 0)) by (induction n; [reflexivity|exact IHn]). rewrite E. rewrite orb_true_r. reflexivity. Qed.

Lemma short_loss N j : 0 <= N -> 0 <= j -> 0 <= cut_loss N j <= zlen (short_text N j).
Proof.
  intros HN Hj. split; [apply cut_loss_nonneg; exact Hj|]. destruct (Z.eq_dec N 0) as [->|Nz]; [rewrite cut_loss_zero; apply zlen_nonneg|].
  pose proof (cut_loss_bound N j ltac:(lia) Hj) as B. unfold short_text. destruct (drop_zeros (Z.to_nat j) N) as [M r]. exact (proj1 B).
Qed.

Lemma rounded_exists_pos f e P : 0 <= f -> 1 <= P -> exists x, sig_rounded (dec f e) P x.
Proof.
  intros Hf HP. destruct (Z.eq_dec f 0) as [->|N]; [exists 0%Q; left; split; [apply dec_zero|reflexivity]|].
  destruct (C30_rounding_exists f e P ltac:(lia) HP) as (S & X & H). exists (dec S (X - P + 1)). right. exists S, X. split; [exact H|reflexivity].
Qed.

Lemma bg_loss q f e : 0 <= f -> 1 <= g_prec q -> 0 <= snd (bg_parts q f e) <= zlen (fst (bg_parts q f e)).
Proof.
  intros Hf HP. destruct (rounded_exists_pos f e (g_prec q) Hf HP) as (x & Hx).
  unfold bg_parts. destruct (bg_positional f e (g_prec q)) eqn:Ep.
  - destruct (bg_fixed f e (g_prec q)) as [N j] eqn:E. destruct (bg_fixed_val _ _ _ _ _ x Hf HP Ep E Hx) as (_ & HN & Hj).
    destruct (q_alt q); cbn [fst snd]; [pose proof (zlen_nonneg (alt_text (N * 10 ^ Z.max 0 (g_prec q - ndigits N)) (j + Z.max 0 (g_prec q - ndigits N)))); lia|apply short_loss; assumption].
  - destruct (bg_sci f e (g_prec q)) as [D X] eqn:E. destruct (bg_sci_val _ _ _ _ _ x Hf HP E Hx) as (_ & HD).
    assert (Hk : 0 <= kept f (g_prec q) - 1) by (unfold kept; pose proof (ndigits_pos f Hf); lia).
    destruct (q_alt q); cbn [fst snd]; rewrite zlen_app.
    + pose proof (zlen_nonneg (decimal_text D (kept f (g_prec q) - 1))). pose proof (zlen_nonneg (if f =? 0 then exp_text e else big_exp_text f (g_prec q) X)). lia.
    + pose proof (short_loss D (kept f (g_prec q) - 1) HD Hk). pose proof (zlen_nonneg (if f =? 0 then exp_text e else big_exp_text f (g_prec q) X)). lia.
Qed.

Lemma bg_field s q neg f e : 0 <= f -> 1 <= g_prec q ->
  field (widen q (snd (bg_parts q f e))) (q_zero q) (cased s (b_g (no_width q) neg f e)) (cased s (b_g q neg f e)).
Proof.
  intros Hf HP. pose proof (bg_loss q f e Hf HP) as L. apply cased_field. unfold b_g. change (bg_parts (no_width q) f e) with (bg_parts q f e).
  destruct (bg_parts q f e) as [t n]. cbn [fst snd] in *. rewrite widen_full by (first [reflexivity|lia]).
  unfold finite_text. change (sign_text (widen q n) neg) with (sign_text q neg). change (sign_text (no_width q) neg) with (sign_text q neg).
  change (q_zero (no_width q)) with (q_zero q). change (q_zero (widen q n)) with (q_zero q). rewrite pad_number_nowidth. apply field_pad.
Qed.

Lemma bg_body_length s q neg f e : 0 <= f -> 1 <= g_prec q -> zlen (fst (bg_parts q f e)) <= zlen (cased s (b_g (no_width q) neg f e)).
Proof.
  intros Hf HP. pose proof (bg_loss q f e Hf HP) as L.
  assert (Ec : forall x, zlen (cased s x) = zlen x) by (intros x; destruct s; try reflexivity; apply zlen_map). rewrite Ec.
  unfold b_g. change (bg_parts (no_width q) f e) with (bg_parts q f e). destruct (bg_parts q f e) as [t n]. cbn [fst snd] in *. rewrite widen_full by (first [reflexivity|lia]).
  unfold finite_text. change (q_zero (no_width q)) with (q_zero q). rewrite pad_number_nowidth, zlen_app. pose proof (zlen_nonneg (sign_text (no_width q) neg)). lia.
Qed.

Lemma bg_zeros s q neg f e : 0 <= f -> 1 <= g_prec q -> q_zero q = true -> q_left q = false ->
  exists body, cased s (b_g (no_width q) neg f e) = sign_text q neg ++ body /\
    cased s (b_g q neg f e) = sign_text q neg ++ zeros (q_width q + snd (bg_parts q f e) - zlen (sign_text q neg ++ body)) ++ body.
Proof.
  intros Hf HP Hz Hl. pose proof (bg_loss q f e Hf HP) as L. unfold b_g. change (bg_parts (no_width q) f e) with (bg_parts q f e).
  destruct (bg_parts q f e) as [t n]. cbn [fst snd] in *. rewrite widen_full by (first [reflexivity|lia]).
  exists (cased s t). unfold finite_text, pad_number. cbn [no_width widen q_zero q_left q_width]. rewrite Hz, Hl. cbn [negb andb].
  change (sign_text (widen q n) neg) with (sign_text q neg). change (sign_text (no_width q) neg) with (sign_text q neg). unfold zeros.
  rewrite (rep_nonpos _ (0 - _ - _)) by (pose proof (zlen_nonneg (sign_text q neg)); pose proof (zlen_nonneg t); lia).
  assert (Us : upper (sign_text q neg) = sign_text q neg) by (unfold sign_text; destruct neg, (q_plus q), (q_space q); reflexivity).
  assert (Uz : forall k, upper (rep 48 k) = rep 48 k) by (intros k; unfold upper; rewrite map_rep; reflexivity).
  assert (Ul : forall x, zlen (upper x) = zlen x) by (intros x; apply zlen_map).
  assert (Ua : forall x y, upper (x ++ y) = upper x ++ upper y) by (intros x y; apply map_app).
  assert (Ln : zlen (sign_text q neg ++ cased s t) = zlen (sign_text q neg) + zlen t) by (rewrite zlen_app; f_equal; destruct s; try reflexivity; apply Ul).
  rewrite Ln. replace (q_width q + n - (zlen (sign_text q neg) + zlen t)) with (q_width q + n - zlen (sign_text q neg) - zlen t) by lia.
  destruct s; cbn [cased app]; try (split; reflexivity); rewrite !Ua, Us, ?Uz; split; reflexivity.
Qed.

(** ** how many digits the decimal of a normal double comes with *)

Lemma ideal_least c A B cbl cbr k dk : c * A / B - 9 <= fst (ideal c A B cbl cbr k dk).
Proof.
  unfold ideal. cbv zeta. set (s := c * A / B). pose proof (Z.div_mod s 10 ltac:(lia)). pose proof (Z.mod_pos_bound s 10 ltac:(lia)).
  destruct ((100 <=? s) && _); [destruct (above_left _ _ _ _ _); cbn [fst]; lia|].
  destruct (xorb _ _); [destruct (above_left _ _ _ _ _); cbn [fst]; lia|].
  destruct (_ ?= _); [destruct (Z.even s)| |]; cbn [fst]; lia.
Qed.

Lemma toDecimal4_least q c dk f e : -1074 <= q <= 971 -> 0 < c < 2 ^ 53 -> -1 <= dk <= 0 -> toDecimal4 q c dk = Ok (f, e) -> c - 9 <= f.
Proof.
  intros Hq Hc Hd E. rewrite toDecimal4_ideal in E by assumption. destruct (exact_products q c Hq Hc) as (_ & _ & (H1 & _) & _). set (k := scale q c) in *.
  assert (Ei : ideal c (anum q k) (aden q k) (left_end q c) (4 * c + 2) k dk = (f, e)) by congruence.
  pose proof (ideal_least c (anum q k) (aden q k) (left_end q c) (4 * c + 2) k dk) as I. rewrite Ei in I. cbn [fst] in I.
  assert (c <= c * anum q k / aden q k); [|lia]. pose proof (aden_pos q k). apply Z.div_le_lower_bound; [lia|]. nia.
Qed.

Lemma toDecimal_least b s f e : 2 ^ 52 <= b < inf_bits -> toDecimal b = Ok (NonSpecial s f e) -> e = 0 \/ 10 ^ 15 <= f.
Proof.
  intros Hb. assert (I : inf_bits < 2 ^ 63) by reflexivity. assert (Em : b mod 2 ^ 63 = b) by (apply Z.mod_small; lia).
  unfold toDecimal. cbv zeta. rewrite land_TMASK, exponent_field. rewrite <- (mod_mod_pow b). rewrite Em.
  pose proof (Z.div_mod b (2 ^ 52) ltac:(lia)) as D. pose proof (Z.mod_pos_bound b (2 ^ 52) ltac:(lia)) as M.
  set (bq := b / 2 ^ 52) in *. set (t := b mod 2 ^ 52) in *.
  assert (Bq : 1 <= bq < 2047) by (unfold inf_bits in *; lia).
  replace (bq <? BQ_MASK) with true by (symmetry; apply Z.ltb_lt; exact (proj2 Bq)).
  change (- Q_MIN + 1 - bq) with (1075 - bq). destruct (Z.eqb_spec bq 0) as [E0|E0]; [lia|]. cbn [negb].
  rewrite lor_CMIN by exact M. rewrite (SchubM.wrap32_small (1075 - bq)) by lia. rewrite (SchubM.wrap32_small (- (1075 - bq))) by lia.
  assert (Slow : (let* fe := toDecimal4 (- (1075 - bq)) (2 ^ 52 + t) 0 in Ok (NonSpecial (b <? 0) (fst fe) (snd fe))) = Ok (NonSpecial s f e) ->
      e = 0 \/ 10 ^ 15 <= f).
  { intros E. right. destruct (toDecimal4 (- (1075 - bq)) (2 ^ 52 + t) 0) as [[f' e']|] eqn:E4; [|discriminate]. cbn [bind fst snd] in E. apply nonspecial_inj in E as [<- <-].
    apply toDecimal4_least in E4; lia. }
  destruct ((0 <? 1075 - bq) && (1075 - bq <? P53)) eqn:F; [|exact Slow]. destruct (_ =? _); [|exact Slow].
  intros E. apply nonspecial_inj in E as [_ <-]. left. reflexivity.
Qed.

Lemma ndigits_least f n : 0 <= n -> 10 ^ n <= f -> n < ndigits f.
Proof.
  intros Hn H. assert (0 < 10 ^ n) by (apply Z.pow_pos_nonneg; lia). destruct (ndigits_bounds f ltac:(lia)) as (N1 & _ & B2).
  destruct (Z.le_gt_cases (ndigits f) n) as [L|L]; [|exact L]. assert (10 ^ ndigits f <= 10 ^ n) by (apply Z.pow_le_mono_r; lia). lia.
Qed.

(** %#g, exponent notation, of a normal double: the digits are there *)
Lemma normal_digits b f e P S X : 2 ^ 52 <= magnitude b -> printed b f e -> 1 <= P <= 16 -> sig0 f e P = (S, X) -> X < -4 \/ P <= X -> P <= ndigits f.
Proof.
  intros Hb Hp HP E HX. destruct Hp as [[Z0 _]|[R D]]; [change (magnitude b = 0) in Z0; lia|]. change (dbl_mag b) with (magnitude b) in *.
  destruct (toDecimal_least (magnitude b) false f e ltac:(lia) (do_dec _ _ _ D)) as [->|L].
  - pose proof (do_f _ _ _ D) as Ff. unfold sig0 in E. replace (f =? 0) with false in E by (symmetry; apply Z.eqb_neq; lia). unfold FloatSpec.sig in E. cbv zeta in E.
    pose proof (ndigits_pos f ltac:(lia)). destruct (_ =? _); injection E as _ <-; lia.
  - pose proof (ndigits_least f 15 ltac:(lia) L). lia.
Qed.

Lemma general_exponent J src s q v b r f e S X : directive src s q -> s = Sg \/ s = SG -> q_alt q = true -> is_double J v b ->
  its_decimal b f e -> 2 ^ 52 <= magnitude b -> let P := g_prec q in P <= 16 -> sig_half_up (dec f e) P S X -> X < -4 \/ P <= X ->
  prints J src [traitsOf J v r] (cased s (finite_text q (b <? 0) ((if P =? 1 then decimal_text S 0 else alt_text S (P - 1)) ++ exp_text X))).
Proof.
  intros Hd Hs Ha Hv Hi Hm P HP16 HS HX. pose proof (g_prec_pos _ _ _ Hd) as HP. fold P in HP.
  destruct (its_printed b f e Hi) as (f0 & e0 & Pr & Ed & Ez & F0). pose proof (its_pos _ _ _ Hi ltac:(lia)) as Nz.
  assert (ES : sig0 f0 e0 P = (S, X)) by (apply (its_sig b f e); try assumption; lia).
  pose proof (normal_digits b f0 e0 P S X Hm Pr ltac:(lia) ES HX) as Dg.
  apply (conv_prints J src s q v b r _ Hd); [unfold is_float_spec; tauto|exact Hv|]. intros c F Hr <- EF.
  assert (F = fmt_g c) as -> by (destruct Hs as [-> | ->]; cbn in EF; congruence).
  destruct (fmt_g_double c b f0 e0 Hr Pr) as (u & Eu & Du). exists u. split; [exact Eu|].
  unfold j_g, g_irregular, c_g, g_body, g_unpadded in Du. cbv zeta in Du. fold P in Du. rewrite ES, Ha in Du.
  replace ((-4 <=? X) && (X <? P)) with false in Du by (symmetry; apply andb_false_iff; destruct HX; [left; apply Z.leb_gt|right; apply Z.ltb_ge]; lia).
  cbn [andb negb] in Du. replace (Z.min (ndigits f0) P) with P in Du by lia. rewrite Z.sub_diag, Z.pow_0_r, Z.div_1_r in Du. exact Du.
Qed.

(** ** rounding the decimal instead of the value *)

Lemma nearest_half x p N : nearest_at x p N <-> (inject_Z N - (1 # 2) <= x * 10 ^ p <= inject_Z N + (1 # 2))%Q.
Proof.
  unfold nearest_at. set (y := (x * 10 ^ p)%Q). clearbody y. split.
  - intros H. pose proof (H (N + 1)) as H1. pose proof (H (N - 1)) as H2. rewrite inject_Z_plus in H1. rewrite inject_sub in H2. change (inject_Z 1) with 1%Q in *.
    split; [revert H2|revert H1]; do 2 (apply Qabs_case; intros ?); intros; lra.
  - intros [H1 H2] M. destruct (Z.eq_dec M N) as [->|Nm]; [apply Qle_refl|]. assert (C : M <= N - 1 \/ N + 1 <= M) by lia. destruct C as [C|C].
    + apply inject_le in C. rewrite inject_sub in C. change (inject_Z 1) with 1%Q in C. do 2 (apply Qabs_case; intros ?); lra.
    + apply inject_le in C. rewrite inject_Z_plus in C. change (inject_Z 1) with 1%Q in C. do 2 (apply Qabs_case; intros ?); lra.
Qed.

Lemma half_up_nearest x d p N : half_up_at d p N -> (nearest_at x p N <-> ~ tie_between x d p).
Proof.
  intros [H1 H2]. rewrite nearest_half. unfold tie_between. cbv zeta. set (y := (x * 10 ^ p)%Q) in *. set (z := (d * 10 ^ p)%Q) in *. clearbody y z. split.
  - intros [N1 N2] (M & [[T1 T2]|[T1 T2]]).
    + assert (L1 : (inject_Z (N - 1) < inject_Z M)%Q) by (rewrite inject_sub; change (inject_Z 1) with 1%Q; lra).
      assert (L2 : (inject_Z M < inject_Z N)%Q) by lra. apply inject_lt_inv in L1, L2. lia.
    + assert (L1 : (inject_Z (N - 1) < inject_Z M)%Q) by (rewrite inject_sub; change (inject_Z 1) with 1%Q; lra).
      assert (L2 : (inject_Z M < inject_Z N)%Q) by lra. apply inject_lt_inv in L1, L2. lia.
  - intros T. split.
    + destruct (Qlt_le_dec y (inject_Z N - (1 # 2))) as [L|L]; [|exact L]. exfalso. apply T. exists (N - 1). left. rewrite inject_sub. change (inject_Z 1) with 1%Q. split; lra.
    + destruct (Qlt_le_dec (inject_Z N + (1 # 2)) y) as [L|L]; [|exact L]. exfalso. apply T. exists N. right. split; lra.
Qed.
