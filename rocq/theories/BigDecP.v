(** %f, %e and %g of BigDecimal values. *)
From Coq Require Import QArith.
From Verif Require Import Base Digits UtilsM SeqM SeqSpec SeqP SeqSubP ContextM IntFormM FormatterM BigDecM FmtSpec FmtP FmtP2 FloatSpec BigSpec FPDecP FloatP DoubleP AnnP TenP.
Open Scope Z_scope.

(** ** java.math.BigDecimal *)

Lemma half_up_signed_hup u k : 0 <= u -> 0 < k -> half_up_signed u k = hup u k.
Proof.
  intros Hu Hk. unfold half_up_signed, half_up_div, hup. replace (u <? 0) with false by (symmetry; apply Z.ltb_ge; lia).
  replace (k <=? 0) with false by (symmetry; apply Z.leb_gt; lia). reflexivity.
Qed.

Lemma precision_ndigits u s : 0 <= u -> bd_precision (mkBD u s) = ndigits u.
Proof. intros H. unfold bd_precision, ndigits. cbn [bd_u]. rewrite Z.abs_eq by exact H. reflexivity. Qed.

Lemma dec_text_pos u : 0 <= u -> dec_text u = numeral 10 u.
Proof. intros H. unfold dec_text. destruct (u <? 0) eqn:E; bools; [lia|]. reflexivity. Qed.

Lemma ndigits_fits u : Z.log2 (Z.abs u) < 2147483647 -> ndigits (Z.abs u) <= 715827883.
Proof. intros H. pose proof (numeral_fits 10 (Z.abs u) ltac:(lia)) as L. rewrite zlen_numeral in L. apply L. split; [lia|exact H]. Qed.

(** a BigInteger has at most 646456993 digits *)
Lemma ndigits_tight u : Z.log2 (Z.abs u) < 2147483647 -> ndigits (Z.abs u) <= 646456993.
Proof.
  intros H. destruct (Z.eq_dec u 0) as [->|N]; [change (ndigits (Z.abs 0)) with 1; lia|].
  destruct (ndigits_bounds (Z.abs u) ltac:(lia)) as (_ & B & _). pose proof (ten_digits (ndigits (Z.abs u) - 1) (Z.abs u) ltac:(lia) H B). lia.
Qed.

Lemma ndigits_pos u : 0 <= u -> 1 <= ndigits u.
Proof. intros H. apply digits_nonempty; lia. Qed.

(** rounding to [k] digits *)
Definition rdig (u k : Z) : Z := if ndigits u <=? k then u else let r := hup u (ndigits u - k) in if r =? 10 ^ k then 10 ^ (k - 1) else r.
Definition rscale (u s k : Z) : Z :=
  if ndigits u <=? k then s else if hup u (ndigits u - k) =? 10 ^ k then s - (ndigits u - k) - 1 else s - (ndigits u - k).

Lemma ndigits_lt n k : 0 < n -> 1 <= k -> n < 10 ^ k -> ndigits n <= k.
Proof. intros. apply digits_len_le; lia. Qed.

Lemma bd_new_mc_exact u s k : 0 <= u -> 1 <= k -> int_min <= s <= int_max ->
  bd_new_mc u s k = if int_min <=? rscale u s k then Ok (mkBD (rdig u k) (rscale u s k)) else Err (OtherExn 1).
Proof.
  intros Hu Hk Hs. unfold bd_new_mc, mathContext. replace (k <? 0) with false by (symmetry; apply Z.ltb_ge; lia). cbn [bind].
  cbn [bd_round]. replace (0 <? k) with true by (symmetry; apply Z.ltb_lt; lia). cbn [andb]. rewrite precision_ndigits by exact Hu. unfold rdig, rscale.
  destruct (ndigits u <=? k) eqn:E; bools.
  - replace (k <? ndigits u) with false by (symmetry; apply Z.ltb_ge; lia). replace (int_min <=? s) with true by (symmetry; apply Z.leb_le; lia). reflexivity.
  - replace (k <? ndigits u) with true by (symmetry; apply Z.ltb_lt; lia). cbn [bd_s bd_u].
    assert (U0 : 0 < u). { destruct (Z.eq_dec u 0) as [->|]; [change (ndigits 0) with 1 in E; lia|lia]. }
    assert (C : forall x, int_min <= x <= int_max -> checkScale x = Ok x).
    { intros x Hx. unfold checkScale. replace (int_min <=? x) with true by (symmetry; apply Z.leb_le; lia). replace (x <=? int_max) with true by (symmetry; apply Z.leb_le; lia). reflexivity. }
    assert (C' : forall x, x < int_min -> checkScale x = Err (OtherExn 1)).
    { intros x Hx. unfold checkScale. replace (int_min <=? x) with false by (symmetry; apply Z.leb_gt; lia). reflexivity. }
    destruct (Z_lt_ge_dec (s - (ndigits u - k)) int_min) as [B|B].
    { rewrite C' by exact B. cbn [bind]. cbv zeta. destruct (_ =? 10 ^ k); (replace (int_min <=? _) with false by (symmetry; apply Z.leb_gt; lia)); reflexivity. }
    rewrite C by lia. cbn [bind]. rewrite half_up_signed_hup by lia.
    pose proof (hup_range u (ndigits u) (ndigits u - k) U0 eq_refl ltac:(lia) ltac:(lia)) as R. replace (ndigits u - (ndigits u - k)) with k in R by lia.
    pose proof (pow10_pos (k - 1) ltac:(lia)) as P1. cbv zeta. set (r := hup u (ndigits u - k)) in *. cbn [bd_round bd_u bd_s]. rewrite precision_ndigits by lia.
    replace (0 <? k) with true by (symmetry; apply Z.ltb_lt; lia). cbn [andb]. destruct (r =? 10 ^ k) eqn:E1; bools.
    + assert (N1 : ndigits r = k + 1) by (rewrite E1; rewrite <- (ndigits_pow (k + 1)) by lia; do 2 f_equal; lia).
      rewrite N1. replace (k <? k + 1) with true by (symmetry; apply Z.ltb_lt; lia). replace (k + 1 - k) with 1 by lia.
      destruct (int_min <=? s - (ndigits u - k) - 1) eqn:B1; bools; [|rewrite C' by exact B1; reflexivity]. rewrite C by lia. cbn [bind].
      rewrite half_up_signed_hup by lia.
      assert (H1 : hup r 1 = 10 ^ (k - 1)).
      { rewrite E1. unfold hup. cbn [Z.leb]. change (10 ^ 1 / 2) with 5. change (10 ^ 1) with 10. replace (10 ^ k) with (10 * 10 ^ (k - 1)).
        - change (1 <=? 0) with false. cbv iota. rewrite Z.add_comm, Z.mul_comm, Z.div_add by lia. reflexivity.
        - replace k with (1 + (k - 1)) at 2 by lia. rewrite Z.pow_add_r by lia. reflexivity. }
      rewrite H1. rewrite precision_ndigits by lia. rewrite ndigits_pow by lia. rewrite Z.ltb_irrefl. reflexivity.
    + assert (N1 : ndigits r <= k) by (apply ndigits_lt; lia).
      replace (k <? ndigits r) with false by (symmetry; apply Z.ltb_ge; lia). replace (int_min <=? s - (ndigits u - k)) with true by (symmetry; apply Z.leb_le; lia). reflexivity.
Qed.

Lemma bd_new_mc_spec u s k : 0 <= u -> 1 <= k -> int_min <= s <= int_max -> (k < ndigits u -> int_min < s - (ndigits u - k)) ->
  bd_new_mc u s k = Ok (mkBD (rdig u k) (rscale u s k)).
Proof.
  intros Hu Hk Hs Hd. rewrite bd_new_mc_exact by assumption. replace (int_min <=? rscale u s k) with true; [reflexivity|]. symmetry. apply Z.leb_le.
  unfold rscale. destruct (ndigits u <=? k) eqn:E; bools; [lia|]. specialize (Hd E). destruct (_ =? _); lia.
Qed.

Lemma rdig_facts u k : 0 < u -> 1 <= k -> 0 < rdig u k /\ ndigits (rdig u k) = Z.min (ndigits u) k.
Proof.
  intros Hu Hk. unfold rdig. destruct (ndigits u <=? k) eqn:E; bools; [split; [exact Hu|lia]|].
  pose proof (hup_range u (ndigits u) (ndigits u - k) Hu eq_refl ltac:(lia) ltac:(lia)) as R. replace (ndigits u - (ndigits u - k)) with k in R by lia.
  pose proof (pow10_pos (k - 1) ltac:(lia)) as P1. cbv zeta. destruct (_ =? _) eqn:E1; bools.
  - split; [exact P1|]. rewrite ndigits_pow by lia. lia.
  - split; [lia|]. rewrite Z.min_r by lia. apply ndigits_unique; lia.
Qed.

(** the digits and exponent asked for, from the rounded value *)
Lemma rdig_sig u s P : 0 < u -> 1 <= P ->
  FloatSpec.sig u (- s) P = (rdig u P * 10 ^ (P - Z.min (ndigits u) P), Z.min (ndigits u) P - 1 - rscale u s P).
Proof.
  intros Hu HP. unfold FloatSpec.sig, rdig, rscale. cbv zeta. destruct (ndigits u <=? P) eqn:E; bools.
  - rewrite Z.min_l by lia. unfold hup. replace (ndigits u - P <=? 0) with true by (symmetry; apply Z.leb_le; lia).
    replace (- (ndigits u - P)) with (P - ndigits u) by lia. destruct (ndigits_bounds u Hu) as (_ & _ & B).
    pose proof (pow10_pos (P - ndigits u) ltac:(lia)). replace (u * 10 ^ (P - ndigits u) =? 10 ^ P) with false; [f_equal; lia|]. symmetry. apply Z.eqb_neq.
    replace (10 ^ P) with (10 ^ ndigits u * 10 ^ (P - ndigits u)) by (rewrite <- Z.pow_add_r by (pose proof (ndigits_pos u); lia); f_equal; lia). nia.
  - rewrite Z.min_r by lia. rewrite Z.sub_diag, Z.pow_0_r, Z.mul_1_r. destruct (_ =? _) eqn:E1; bools; f_equal; lia.
Qed.

(** ** positional layout *)

Definition lay_N (u s : Z) : Z := u * 10 ^ Z.max 0 (- s).
Definition lay_j (s : Z) : Z := Z.max 0 s.

Lemma wrapS_pieces t : t <> [] -> zlen t <= int_max -> pieces (wrapS t) [t].
Proof. intros Ht Hm. apply leaf_pieces; [apply wrapS_den; exact Hm|exact Ht|eexists; reflexivity]. Qed.

Lemma leaf_of_wrap3 t i j : zlen t <= int_max -> 0 <= i -> i < j -> j <= zlen t -> exists a, s_wrap3 t i j = Ok a /\ pieces (Leaf a) [slice t i j].
Proof.
  intros Hm Hi Hij Hj. destruct (s_wrap3_den t i j Hm Hi ltac:(lia) Hj) as (a & E & D). exists a. split; [exact E|].
  apply leaf_pieces; [constructor; exact D| |eexists; reflexivity]. intros H. apply (f_equal (@zlen Z)) in H. rewrite zlen_slice in H by lia. change (zlen (@nil Z)) with 0 in H. lia.
Qed.

Lemma repeated_pieces x n : 1 <= n <= int_max -> exists s, repeated x n = Ok s /\ pieces s [rep x n].
Proof.
  intros H. unfold repeated. destruct (s_repeated_den x n H) as (a & E & D). rewrite E. cbn [bind]. exists (Leaf a). split; [reflexivity|].
  apply leaf_pieces; [constructor; exact D| |eexists; reflexivity]. intros Hn. apply (f_equal (@zlen Z)) in Hn. rewrite zlen_rep in Hn. change (zlen (@nil Z)) with 0 in Hn. lia.
Qed.

Lemma numeral_ne u : 0 <= u -> numeral 10 u <> [].
Proof. intros H E. pose proof (numeral_nonempty 10 u ltac:(lia) H) as L. rewrite E in L. change (zlen (@nil Z)) with 0 in L. lia. Qed.

Lemma integer_text N : decimal_text N 0 = numeral 10 N.
Proof. unfold decimal_text. cbn [Z.eqb]. rewrite Z.pow_0_r, Z.div_1_r. apply app_nil_r. Qed.

Lemma small_text u j : 0 <= u -> ndigits u <= j -> decimal_text u j = txt "0." ++ zeros (j - ndigits u) ++ numeral 10 u.
Proof.
  intros Hu Hj. pose proof (ndigits_pos u Hu) as N1. rewrite decimal_text_split by lia.
  assert (B : u < 10 ^ ndigits u) by (apply digits_upper; lia).
  assert (10 ^ ndigits u <= 10 ^ j) by (apply Z.pow_le_mono_r; lia). rewrite Z.div_small by lia. rewrite numeral_0.
  change (txt "0.") with [ch "0"; ch "."]. change (txt "0") with [ch "0"]. cbn [app]. do 2 f_equal.
  replace j with (j - ndigits u + ndigits u) at 1 by lia. rewrite fraction_app by lia. rewrite Z.div_small by lia. rewrite (numeral_fraction u) by lia.
  rewrite <- (Z.mul_0_l (10 ^ (j - ndigits u))), fraction_shift by lia. reflexivity.
Qed.

Lemma decimalLayout0_spec u s : 0 <= u -> ndigits u <= 715827883 -> int_min <= s <= int_max -> (0 < u \/ 0 <= s) ->
  zlen (decimal_text (lay_N u s) (lay_j s)) <= int_max ->
  exists m, decimalLayout0 (mkBD u s) = Ok (mkLayout m None) /\ den m (decimal_text (lay_N u s) (lay_j s)) /\
    (0 < u \/ s = 0 -> laid_out m (lay_N u s) (lay_j s)).
Proof.
  intros Hu Hn Hs Hz Hm. pose proof (ndigits_pos u Hu) as N1. unfold decimalLayout0. cbn [bd_u bd_s]. rewrite dec_text_pos by exact Hu.
  assert (Ln : zlen (numeral 10 u) = ndigits u) by apply zlen_numeral. pose proof (numeral_ne u Hu) as Ne. unfold lay_N, lay_j in *. unfold int_min in Hs. rewrite int_max_val in *.
  destruct (s =? 0) eqn:E0; bools.
  { subst s. eexists. split; [reflexivity|]. cbn [Z.opp Z.max]. rewrite Z.pow_0_r, Z.mul_1_r, integer_text.
    assert (D : den (wrapS (numeral 10 u)) (numeral 10 u)) by (apply wrapS_den; rewrite int_max_val; lia).
    split; [exact D|]. intros _. split; [rewrite integer_text; exact D|left; reflexivity]. }
  cbv zeta. rewrite Ln. destruct (Z_lt_ge_dec s 0) as [Sn|Sp].
  - rewrite (Z.max_r 0 (- s)), (Z.max_l 0 s) in * by lia. rewrite integer_text in *. assert (U0 : 0 < u) by lia.
    rewrite numeral_shift in * by lia. rewrite zlen_app in Hm. unfold zeros in *. rewrite zlen_rep, Ln, Z.max_r in Hm by lia.
    rewrite (wrap32_small (s - ndigits u)) by lia. replace (0 <=? s - ndigits u) with false by (symmetry; apply Z.leb_gt; lia).
    rewrite (wrap32_small (- (s - ndigits u))) by lia. replace (- (s - ndigits u) <? ndigits u) with false by (symmetry; apply Z.ltb_ge; lia).
    rewrite (wrap32_small (- s)) by lia. destruct (repeated_den (ch "0") (- s)) as (z & Ez & Dz); [rewrite int_max_val; lia|]. rewrite Ez. cbn [bind].
    eexists. split; [reflexivity|].
    assert (D : den (s_append (wrapS (numeral 10 u)) z) (numeral 10 u ++ rep (ch "0") (- s))).
    { apply s_append_den; [apply wrapS_den; rewrite int_max_val; lia|exact Dz|]. rewrite zlen_app, zlen_rep, Ln, int_max_val. lia. }
    split; [exact D|]. intros _. split; [|left; reflexivity]. rewrite integer_text, numeral_shift by lia. exact D.
  - rewrite (Z.max_l 0 (- s)), (Z.max_r 0 s) in * by lia. rewrite Z.pow_0_r, Z.mul_1_r in *.
    rewrite (wrap32_small (s - ndigits u)) by lia. destruct (0 <=? s - ndigits u) eqn:E1; bools.
    + pose proof (small_text u s Hu ltac:(lia)) as ET. rewrite ET in *. rewrite !zlen_app in Hm. change (zlen (txt "0.")) with 2 in Hm.
      unfold zeros in *. rewrite zlen_rep, Ln in Hm.
      assert (P0 : pieces (wrapS (numeral 10 u)) [numeral 10 u]) by (apply wrapS_pieces; [exact Ne|rewrite int_max_val; lia]).
      assert (Pd : pieces (wrapS (txt "0.")) [txt "0."]) by (apply wrapS_pieces; [discriminate|rewrite int_max_val; vm_compute; discriminate]).
      destruct (0 <? s - ndigits u) eqn:E2; bools.
      * destruct (repeated_pieces (ch "0") (s - ndigits u)) as (z & Ez & Pz); [rewrite int_max_val; lia|]. rewrite Ez. cbn [bind].
        assert (P1 : pieces (s_prepend (wrapS (numeral 10 u)) z) ([rep (ch "0") (s - ndigits u)] ++ [numeral 10 u])).
        { apply prepend_pieces; try assumption; try discriminate. cbn [app concat]. rewrite app_nil_r, zlen_app, zlen_rep, Ln, int_max_val. lia. }
        assert (P2 : pieces (s_prepend (s_prepend (wrapS (numeral 10 u)) z) (wrapS (txt "0."))) ([txt "0."] ++ [rep (ch "0") (s - ndigits u)] ++ [numeral 10 u])).
        { apply prepend_pieces; try assumption; try discriminate. cbn [app concat]. rewrite app_nil_r, !zlen_app, zlen_rep, Ln, int_max_val. change (zlen (txt "0.")) with 2. lia. }
        eexists. split; [reflexivity|]. assert (D : den (s_prepend (s_prepend (wrapS (numeral 10 u)) z) (wrapS (txt "0."))) (txt "0." ++ rep (ch "0") (s - ndigits u) ++ numeral 10 u)).
        { destruct P2 as (D & _). cbn [app concat] in D. rewrite app_nil_r in D. exact D. }
        split; [exact D|]. intros Hu0. split; [rewrite ET; exact D|]. right. right. split; [lia|]. split; [lia|].
        exists [txt "0."; rep (ch "0") (s - ndigits u)]. split; [exact P2|]. split; [discriminate|]. cbn [concat]. rewrite app_nil_r. reflexivity.
      * cbn [bind]. rewrite rep_nonpos in * by lia. cbn [app] in *.
        assert (P2 : pieces (s_prepend (wrapS (numeral 10 u)) (wrapS (txt "0."))) ([txt "0."] ++ [numeral 10 u])).
        { apply prepend_pieces; try assumption; try discriminate. cbn [app concat]. rewrite app_nil_r, !zlen_app, Ln, int_max_val. change (zlen (txt "0.")) with 2. lia. }
        eexists. split; [reflexivity|]. assert (D : den (s_prepend (wrapS (numeral 10 u)) (wrapS (txt "0."))) (txt "0." ++ numeral 10 u)).
        { destruct P2 as (D & _). cbn [app concat] in D. rewrite app_nil_r in D. exact D. }
        split; [exact D|]. intros Hu0. split; [rewrite ET; exact D|]. right. right. split; [lia|]. split; [lia|].
        exists [txt "0."]. split; [exact P2|]. split; [discriminate|]. cbn [concat]. unfold zeros. rewrite rep_nonpos by lia. reflexivity.
    + rewrite (wrap32_small (- (s - ndigits u))) by lia. replace (- (s - ndigits u) <? ndigits u) with true by (symmetry; apply Z.ltb_lt; lia).
      assert (U0 : 0 < u). { destruct (Z.eq_dec u 0) as [->|]; [change (ndigits 0) with 1 in E1; lia|lia]. }
      destruct (ndigits_bounds u U0) as (_ & B1 & B2). assert (10 ^ s <= 10 ^ (ndigits u - 1)) by (apply Z.pow_le_mono_r; lia).
      assert (Sp' : numeral 10 u = numeral 10 (u / 10 ^ s) ++ fraction s u) by (apply numeral_split; lia).
      assert (Lq : zlen (numeral 10 (u / 10 ^ s)) = ndigits u - s).
      { apply (f_equal (@zlen Z)) in Sp'. rewrite zlen_app, zlen_fraction, Ln in Sp'. lia. }
      destruct (leaf_of_wrap3 (numeral 10 u) 0 (- (s - ndigits u))) as (a & Ea & Pa); try lia; [rewrite int_max_val; lia|].
      destruct (leaf_of_wrap3 (numeral 10 u) (- (s - ndigits u)) (ndigits u)) as (b & Eb & Pb); try lia; [rewrite int_max_val; lia|].
      rewrite Ea. cbn [bind]. rewrite Eb. cbn [bind]. eexists. split; [reflexivity|].
      assert (Sa : slice (numeral 10 u) 0 (- (s - ndigits u)) = numeral 10 (u / 10 ^ s)).
      { rewrite Sp'. replace (- (s - ndigits u)) with (zlen (numeral 10 (u / 10 ^ s))) by lia. apply slice_prefix. }
      assert (Sb : slice (numeral 10 u) (- (s - ndigits u)) (ndigits u) = fraction s u).
      { rewrite Sp'. rewrite slice_app_r by lia. rewrite Lq. replace (- (s - ndigits u) - (ndigits u - s)) with 0 by lia. replace (ndigits u - (ndigits u - s)) with (zlen (fraction s u)) by (rewrite zlen_fraction; lia). apply slice_full. }
      rewrite Sa in Pa. rewrite Sb in Pb.
      assert (Pc : pieces (chS (ch ".")) [txt "."]) by (apply leaf_pieces; [apply chS_den|discriminate|eexists; reflexivity]).
      assert (P1 : pieces (s_append (Leaf a) (chS (ch "."))) ([numeral 10 (u / 10 ^ s)] ++ [txt "."])).
      { apply append_pieces; try assumption; try discriminate. cbn [app concat]. rewrite app_nil_r, zlen_app, Lq, int_max_val. change (zlen (txt ".")) with 1. lia. }
      assert (P2 : pieces (s_append (s_append (Leaf a) (chS (ch "."))) (Leaf b)) (([numeral 10 (u / 10 ^ s)] ++ [txt "."]) ++ [fraction s u])).
      { apply append_pieces; try assumption; try discriminate. cbn [app concat]. rewrite app_nil_r, !zlen_app, Lq, zlen_fraction, int_max_val. change (zlen (txt ".")) with 1. lia. }
      cbn [app] in P2. assert (D : den (s_append (s_append (Leaf a) (chS (ch "."))) (Leaf b)) (decimal_text u s)).
      { destruct P2 as (D & _). cbn [concat] in D. rewrite app_nil_r in D. rewrite decimal_text_split by lia. exact D. }
      split; [exact D|]. intros _. split; [exact D|]. right. left. split; [lia|exact P2].
Qed.

(** ** BigDecimalWrapper.decimalLayout *)

(** the rounded value handed to the layout *)
Definition dec_pair (u s p : Z) : Z * Z :=
  if s <=? p then (u, s)
  else if ndigits u <=? s then (hup u (s - p), p)
  else let k := ndigits u - (s - p) in let r := hup u (s - p) in if r =? 10 ^ k then (10 ^ (k - 1), p - 1) else (r, p).

Lemma bd_decimal_pair u s p : 0 <= u -> 0 <= p <= 100000 -> int_min <= s <= int_max -> u = 0 \/ s - p <= 646456992 ->
  bd_decimal (mkBD u s) p = let (u', s') := dec_pair u s p in decimalLayout0 (mkBD u' s').
Proof.
  intros Hu Hp Hs Ht. unfold bd_decimal, dec_pair. cbn [bd_s bd_u]. destruct (s <=? p) eqn:E; bools.
  - replace (p <? s) with false by (symmetry; apply Z.ltb_ge; lia). reflexivity.
  - replace (p <? s) with true by (symmetry; apply Z.ltb_lt; lia). rewrite precision_ndigits by exact Hu. destruct (ndigits u <=? s) eqn:E1; bools.
    + unfold bd_setScale, checkTen, MAX_TEN. cbn [bd_s bd_u]. cbv zeta. replace (if u =? 0 then Ok tt else if s - p <=? 646456992 then Ok tt else Err (OtherExn 1)) with (Ok tt : res unit) by (destruct (Z.eqb_spec u 0), (Z.leb_spec (s - p) 646456992); try reflexivity; lia). cbn [bind].
      rewrite half_up_signed_hup by lia. reflexivity.
    + rewrite bd_new_mc_spec; [|exact Hu|lia|exact Hs|unfold int_min; lia]. cbn [bind]. unfold rdig, rscale.
      replace (ndigits u <=? ndigits u - (s - p)) with false by (symmetry; apply Z.leb_gt; lia).
      replace (ndigits u - (ndigits u - (s - p))) with (s - p) by lia. cbv zeta. destruct (_ =? _); do 2 f_equal; lia.
Qed.

Lemma bd_decimal_tiny u s p : 0 < u -> 0 <= p -> ndigits u <= 646456993 -> 646456992 < s - p -> bd_decimal (mkBD u s) p = Err (OtherExn 1).
Proof.
  intros Hu Hp Hn Ht. unfold bd_decimal. cbn [bd_s bd_u]. replace (p <? s) with true by (symmetry; apply Z.ltb_lt; lia). rewrite precision_ndigits by lia.
  replace (ndigits u <=? s) with true by (symmetry; apply Z.leb_le; lia). unfold bd_setScale, checkTen, MAX_TEN. cbn [bd_s bd_u]. cbv zeta.
  replace (u =? 0) with false by (symmetry; apply Z.eqb_neq; lia). replace (s - p <=? 646456992) with false by (symmetry; apply Z.leb_gt; lia). reflexivity.
Qed.

Lemma hup_nonneg' f k : 0 <= f -> 0 <= hup f k.
Proof.
  intros H. unfold hup. destruct (k <=? 0) eqn:E; bools; [pose proof (pow10_pos (- k) ltac:(lia)); nia|].
  pose proof (pow10_pos k ltac:(lia)). apply Z.div_pos; [|lia]. pose proof (Z.div_pos (10 ^ k) 2). lia.
Qed.

Lemma dec_pair_facts u s p : 0 <= u -> 0 <= p -> let (u', s') := dec_pair u s p in
  0 <= u' /\ s' <= p /\ (0 <= s -> -1 <= s') /\ (s < 0 -> u' = u /\ s' = s) /\ (0 < u \/ 0 <= s -> 0 < u' \/ 0 <= s') /\
  lay_j s' <= p /\ lay_N u' s' * 10 ^ (p - lay_j s') = hup u (s - p) /\ ndigits u' <= Z.max (ndigits u) (p + 1).
Proof.
  intros Hu Hp. pose proof (ndigits_pos u Hu) as N1.
  assert (G : forall u' s', s' <= p -> u' * 10 ^ (p - s') = hup u (s - p) -> lay_j s' <= p /\ lay_N u' s' * 10 ^ (p - lay_j s') = hup u (s - p)).
  { intros u' s' Hs' E. unfold lay_j, lay_N. split; [lia|]. rewrite <- E, <- Z.mul_assoc, <- Z.pow_add_r by lia. do 2 f_equal. lia. }
  unfold dec_pair. destruct (s <=? p) eqn:E; bools.
  - assert (H : u * 10 ^ (p - s) = hup u (s - p)).
    { unfold hup. replace (s - p <=? 0) with true by (symmetry; apply Z.leb_le; lia). do 2 f_equal. lia. }
    destruct (G u s E H). repeat split; try assumption; try lia.
  - pose proof (hup_nonneg' u (s - p) Hu) as H0.
    assert (A1 : hup u (s - p) * 10 ^ (p - p) = hup u (s - p)) by (rewrite Z.sub_diag; lia).
    assert (U0 : ndigits u <= s \/ 0 < u). { destruct (Z.eq_dec u 0) as [->|]; [left; change (ndigits 0) with 1; lia|right; lia]. }
    destruct (ndigits u <=? s) eqn:E1; bools.
    + destruct (G _ p ltac:(lia) A1). repeat split; try assumption; try lia.
      destruct (Z.eq_dec u 0) as [->|Nu]; [unfold hup; replace (s - p <=? 0) with false by (symmetry; apply Z.leb_gt; lia)|].
      * rewrite Z.add_0_l. replace (10 ^ (s - p) / 2 / 10 ^ (s - p)) with 0; [change (ndigits 0) with 1; lia|]. symmetry. apply Z.div_small.
        pose proof (pow10_pos (s - p) ltac:(lia)). split; [apply Z.div_pos; lia|apply Z.div_lt; lia].
      * destruct (Z_lt_ge_dec (s - p) (ndigits u)) as [L|L].
        -- pose proof (hup_range u (ndigits u) (s - p) ltac:(lia) eq_refl ltac:(lia) ltac:(lia)) as R. pose proof (pow10_pos (ndigits u - (s - p) - 1) ltac:(lia)).
           assert (10 ^ (ndigits u - (s - p)) < 10 ^ (ndigits u - (s - p) + 1)) by (apply Z.pow_lt_mono_r; lia).
           pose proof (ndigits_lt (hup u (s - p)) (ndigits u - (s - p) + 1) ltac:(lia) ltac:(lia) ltac:(lia)). lia.
        -- assert (hup u (s - p) <= 1).
           { destruct (Z.eq_dec (s - p) (ndigits u)) as [Eq|Nq]; [rewrite Eq; apply (hup_all u (ndigits u)); [lia|reflexivity]|rewrite (hup_beyond u (ndigits u)); lia]. }
           assert (hup u (s - p) = 0 \/ hup u (s - p) = 1) as [->| ->] by lia; [change (ndigits 0) with 1|change (ndigits 1) with 1]; lia.
    + destruct U0 as [U0|U0]; [lia|].
      pose proof (hup_range u (ndigits u) (s - p) U0 eq_refl ltac:(lia) ltac:(lia)) as R. set (k := ndigits u - (s - p)) in *. assert (1 <= k) by (unfold k; lia).
      pose proof (pow10_pos (k - 1) ltac:(lia)). cbv zeta. fold k. destruct (hup u (s - p) =? 10 ^ k) eqn:E2; bools.
      * assert (A2 : 10 ^ (k - 1) * 10 ^ (p - (p - 1)) = hup u (s - p)) by (rewrite E2, <- Z.pow_add_r by lia; f_equal; lia).
        destruct (G _ (p - 1) ltac:(lia) A2). repeat split; try assumption; try lia. rewrite ndigits_pow by lia. unfold k. lia.
      * destruct (G _ p ltac:(lia) A1). repeat split; try assumption; try lia. pose proof (ndigits_lt (hup u (s - p)) k ltac:(lia) ltac:(lia) ltac:(lia)). unfold k in *. lia.
Qed.

(** ** %f *)

Lemma zlen_finite_text q neg body : zlen (finite_text q neg body) = Z.max (q_width q) (zlen (sign_text q neg) + zlen body).
Proof.
  unfold finite_text, pad_number. destruct (q_zero q && negb (q_left q)).
  - rewrite !zlen_app. unfold zeros. rewrite zlen_rep. lia.
  - rewrite zlen_justify, zlen_app. reflexivity.
Qed.

Lemma lay_integer_part u s p : 0 <= u -> lay_j s <= p -> lay_N u s / 10 ^ lay_j s = lay_N u s * 10 ^ (p - lay_j s) / 10 ^ p.
Proof.
  intros Hu Hp. unfold lay_j in *. replace (10 ^ p) with (10 ^ (Z.max 0 s + (p - Z.max 0 s))) by (f_equal; lia). rewrite div_shift by lia. reflexivity.
Qed.

Lemma lay_N_nonneg u s : 0 <= u -> 0 <= lay_N u s.
Proof. intros H. unfold lay_N. pose proof (pow10_gt0 (- s)). nia. Qed.

(** with a non-negative scale, or one digit more, the integer part is no longer than the unscaled value *)
Lemma lay_integer_len u s : 0 <= u -> -1 <= s -> zlen (numeral 10 (lay_N u s / 10 ^ lay_j s)) <= ndigits u + 1.
Proof.
  intros Hu Hs. pose proof (ndigits_pos u Hu) as N1. apply zlen_numeral_lt; [lia|]. pose proof (lay_N_nonneg u s Hu) as L0. unfold lay_j.
  pose proof (pow10_pos (Z.max 0 s) ltac:(lia)) as P. split; [apply Z.div_pos; lia|].
  apply Z.le_lt_trans with (lay_N u s); [apply Z.div_le_upper_bound; nia|]. unfold lay_N.
  assert (B : u < 10 ^ ndigits u) by (apply digits_upper; lia). rewrite Z.pow_add_r by lia. change (10 ^ 1) with 10.
  assert (1 <= 10 ^ Z.max 0 (- s) <= 10) by (assert (Z.max 0 (- s) = 0 \/ Z.max 0 (- s) = 1) as [-> | ->] by lia; lia). nia.
Qed.

Lemma big_sign u : (Z.sgn u <? 0) = (u <? 0).
Proof. destruct u; reflexivity. Qed.

(** numbers with too many places to be cut off *)
Lemma fmt_f_tiny c u s : rt_ok c -> java_decimal u s -> u <> 0 -> 646456992 < s - prec_or 6 (q_of c) -> fmt_f c (bigDecForm (mkBD u s)) = Err (OtherExn 1).
Proof.
  intros Hc [Hj Hs] Hu Ht. unfold fmt_f. cbn [bigDecForm f_isNaN f_isInf f_decimal orb].
  destruct (precOr6_spec c Hc) as [Ep Hp]. rewrite Ep. unfold bd_abs. cbn [bd_u bd_s]. rewrite bd_decimal_tiny; [reflexivity|lia|lia|apply ndigits_tight; exact Hj|exact Ht].
Qed.

Lemma fmt_f_big c u s : rt_ok c -> java_decimal u s -> u <> 0 \/ 0 <= s -> u = 0 \/ s - prec_or 6 (q_of c) <= 646456992 ->
  zlen (c_f (q_of c) (u <? 0) (Z.abs u) (- s)) < int_max ->
  exists w, fmt_f c (bigDecForm (mkBD u s)) = Ok w /\ den w (c_f (q_of c) (u <? 0) (Z.abs u) (- s)).
Proof.
  intros Hc [Hj Hs] Hz Ht Hm. unfold fmt_f. cbn [bigDecForm f_isNaN f_isInf f_decimal orb]. unfold f_isNegative. cbn [bigDecForm f_signum bd_u]. rewrite big_sign.
  destruct (precOr6_spec c Hc) as [Ep Hp]. rewrite Ep. unfold bd_abs. cbn [bd_u bd_s]. pose proof (ndigits_fits u Hj) as N9.
  unfold c_f, f_body in *. cbv zeta in *. set (p := prec_or 6 (q_of c)) in *. replace (- (- s + p)) with (s - p) in * by lia.
  set (a := Z.abs u) in *. assert (Ha : 0 <= a) by (unfold a; lia). assert (Hz' : 0 < a \/ 0 <= s) by (unfold a; lia).
  assert (Ht' : a = 0 \/ s - p <= 646456992) by (unfold a; lia). clearbody a.
  fold (with_alt (q_alt (q_of c)) (hup a (s - p)) p) in *. rewrite zlen_finite_text in Hm. pose proof (zlen_sign_text (q_of c) (u <? 0)) as Zs.
  rewrite bd_decimal_pair by (unfold int_min, int_max; lia). pose proof (dec_pair_facts a s p Ha ltac:(lia)) as F. destruct (dec_pair a s p) as [u' s'].
  destruct F as (F1 & F2 & F3 & F4 & F5 & F6 & F7 & F8). pose proof (lay_N_nonneg u' s' F1) as L0.
  assert (J0 : 0 <= lay_j s') by (unfold lay_j; lia).
  assert (Zt : zlen (decimal_text (lay_N u' s') (lay_j s')) = zlen (numeral 10 (hup a (s - p) / 10 ^ p)) + (if lay_j s' =? 0 then 0 else 1 + lay_j s')).
  { rewrite zlen_decimal_text by lia. rewrite (lay_integer_part u' s' p) by assumption. rewrite F7. reflexivity. }
  assert (Zb : zlen (with_alt (q_alt (q_of c)) (hup a (s - p)) p) >= zlen (numeral 10 (hup a (s - p) / 10 ^ p)) + (if p =? 0 then 0 else 1 + p)).
  { unfold with_alt. destruct (q_alt (q_of c)); [rewrite zlen_alt_text by lia; destruct (p =? 0) eqn:E; bools; lia|rewrite zlen_decimal_text by lia; lia]. }
  assert (Zl : zlen (decimal_text (lay_N u' s') (lay_j s')) + p + 1 <= int_max).
  { destruct (Z_lt_ge_dec s 0) as [Sn|Sp].
    - destruct (F4 Sn) as [-> ->]. replace (lay_j s) with 0 in * by (unfold lay_j; lia). rewrite int_max_val in *. rewrite Zt. change (0 =? 0) with true. cbv iota.
      destruct (p =? 0) eqn:E; bools; lia.
    - pose proof (lay_integer_len u' s' F1 (F3 ltac:(lia))) as Li. rewrite (lay_integer_part u' s' p), F7 in Li by assumption. rewrite int_max_val. rewrite Zt.
      destruct (lay_j s' =? 0) eqn:E; bools; lia. }
  rewrite int_max_val in *. pose proof (zlen_nonneg (decimal_text (lay_N u' s') (lay_j s'))) as Znn.
  assert (S2 : int_min <= s' <= int_max).
  { unfold int_min, int_max. destruct (Z_lt_ge_dec s 0) as [Sn|Sp]; [destruct (F4 Sn) as [_ ->]; lia|specialize (F3 ltac:(lia)); lia]. }
  destruct (decimalLayout0_spec u' s' F1 ltac:(lia) S2 (F5 Hz') ltac:(rewrite int_max_val; lia)) as (m & Em & Dm & _). rewrite Em. cbn [bind l_mant].
  destruct (fractionalPart_den m (lay_N u' s') (lay_j s') p (hasFlag c ALTERNATE) Dm L0 ltac:(lia)) as (w & Ew & Dw); [rewrite int_max_val; lia|].
  rewrite Ew. cbn [bind]. rewrite F7 in Dw. change (hasFlag c ALTERNATE) with (q_alt (q_of c)) in Dw. apply signAndJustify_den; [exact Hc|exact Dw|]. rewrite int_max_val. lia.
Qed.

(** ** %e *)

Lemma min2_small x : 0 <= x < 10 -> min_digits 2 (numeral 10 x) = ch "0" :: numeral 10 x.
Proof. intros H. rewrite numeral_small by exact H. reflexivity. Qed.

Lemma min2_big x : 10 <= x -> min_digits 2 (numeral 10 x) = numeral 10 x.
Proof.
  intros H. apply min_digits_le. rewrite zlen_numeral. fold (ndigits x). destruct (ndigits_bounds x ltac:(lia)) as (N1 & _ & B).
  destruct (Z.eq_dec (ndigits x) 1) as [E|E]; [rewrite E in B; change (10 ^ 1) with 10 in B; lia|lia].
Qed.

Lemma mantissa_layout u : 0 <= u -> ndigits u <= 715827883 ->
  exists m, (if 1 <? ndigits u then insertDot (numeral 10 u) else Ok (wrapS (numeral 10 u))) = Ok m /\ laid_out m u (ndigits u - 1).
Proof.
  intros Hu Hn. pose proof (ndigits_pos u Hu) as N1. assert (Ln : zlen (numeral 10 u) = ndigits u) by apply zlen_numeral.
  destruct (1 <? ndigits u) eqn:E; bools.
  - assert (U0 : 0 < u). { destruct (Z.eq_dec u 0) as [->|]; [change (ndigits 0) with 1 in E; lia|lia]. }
    destruct (ndigits_bounds u U0) as (_ & B1 & B2). set (j := ndigits u - 1) in *.
    assert (Q : 1 <= u / 10 ^ j < 10).
    { pose proof (pow10_pos j ltac:(lia)). split; [apply Z.div_le_lower_bound; lia|]. apply Z.div_lt_upper_bound; [lia|].
      replace (ndigits u) with (j + 1) in B2 by (unfold j; lia). rewrite Z.pow_add_r in B2 by lia. lia. }
    pose proof (numeral_split u j ltac:(lia) B1) as Sp. rewrite (numeral_small (u / 10 ^ j)) in Sp by lia. set (c := digit_char (u / 10 ^ j)) in *. cbn [app] in Sp.
    unfold insertDot. rewrite Sp. cbn [jcharAt znth]. unfold jcharAt. change (znth (c :: fraction j u) 0) with (Some c). cbn [bind].
    destruct (leaf_of_wrap3 (c :: fraction j u) 1 (zlen (c :: fraction j u))) as (b & Eb & Pb); try lia; try (rewrite zlen_cons, zlen_fraction, ?int_max_val; lia).
    rewrite Eb. cbn [bind]. eexists. split; [reflexivity|].
    assert (Sb : slice (c :: fraction j u) 1 (zlen (c :: fraction j u)) = fraction j u).
    { change (c :: fraction j u) with ([c] ++ fraction j u). rewrite slice_app_r by (rewrite zlen_one; lia). rewrite zlen_one, zlen_app, zlen_one.
      replace (1 + zlen (fraction j u) - 1) with (zlen (fraction j u)) by lia. apply slice_full. }
    rewrite Sb in Pb.
    assert (Pa : pieces (chS c) [[c]]) by (apply leaf_pieces; [apply chS_den|discriminate|eexists; reflexivity]).
    assert (Pc : pieces (chS (ch ".")) [txt "."]) by (apply leaf_pieces; [apply chS_den|discriminate|eexists; reflexivity]).
    assert (P1 : pieces (s_append (chS c) (chS (ch "."))) ([[c]] ++ [txt "."])).
    { apply append_pieces; try assumption; try discriminate. }
    assert (P2 : pieces (s_append (s_append (chS c) (chS (ch "."))) (Leaf b)) (([[c]] ++ [txt "."]) ++ [fraction j u])).
    { apply append_pieces; try assumption; try discriminate. cbn [app concat]. rewrite app_nil_r. change (txt ".") with [ch "."]. cbn [app]. rewrite !zlen_cons, zlen_fraction, int_max_val. lia. }
    cbn [app] in P2. assert (En : numeral 10 (u / 10 ^ j) = [c]) by (apply numeral_small; lia).
    split.
    + destruct P2 as (D & _). cbn [concat] in D. rewrite app_nil_r in D. rewrite decimal_text_split by lia. rewrite En. exact D.
    + right. left. split; [unfold j; lia|]. rewrite En. exact P2.
  - replace (ndigits u - 1) with 0 by lia. eexists. split; [reflexivity|]. split; [|left; reflexivity]. rewrite integer_text. apply wrapS_den. rewrite int_max_val. lia.
Qed.

Lemma scientificLayout0_spec u s : 0 <= u -> ndigits u <= 715827883 -> - 2147483648 <= s <= 2147483647 ->
  exists m x xs, scientificLayout0 (mkBD u s) = Ok (mkLayout m (Some x)) /\ laid_out m u (ndigits u - 1) /\
    den x xs /\ zlen xs <= 100 /\ ch "e" :: xs = if (s =? 0) && (ndigits u =? 10) then txt "e+9" else exp_text (ndigits u - 1 - s).
Proof.
  intros Hu Hn Hs. pose proof (ndigits_pos u Hu) as N1. assert (Ln : zlen (numeral 10 u) = ndigits u) by apply zlen_numeral.
  destruct (mantissa_layout u Hu Hn) as (m & Em & Lm).
  unfold scientificLayout0. cbn [bd_u bd_s]. rewrite dec_text_pos by exact Hu. cbv zeta. rewrite Ln.
  assert (Lx : forall x, 0 <= x < 10 ^ 11 -> zlen (numeral 10 x) <= 11) by (intros x Hx; apply zlen_numeral_lt; lia).
  assert (W : forall t, zlen t <= 100 -> den (wrapS t) t) by (intros t Ht; apply wrapS_den; rewrite int_max_val; lia).
  destruct (s =? 0) eqn:E0; bools; cbn [andb].
  - subst s. rewrite Z.sub_0_r. destruct (1 <? ndigits u) eqn:E1; bools.
    + rewrite Em. cbn [bind]. rewrite dec_text_pos by lia. specialize (Lx (ndigits u - 1) ltac:(lia)).
      set (xs := if ndigits u <? 10 then txt "+0" ++ numeral 10 (ndigits u - 1) else txt "+" ++ numeral 10 (ndigits u - 1)).
      assert (Zx : zlen xs <= 100) by (unfold xs; destruct (ndigits u <? 10); rewrite zlen_app; [change (zlen (txt "+0")) with 2|change (zlen (txt "+")) with 1]; lia).
      exists m, (wrapS xs), xs. split; [reflexivity|]. split; [exact Lm|]. split; [apply W; exact Zx|]. split; [exact Zx|].
      unfold xs, exp_text. replace (ndigits u - 1 <? 0) with false by (symmetry; apply Z.ltb_ge; lia). rewrite Z.abs_eq by lia.
      destruct (ndigits u =? 10) eqn:E2; bools; [rewrite E2; reflexivity|]. destruct (ndigits u <? 10) eqn:E3; bools.
      * rewrite min2_small by lia. reflexivity.
      * rewrite min2_big by lia. reflexivity.
    + cbn [bind] in Em. injection Em as Em. assert (E2 : ndigits u = 1) by lia. rewrite E2. exists m, (wrapS (txt "+00")), (txt "+00"). split; [rewrite Em; reflexivity|].
      split; [rewrite E2 in Lm; exact Lm|]. split; [apply W; vm_compute; discriminate|]. split; [vm_compute; discriminate|reflexivity].
  - rewrite Em. cbn [bind]. replace (- s + (ndigits u - 1)) with (ndigits u - 1 - s) by lia. set (X := ndigits u - 1 - s) in *.
    assert (HX : - 10 ^ 10 < X < 10 ^ 10) by (unfold X; lia). clearbody X. clear E0.
    destruct (X =? 0) eqn:E1; bools; cbn [negb].
    + subst X. exists m, (wrapS (txt "+00")), (txt "+00"). split; [reflexivity|]. split; [exact Lm|]. split; [apply W; vm_compute; discriminate|]. split; [vm_compute; discriminate|reflexivity].
    + rewrite dec_text_pos by lia. specialize (Lx (Z.abs X) ltac:(lia)). set (g := if X <? 0 then ch "-" else ch "+").
      assert (D1 : den (s_append (if Z.abs X <? 10 then s_append (chS g) (chS (ch "0")) else chS g) (wrapS (numeral 10 (Z.abs X)))) (g :: min_digits 2 (numeral 10 (Z.abs X)))).
      { destruct (Z.abs X <? 10) eqn:E2; bools.
        - rewrite min2_small by lia. apply (s_append_den _ _ [g; ch "0"]); [apply (s_append_den _ _ [g] [ch "0"]); try apply chS_den; rewrite int_max_val; vm_compute; discriminate|apply W; lia|].
          rewrite zlen_app, int_max_val. change (zlen [g; ch "0"]) with 2. lia.
        - rewrite min2_big by lia. apply (s_append_den _ _ [g]); [apply chS_den|apply W; lia|]. rewrite zlen_app, zlen_one, int_max_val. lia. }
      exists m. eexists. exists (g :: min_digits 2 (numeral 10 (Z.abs X))). split; [reflexivity|]. split; [exact Lm|]. split; [exact D1|].
      split; [rewrite zlen_cons, zlen_min_digits; lia|]. reflexivity.
Qed.

(** the value laid out by scientificLayout *)
Lemma bd_scientific_exact u s p : 0 <= u -> - 2147483648 <= s <= 2147483647 -> 0 <= p <= 65536 ->
  let k := Z.min (ndigits u) (p + 1) in
  bd_scientific (mkBD u s) p = if int_min <=? rscale u s k then scientificLayout0 (mkBD (rdig u k) (rscale u s k)) else Err (OtherExn 1).
Proof.
  intros Hu Hs Hp. pose proof (ndigits_pos u Hu) as N1. unfold bd_scientific. rewrite precision_ndigits by exact Hu. cbn [bd_u bd_s].
  rewrite (wrap32_small (p + 1)) by lia. set (k := Z.min (ndigits u) (p + 1)). cbv zeta. replace (if ndigits u - 1 <? p then ndigits u else p + 1) with k.
  - rewrite bd_new_mc_exact; [destruct (_ <=? _); reflexivity|exact Hu|unfold k; lia|unfold int_min, int_max; lia].
  - unfold k. destruct (ndigits u - 1 <? p) eqn:E; bools; lia.
Qed.

Lemma rdig_min u k : 1 <= k -> rdig u (Z.min (ndigits u) k) = rdig u k.
Proof.
  intros Hk. destruct (Z_le_gt_dec (ndigits u) k) as [H|H]; [|rewrite Z.min_r by lia; reflexivity]. rewrite Z.min_l by lia. unfold rdig.
  rewrite (proj2 (Z.leb_le (ndigits u) k) H), (proj2 (Z.leb_le (ndigits u) (ndigits u)) ltac:(lia)). reflexivity.
Qed.

Lemma rscale_min u s k : 1 <= k -> rscale u s (Z.min (ndigits u) k) = rscale u s k.
Proof.
  intros Hk. destruct (Z_le_gt_dec (ndigits u) k) as [H|H]; [|rewrite Z.min_r by lia; reflexivity]. rewrite Z.min_l by lia. unfold rscale.
  rewrite (proj2 (Z.leb_le (ndigits u) k) H), (proj2 (Z.leb_le (ndigits u) (ndigits u)) ltac:(lia)). reflexivity.
Qed.

Lemma rscale_range u s k : 1 <= k -> - 2147483648 + ndigits u <= s <= 2147483647 -> - 2147483648 <= rscale u s k <= 2147483647.
Proof. intros Hk Hs. unfold rscale. destruct (ndigits u <=? k) eqn:E; bools; [|destruct (_ =? _)]; try lia. pose proof (Zle_0_nat (List.length (digits 10 u))). unfold ndigits, zlen in *. lia. Qed.
Lemma rscale_upper u s k : s <= 2147483647 -> rscale u s k <= 2147483647.
Proof. intros Hs. unfold rscale. destruct (ndigits u <=? k) eqn:E; bools; [|destruct (_ =? _)]; lia. Qed.

(** the exponent of the last digit kept *)
Lemma last_rscale u s P : 0 <= u -> 1 <= P -> last_exp u (- s) P = - rscale u s P.
Proof.
  intros Hu HP. unfold last_exp. destruct (u =? 0) eqn:E; bools.
  - subst u. unfold rscale. change (ndigits 0) with 1. replace (1 <=? P) with true by (symmetry; apply Z.leb_le; lia). reflexivity.
  - rewrite rdig_sig by lia. unfold kept. lia.
Qed.

Lemma append_exp_den s t x xs y : den s t -> den x xs -> zlen t <= 2000000000 -> zlen xs <= 1000 -> ch "e" :: xs = y ->
  den (s_append (s_append s (chS (ch "e"))) x) (t ++ y).
Proof.
  intros Hd Dx Ht Hx <-. change (t ++ ch "e" :: xs) with (t ++ [ch "e"] ++ xs). rewrite app_assoc. apply s_append_den.
  - apply s_append_den; [exact Hd|apply chS_den|]. rewrite zlen_app, zlen_one, int_max_val. lia.
  - exact Dx.
  - rewrite !zlen_app, zlen_one, int_max_val. lia.
Qed.

Lemma fmt_e_big_exact c u s : rt_ok c -> java_decimal u s -> last_exp (Z.abs u) (- s) (prec_or 6 (q_of c) + 1) <= 2147483648 ->
  exists w, fmt_e c (bigDecForm (mkBD u s)) = Ok w /\ den w (b_e (q_of c) (u <? 0) (Z.abs u) (- s)).
Proof.
  intros Hc [Hj Hs] Hl. unfold fmt_e. cbn [bigDecForm f_isNaN f_isInf f_scientific orb]. unfold f_isNegative. cbn [bigDecForm f_signum bd_u]. rewrite big_sign.
  destruct (precOr6_spec c Hc) as [Ep Hp]. rewrite Ep. unfold bd_abs. cbn [bd_u bd_s]. pose proof (ndigits_fits u Hj) as N9.
  unfold b_e, be_body. cbv zeta. set (p := prec_or 6 (q_of c)) in *. set (a := Z.abs u) in *. assert (Ha : 0 <= a) by (unfold a; lia). clearbody a. clear Hj.
  rewrite last_rscale in Hl by lia.
  pose proof (ndigits_pos a Ha) as N1. rewrite bd_scientific_exact by (try assumption; lia). rewrite rdig_min, rscale_min by lia.
  replace (int_min <=? rscale a s (p + 1)) with true by (symmetry; apply Z.leb_le; unfold int_min; lia).
  set (k := Z.min (ndigits a) (p + 1)).
  assert (F : 0 <= rdig a (p + 1) /\ ndigits (rdig a (p + 1)) = k /\ (a = 0 -> rdig a (p + 1) = 0 /\ rscale a s (p + 1) = s)).
  { destruct (Z.eq_dec a 0) as [->|Na].
    - unfold rdig, rscale, k. change (ndigits 0) with 1. replace (1 <=? p + 1) with true by (symmetry; apply Z.leb_le; lia). split; [lia|]. split; [change (ndigits 0) with 1; lia|auto].
    - destruct (rdig_facts a (p + 1) ltac:(lia) ltac:(lia)) as [R1 R2]. split; [lia|]. split; [exact R2|lia]. }
  destruct F as (F1 & F2 & F3). assert (F4 : - 2147483648 <= rscale a s (p + 1) <= 2147483647) by (pose proof (rscale_upper a s (p + 1)); lia).
  assert (Hk : 1 <= k <= 65537) by (unfold k; lia).
  destruct (scientificLayout0_spec (rdig a (p + 1)) (rscale a s (p + 1)) F1 ltac:(lia) F4) as (m & x & xs & Em & (Dm & _) & Dx & Zx & Exs).
  rewrite Em. cbn [bind l_mant l_exp nonNull]. rewrite F2 in *.
  assert (Zm : zlen (decimal_text (rdig a (p + 1)) (k - 1)) <= 200000).
  { rewrite zlen_decimal_text by lia. assert (zlen (numeral 10 (rdig a (p + 1) / 10 ^ (k - 1))) <= k); [|destruct (k - 1 =? 0); lia].
    apply zlen_numeral_lt; [lia|]. pose proof (pow10_pos (k - 1) ltac:(lia)). split; [apply Z.div_pos; lia|]. assert (rdig a (p + 1) < 10 ^ k) by (rewrite <- F2; apply digits_upper; lia).
    apply Z.div_lt_upper_bound; nia. }
  destruct (fractionalPart_den m (rdig a (p + 1)) (k - 1) p (hasFlag c ALTERNATE) Dm F1 ltac:(unfold k; lia)) as (w & Ew & Dw); [rewrite int_max_val; lia|].
  rewrite Ew. cbn [bind]. change (hasFlag c ALTERNATE) with (q_alt (q_of c)) in Dw. replace (p - (k - 1)) with (p + 1 - k) in Dw by lia.
  assert (Z1 : zlen (with_alt (q_alt (q_of c)) (rdig a (p + 1) * 10 ^ (p + 1 - k)) p) <= 200000 + p + 1).
  { pose proof (zlen_with_alt (q_alt (q_of c)) (rdig a (p + 1) * 10 ^ (p + 1 - k)) p ltac:(lia)) as Z1.
    replace (10 ^ p) with (10 ^ (k - 1 + (p + 1 - k))) in Z1 by (f_equal; lia). rewrite div_shift in Z1 by (unfold k; lia). rewrite zlen_decimal_text in Zm by lia. destruct (k - 1 =? 0) eqn:Ek; bools; lia. }
  assert (G : exists w0, signAndJustify c (s_append (s_append w (chS (ch "e"))) x) (u <? 0) = Ok w0 /\
     den w0 (finite_text (q_of c) (u <? 0) (with_alt (q_alt (q_of c)) (rdig a (p + 1) * 10 ^ (p + 1 - k)) p ++
       (if (rscale a s (p + 1) =? 0) && (k =? 10) then txt "e+9" else exp_text (k - 1 - rscale a s (p + 1)))))).
  { apply signAndJustify_den; [exact Hc|apply (append_exp_den _ _ _ xs); try assumption; lia|]. rewrite <- Exs, zlen_app, zlen_cons, int_max_val. lia. }
  destruct (a =? 0) eqn:Ea; bools.
  - destruct (F3 Ea) as [R1 R2]. rewrite R1, R2 in G. subst a. assert (k = 1) as Ek by (unfold k; change (ndigits 0) with 1; lia). rewrite Ek in G.
    change (1 =? 10) with false in G. rewrite andb_false_r in G. rewrite Z.mul_0_l in G. replace (1 - 1 - s) with (- s) in G by lia. exact G.
  - rewrite (rdig_sig a s (p + 1)) by lia. fold k. unfold big_exp_text, kept. fold k.
    replace (k - 1 - rscale a s (p + 1) =? 9) with (if k =? 10 then rscale a s (p + 1) =? 0 else k - 1 - rscale a s (p + 1) =? 9).
    + destruct (k =? 10); [exact G|]. rewrite andb_false_r in G. rewrite andb_false_r. exact G.
    + destruct (k =? 10) eqn:Ek; bools; [|reflexivity]. rewrite Ek. destruct (Z.eqb_spec (rscale a s (p + 1)) 0), (Z.eqb_spec (10 - 1 - rscale a s (p + 1)) 9); try reflexivity; lia.
Qed.

Lemma fmt_e_big_fails c u s : rt_ok c -> java_decimal u s -> 2147483648 < last_exp (Z.abs u) (- s) (prec_or 6 (q_of c) + 1) ->
  fmt_e c (bigDecForm (mkBD u s)) = Err (OtherExn 1).
Proof.
  intros Hc [Hj Hs] Hl. unfold fmt_e. cbn [bigDecForm f_isNaN f_isInf f_scientific orb].
  destruct (precOr6_spec c Hc) as [Ep Hp]. rewrite Ep. unfold bd_abs. cbn [bd_u bd_s]. rewrite last_rscale in Hl by lia.
  rewrite bd_scientific_exact by (try assumption; lia). rewrite rdig_min, rscale_min by lia.
  replace (int_min <=? rscale (Z.abs u) s (prec_or 6 (q_of c) + 1)) with false by (symmetry; apply Z.leb_gt; unfold int_min; lia). reflexivity.
Qed.

Lemma last_exp_room u s P : 0 <= u -> 1 <= P -> - 2147483648 + ndigits u <= s <= 2147483647 -> last_exp u (- s) P <= 2147483648.
Proof. intros Hu HP Hs. rewrite last_rscale by assumption. pose proof (rscale_range u s P HP Hs). lia. Qed.

Lemma fmt_e_big c u s : rt_ok c -> java_decimal u s -> - 2147483648 + ndigits (Z.abs u) <= s ->
  exists w, fmt_e c (bigDecForm (mkBD u s)) = Ok w /\ den w (b_e (q_of c) (u <? 0) (Z.abs u) (- s)).
Proof.
  intros Hc Hj Hl. apply fmt_e_big_exact; [exact Hc|exact Hj|]. destruct (precOr6_spec c Hc) as [_ Hp]. destruct Hj as [_ Hs]. apply last_exp_room; lia.
Qed.
