(** When a text of the library and C's text of the same argument are the same. *)
From Coq Require Import QArith Lia.
From Verif Require Import Base Digits SeqM SeqSpec CompilerM FormatterM BigDecM TraitsM FmtSpec FmtP FmtP2 DecSpec FloatSpec BigSpec FPDecP FloatP BigDecP BigGenP PropsBig ExactSpec WholeSpec
  FloatQ ReadSpec ReadFSpec ReadFP ReadFP2 BigReadP PortSpec PortP2 PortP3 JavaSpec JavaP JavaP2 JavaBigP RepairSpec.
Open Scope Z_scope.

Lemma case_reads s t t' : in_case s t = in_case s t' -> read_float 10 (ch "e") t = read_float 10 (ch "e") t'.
Proof. intros E. apply (f_equal (read_float 10 (ch "e"))) in E. rewrite !case_read10 in E. exact E. Qed.
Lemma case_lens s t t' : in_case s t = in_case s t' -> zlen t = zlen t'.
Proof. intros E. apply (f_equal (@zlen Z)) in E. rewrite !JavaP.case_len in E. exact E. Qed.
Lemma case_cnt k s t t' : k < 65 \/ 122 < k -> in_case s t = in_case s t' -> cnt k t = cnt k t'.
Proof. intros K E. apply (f_equal (cnt k)) in E. rewrite !cnt_case in E by exact K. exact E. Qed.

(** ** integers and texts *)

Lemma zeros_app a b : 0 <= a -> 0 <= b -> zeros a ++ zeros b = zeros (a + b).
Proof. intros Ha Hb. unfold zeros, rep. rewrite <- repeat_app. f_equal. lia. Qed.

Lemma d_seen q : 0 <= q_width q -> d_irregular q 0 = true -> (j_d q 0 = c_d q 0 <-> q_width q <> 0).
Proof.
  intros Hw E. unfold j_d. rewrite E. unfold d_irregular in E. cbn [Z.eqb] in E. destruct (q_prec q) as [p|] eqn:Ep; [|discriminate E].
  assert (p = 0) as -> by (destruct p; [reflexivity|discriminate E..]). cbn [andb] in E. apply andb_prop in E as [E1 E2]. apply negb_true_iff in E2.
  unfold c_d, pad_number, no_prec, int_digits, sign_text. rewrite Ep, E1, E2. change (0 <? 0) with false. rewrite andb_false_r. cbn [andb Z.eqb Z.abs app].
  split.
  - intros H. apply (f_equal (@zlen Z)) in H. rewrite !zlen_justify in H. change (zlen []) with 0 in H. change (zlen (txt " " ++ [])) with 1 in H. lia.
  - intros H. unfold justify. change (zlen []) with 0. change (txt " " ++ []) with (spaces 1). unfold spaces. rewrite zlen_rep. replace (Z.max 0 1) with 1 by lia. rewrite Z.sub_0_r.
    assert (R : forall a, 0 <= a -> rep (ch " ") (a + 1) = rep (ch " ") a ++ rep (ch " ") 1 /\ rep (ch " ") (a + 1) = rep (ch " ") 1 ++ rep (ch " ") a).
    { intros a Ha. unfold rep. rewrite <- !repeat_app. split; f_equal; lia. }
    destruct (R (q_width q - 1) ltac:(lia)) as [R1 R2]. replace (q_width q - 1 + 1) with (q_width q) in * by lia. rewrite app_nil_r.
    destruct (q_left q); [exact R2|exact R1].
Qed.

Lemma cnt_zeros n : cnt 48 (zeros n) = Z.max 0 n.
Proof. unfold zeros. rewrite cnt_rep. reflexivity. Qed.
Lemma zero_digits n : min_digits n (txt "0") = zeros (Z.max 1 n).
Proof.
  unfold min_digits. change (zlen (txt "0")) with 1. change (txt "0") with (zeros 1). unfold zeros, rep. rewrite <- repeat_app. f_equal. lia.
Qed.

Lemma x_seen s q : x_irregular q 0 = true -> (in_case s (j_x q 0) = in_case s (c_x q 0) <-> q_width q < 2).
Proof.
  intros E. unfold j_x. rewrite E. unfold x_irregular in E. repeat (apply andb_prop in E as [E ?]). apply negb_true_iff in H. cbn [Z.eqb] in *.
  unfold c_x, pad_number, int_digits. rewrite E, H, H0. unfold no_prec in *. destruct (q_prec q); [discriminate|]. cbn [andb negb Z.eqb app]. change (zlen []) with 0. change (numeral 16 0) with (txt "0").
  rewrite zero_digits. change (zlen (txt "0")) with 1. rewrite Z.sub_0_r. split.
  - intros F. apply (case_cnt 48) in F; [|lia]. rewrite cnt_justify, cnt_app, !cnt_zeros in F by discriminate. change (cnt 48 (txt "0")) with 1 in F. lia.
  - intros L. unfold justify. rewrite H. unfold zeros, spaces. rewrite zlen_rep. rewrite !(rep_nonpos _ (_ - _)) by lia. replace (Z.max 1 (q_width q - 2)) with 1 by lia. reflexivity.
Qed.

Lemma o_seen q : (forall p, q_prec q = Some p -> 0 <= p) -> o_irregular q 0 = true ->
  (j_o q 0 = c_o q 0 <-> match q_prec q with Some p => p = 1 | None => q_width q < 2 end).
Proof.
  intros Hp E. unfold j_o. rewrite E. unfold o_irregular in E. apply andb_prop in E as [E E1]. apply andb_prop in E as [E _]. cbv zeta. unfold c_o. cbv zeta. rewrite E.
  unfold no_prec in *. destruct (q_prec q) as [p|]; cbn [negb orb andb] in *.
  - specialize (Hp p eq_refl). rewrite andb_false_r. unfold pad_number. cbn [andb app]. unfold int_digits. cbn [Z.eqb andb]. change (numeral 8 0) with (txt "0"). destruct (Z.eqb_spec p 0) as [->|N].
    + split; [|intros F; discriminate F]. intros F. apply (f_equal (cnt 48)) in F. rewrite !cnt_justify in F by discriminate. discriminate F.
    + rewrite !zero_digits. assert (Fz : force_zero (zeros (Z.max 1 p)) = zeros (Z.max 1 p)).
      { unfold zeros, rep. destruct (Z.to_nat (Z.max 1 p)) eqn:Ez; [lia|reflexivity]. }
      rewrite Fz. split; [|intros ->; reflexivity]. intros F. apply (f_equal (cnt 48)) in F. rewrite !cnt_justify, !cnt_zeros in F by discriminate. lia.
  - rewrite andb_true_r in *. unfold pad_number. rewrite E1. unfold int_digits. change (numeral 8 0) with (txt "0"). cbn [app]. rewrite zero_digits.
    change (force_zero (txt "0")) with (txt "0"). change (zlen (txt "0")) with 1. change (zlen []) with 0. apply andb_prop in E1 as [_ E1]. apply negb_true_iff in E1. split.
    + intros F. apply (f_equal (cnt 48)) in F. rewrite cnt_justify, cnt_app, !cnt_zeros in F by discriminate. change (cnt 48 (txt "0")) with 1 in F. lia.
    + intros L. unfold justify. rewrite E1. unfold zeros, spaces. rewrite zlen_rep. rewrite !(rep_nonpos _ (_ - _)) by lia. replace (Z.max 1 (q_width q - 1)) with 1 by lia. reflexivity.
Qed.

Lemma leaf_start_nonneg ts : forall p, 0 <= leaf_start ts p.
Proof. induction ts as [|t ts IH]; intros p; cbn [leaf_start]; [lia|]. destruct (p <=? zlen t); [lia|]. specialize (IH (p - zlen t)). pose proof (zlen_nonneg t). lia. Qed.

Lemma seq_seen s q t ts p : q_prec q = Some p -> 0 <= p -> p < zlen t ->
  (in_case s (seq_text q t ts) = in_case s (c_s q t) <-> leaf_start ts p = 0 \/ q_width q + leaf_start ts p <= p).
Proof.
  intros Ep Hp L. unfold seq_text, c_s. rewrite Ep. replace (p <? zlen t) with true by (symmetry; apply Z.ltb_lt; exact L). set (x := firstn (Z.to_nat p) t).
  assert (Hx : zlen x = p) by (unfold x, zlen in *; rewrite firstn_length; lia). pose proof (leaf_start_nonneg ts p) as Hn. split.
  - intros F. apply case_lens in F. rewrite !zlen_justify, Hx in F. cbn [widen q_width] in F. lia.
  - intros [H|H]; [rewrite H, widen_0; reflexivity|]. rewrite !justify_full; [reflexivity|lia|cbn [widen q_width]; lia].
Qed.

(** ** infinities *)
Lemma inf_seen s q : q_space q = true -> q_plus q = false ->
  (in_case s (j_inf q false) = in_case s (c_inf q false) <-> q_left q = false /\ 8 < q_width q).
Proof.
  intros E1 E2. unfold j_inf, c_inf, sign_text. rewrite E1, E2. cbn [app]. rewrite !case_justify. unfold justify. rewrite !JavaP.case_len. change (zlen (txt "Infinity")) with 8. change (zlen (txt " " ++ txt "Infinity")) with 9.
  destruct (q_left q).
  - split; [|intros [F _]; discriminate F]. intros F. apply (f_equal (fun t => nth 0 t 0)) in F. unfold in_case in F. destruct (is_upper s); discriminate F.
  - split.
    + intros F. split; [reflexivity|]. apply (f_equal (@zlen Z)) in F. rewrite !zlen_app, !JavaP.case_len in F. unfold spaces in F. rewrite !zlen_rep in F. change (zlen (txt "Infinity")) with 8 in F. change (zlen (txt " " ++ txt "Infinity")) with 9 in F. lia.
    + intros [_ L]. rewrite JavaP.case_app, app_assoc. f_equal. assert (Es : in_case s (txt " ") = spaces 1) by (unfold in_case; destruct (is_upper s); reflexivity). rewrite Es.
      unfold spaces, rep. rewrite <- repeat_app. f_equal. lia.
Qed.

(** ** %f of zeros *)
Lemma f_seen s q sc : 0 <= q_width q -> sc < 0 ->
  (in_case s (b_f q 0 sc) = in_case s (c_f q false 0 (- sc)) <->
   q_zero q = true /\ q_left q = false /\ zlen (sign_text q false) - sc + zlen (f_body q 0 0) <= q_width q).
Proof.
  intros Hw Hs. assert (Eb : f_body q 0 (- sc) = f_body q 0 0).
  { unfold f_body. cbv zeta. assert (H0 : forall k, hup 0 k = 0) by (intros k; unfold hup; destruct (Z.leb_spec k 0) as [L|L]; [reflexivity|]; pose proof (Z.pow_pos_nonneg 10 k ltac:(lia) ltac:(lia)); apply Z.div_small; pose proof (Z.div_lt (10 ^ k) 2 ltac:(lia) ltac:(lia)); pose proof (Z.div_pos (10 ^ k) 2); lia).
    rewrite !H0. reflexivity. }
  assert (Ef : b_f q 0 sc = finite_text q false (zeros (- sc) ++ f_body q 0 0)).
  { rewrite <- Eb. reflexivity. }
  rewrite Ef. unfold c_f. rewrite Eb. set (B := f_body q 0 0). pose proof (zlen_nonneg B) as B0. pose proof (zlen_nonneg (sign_text q false)) as S0.
  assert (Lz : zlen (zeros (- sc)) = - sc) by (unfold zeros; rewrite zlen_rep; lia). split.
  - intros F. pose proof (case_lens _ _ _ F) as FL. rewrite !finite_len, zlen_app, Lz in FL. unfold finite_text, pad_number in F.
    destruct (q_zero q) eqn:Ez; [destruct (q_left q) eqn:El|]; cbn [andb negb] in F.
    + exfalso. apply (case_cnt 48) in F; [|lia]. rewrite !cnt_justify, !cnt_app, cnt_zeros in F by discriminate. lia.
    + repeat split. lia.
    + exfalso. apply (case_cnt 48) in F; [|lia]. rewrite !cnt_justify, !cnt_app, cnt_zeros in F by discriminate. lia.
  - intros (Ez & El & L). unfold finite_text, pad_number. rewrite Ez, El. cbn [andb negb]. rewrite zlen_app, Lz. do 2 f_equal. rewrite app_assoc, zeros_app by lia. do 2 f_equal. lia.
Qed.

(** ** %g of doubles with '#' *)
Lemma alt_point N p e : cnt 46 e = 0 -> 0 <= N -> 0 <= p -> cnt 46 (alt_text N p ++ e) = 1.
Proof.
  intros He HN Hp. pose proof (Z.pow_pos_nonneg 10 p ltac:(lia) Hp). unfold alt_text, decimal_text. destruct (p =? 0) eqn:E; rewrite !cnt_app, He; change (cnt 46 []) with 0.
  - rewrite cnt_point_digits by (apply numeral_dig, Z.div_pos; lia). reflexivity.
  - change (ch "." :: fraction p N) with ([ch "."] ++ fraction p N). rewrite cnt_app. rewrite (cnt_point_digits (numeral 10 _)) by (apply numeral_dig, Z.div_pos; lia).
    rewrite (cnt_point_digits (fraction p N)) by apply fraction_dig. reflexivity.
Qed.
Lemma no_point N e : cnt 46 e = 0 -> 0 <= N -> cnt 46 (decimal_text N 0 ++ e) = 0.
Proof.
  intros He HN. unfold decimal_text. change (0 =? 0) with true. cbv iota. rewrite app_nil_r, cnt_app, He, cnt_point_digits; [reflexivity|]. apply numeral_dig. apply Z.div_pos; [lia|reflexivity].
Qed.
Lemma cnt_finite k q neg t : k <> 32 -> k <> 48 -> k <> 43 -> k <> 45 -> cnt k (finite_text q neg t) = cnt k t.
Proof.
  intros A B C D. unfold finite_text. rewrite cnt_pad by assumption. assert (cnt k (sign_text q neg) = 0) as ->; [|lia].
  unfold sign_text. destruct neg; [|destruct (q_plus q); [|destruct (q_space q)]]; unfold cnt, zlen; cbn;
    repeat match goal with |- context [if ?b then _ else _] => destruct b eqn:?E; [apply Z.eqb_eq in E; lia|] end; reflexivity.
Qed.

Lemma exp_point X : cnt 46 (exp_text X) = 0. Proof. apply cnt_point_exp. Qed.

(** the digits: [P] of them, or fewer *)
Lemma g_double_seen s q neg f e : 0 <= f -> 1 <= g_prec q -> g_irregular q f e = true ->
  (in_case s (j_g q neg f e) = in_case s (c_g q neg f e) <-> 1 < g_prec q <= ndigits f).
Proof.
  intros Hf HP E. unfold j_g. rewrite E. unfold g_irregular in E. unfold c_g, g_body, g_unpadded. cbv zeta. set (P := g_prec q) in *.
  destruct (Z.eqb_spec f 0) as [->|N].
  { exfalso. unfold sig0 in E. cbn [Z.eqb] in E. apply andb_prop in E as [_ E]. replace (0 <? P) with true in E by (symmetry; apply Z.ltb_lt; lia). discriminate E. }
  destruct (sig0 f e P) as [S X] eqn:ES. apply andb_prop in E as [E1 E2]. apply negb_true_iff in E2. rewrite E2. unfold g_text. rewrite E1.
  unfold sig0 in ES. replace (f =? 0) with false in ES by (symmetry; apply Z.eqb_neq; exact N).
  rewrite <- (Z.opp_involutive e) in ES. destruct (sci_short f (- e) P S X ltac:(lia) HP ES) as (_ & B2 & B3 & B4). unfold kept in *. set (m := Z.min (ndigits f) P) in *.
  destruct (Z.eqb_spec P 1) as [P1|P1].
  - split; [|lia]. intros F. exfalso. apply (case_cnt 46) in F; [|lia]. rewrite !cnt_finite in F by discriminate. rewrite P1 in F. rewrite no_point, alt_point in F by (try apply exp_point; lia). discriminate F.
  - assert (D0 : 0 <= S / 10 ^ (P - m)) by (apply Z.div_pos; [lia|apply Z.pow_pos_nonneg; lia]). split.
    + intros F. apply case_reads in F. rewrite (finite_reads q neg true _ (m - 1) _ _ D0 ltac:(lia) (exp_text_reads X)) in F.
      rewrite (finite_reads q neg true S (P - 1) _ _ ltac:(lia) ltac:(lia) (exp_text_reads X)) in F. injection F as F1 F2. lia.
    + intros L. assert (m = P) as -> by lia. rewrite Z.sub_diag, Z.pow_0_r, Z.div_1_r. reflexivity.
Qed.

(** ** %e of decimals *)
Lemma e_seen s q u sc : 0 <= prec_or 6 q ->
  (in_case s (b_e q (u <? 0) (Z.abs u) (- sc)) = in_case s (c_e q (u <? 0) (Z.abs u) (- sc)) <->
   ~ (u = 0 /\ sc <> 0 \/ u <> 0 /\ snd (sig (Z.abs u) (- sc) (prec_or 6 q + 1)) = 9 /\ kept (Z.abs u) (prec_or 6 q + 1) = 10)).
Proof.
  intros Hp. destruct (big_digits u sc (prec_or 6 q + 1) ltac:(lia)) as (S & X & HS & S0 & Hz & Hn). pose proof (e_dec_java s q u sc S X Hp HS) as H.
  assert (Ec : c_e q (u <? 0) (Z.abs u) (- sc) = finite_text q (u <? 0) (pointed q S (prec_or 6 q) ++ exp_text X)).
  { unfold c_e, e_body, sig0. cbv zeta. rewrite abs_zero. destruct (Z.eqb_spec u 0) as [E|E].
    - destruct (Hz E) as [-> ->]. reflexivity.
    - rewrite (Hn E). reflexivity. }
  rewrite Ec, H. split; intros G F; apply G; (destruct F as [F|(F1 & F2 & F3)]; [left; exact F|right]).
  - rewrite (Hn F1) in F2. repeat split; assumption.
  - rewrite (Hn F1). repeat split; assumption.
Qed.

(** ** %g of decimals *)
Lemma drop_all p : 0 <= p -> forall M, 0 <= M -> drop_zeros (Z.to_nat p) (M * 10 ^ p) = (M, 0).
Proof. intros Hp M HM. pose proof (dropz_shift M 0 p HM ltac:(lia) Hp) as H. rewrite Z.add_0_l in H. rewrite H. reflexivity. Qed.

(** the characters before the fraction digits that are not zeros at the start *)
Lemma fixed_loss a sc P S X : 0 < a -> 1 <= P -> sig a (- sc) P = (S, X) -> X < P ->
  let X0 := ndigits a + - sc - 1 in
  let r := snd (drop_zeros (Z.to_nat (P - 1 - X)) S) in
  let (N, j) := bg_fixed a (- sc) P in
  cut_loss N j = if (0 <? r) && (r <? Z.min (ndigits a) P - 1 - X0) then (if X <? 0 then 1 - X else X + 2) else 0.
Proof.
  intros Ha HP ES HX X0 r. pose proof (fixed_short a sc P S X Ha HP ES HX) as Fs. destruct (ndigits_bounds a Ha) as (N1 & B1 & B2).
  assert (R0 : 0 <= r).
  { unfold r. pose proof (drop_zeros_value (Z.to_nat (P - 1 - X)) S) as V. destruct (drop_zeros (Z.to_nat (P - 1 - X)) S). cbn [snd]. lia. }
  destruct (bg_fixed a (- sc) P) as [N j] eqn:Ef. unfold cut_loss. rewrite Fs. unfold r in *. clear r. destruct (drop_zeros (Z.to_nat (P - 1 - X)) S) as [M r] eqn:Ed. cbn [snd] in *.
  unfold bg_fixed in Ef. cbv zeta in Ef. unfold sig in ES. cbv zeta in ES.
  destruct (Z.eqb_spec r 0) as [->|Nr].
  { rewrite orb_true_r. change (0 <? 0) with false. reflexivity. }
  replace (0 <? r) with true by (symmetry; apply Z.ltb_lt; lia). rewrite orb_false_r. cbn [andb].
  pose proof (drop_snd_le (Z.to_nat j) N) as Lr. rewrite Fs in Lr. cbn [snd] in Lr.
  destruct (ndigits a <=? P) eqn:EP; bools.
  - injection Ef as <- <-. rewrite Z.min_l by lia. assert (Hu : hup a (ndigits a - P) = a * 10 ^ (P - ndigits a)).
    { unfold hup. replace (ndigits a - P <=? 0) with true by (symmetry; apply Z.leb_le; lia). do 2 f_equal. lia. }
    assert (Nc : (hup a (ndigits a - P) =? 10 ^ P) = false).
    { apply Z.eqb_neq. rewrite Hu. intros E. pose proof (pow10_pos (P - ndigits a) ltac:(lia)). replace P with (ndigits a + (P - ndigits a)) in E at 2 by lia. rewrite Z.pow_add_r in E by lia. nia. }
    rewrite Nc in ES. injection ES as _ EX. assert (X = X0) by (unfold X0; lia). subst X. unfold X0 in *.
    destruct (Z.le_gt_cases sc 0) as [Ls|Ls].
    + exfalso. rewrite (Z.max_l 0 (- - sc)) in Lr by lia. cbn in Lr. lia.
    + rewrite (Z.max_r 0 (- - sc)), (Z.max_l 0 (- sc)), Z.pow_0_r, Z.mul_1_r in * by lia.
      destruct (Z.eqb_spec r (- - sc)) as [->|Nj]; [replace (_ <? _) with false by (symmetry; apply Z.ltb_ge; lia); reflexivity|].
      replace (r <? ndigits a - 1 - (ndigits a + - sc - 1)) with true by (symmetry; apply Z.ltb_lt; lia).
      destruct (- - sc <? ndigits a) eqn:E1, (ndigits a + - sc - 1 <? 0) eqn:E2; bools; lia.
  - rewrite Z.min_r by lia. destruct (Z.eqb_spec (hup a (ndigits a - P)) (10 ^ P)) as [Ec|Ec].
    + injection ES as <- EX. assert (EX' : X = X0 + 1) by (unfold X0; lia). clear EX.
      assert (Xn : X < 0).
      { destruct (Z.le_gt_cases 0 X) as [L|L]; [exfalso|exact L]. replace (10 ^ (P - 1)) with (10 ^ X * 10 ^ (P - 1 - X)) in Ed by (rewrite <- Z.pow_add_r by lia; f_equal; lia).
        rewrite drop_all in Ed by (try apply Z.pow_nonneg; lia). injection Ed as _ Ed. lia. }
      cbn [andb] in Ef. replace (- - sc <? ndigits a) with false in Ef by (symmetry; apply Z.ltb_ge; unfold X0 in *; lia). injection Ef as <- <-.
      assert (Nd : ndigits (hup a (ndigits a - P)) = P + 1) by (rewrite Ec; replace P with (P + 1 - 1) at 1 by lia; apply ndigits_pow; lia). rewrite Nd.
      destruct (Z.eqb_spec r (P - ndigits a - - sc)) as [->|Nj]; [replace (_ <? _) with false by (symmetry; apply Z.ltb_ge; unfold X0; lia); reflexivity|].
      replace (r <? P - 1 - X0) with true by (symmetry; apply Z.ltb_lt; unfold X0 in *; lia).
      replace (X <? 0) with true by (symmetry; apply Z.ltb_lt; lia).
      destruct (P - ndigits a - - sc <? P + 1) eqn:E1; bools; unfold X0 in *; lia.
    + injection ES as ES EX. assert (EX' : X = X0) by (unfold X0; lia). clear EX. cbn [andb] in Ef. injection Ef as <- <-.
      assert (Nd : ndigits (hup a (ndigits a - P)) = P).
      { destruct (sig_right a (- sc) P (hup a (ndigits a - P)) X0 Ha HP) as (? & ? & _ & _ & _ & B).
        - unfold sig. cbv zeta. replace (hup a (ndigits a - P) =? 10 ^ P) with false by (symmetry; apply Z.eqb_neq; exact Ec). reflexivity.
        - pose proof (pow10_pos (P - 1) ltac:(lia)). apply ndigits_unique; lia. }
      rewrite Nd. destruct (Z.eqb_spec r (P - ndigits a - - sc)) as [->|Nj]; [replace (_ <? _) with false by (symmetry; apply Z.ltb_ge; unfold X0; lia); reflexivity|].
      replace (r <? P - 1 - X0) with true by (symmetry; apply Z.ltb_lt; unfold X0 in *; lia).
      destruct (P - ndigits a - - sc <? P) eqn:E1, (X <? 0) eqn:E2; bools; unfold X0 in *; lia.
Qed.

Lemma sci_loss a sc P S X : 0 < a -> 1 <= P -> sig a (- sc) P = (S, X) ->
  let k := Z.min (ndigits a) P in
  let r := snd (drop_zeros (Z.to_nat (P - 1)) S) in
  cut_loss (S / 10 ^ (P - k)) (k - 1) = if (0 <? r) && (r <? k - 1) then 2 else 0.
Proof.
  intros Ha HP ES k r. destruct (sci_short a sc P S X Ha HP ES) as (_ & B2 & B3 & B4). unfold kept in *. fold k in B2, B4. set (D := S / 10 ^ (P - k)) in *.
  pose proof (pow10_pos (P - k) ltac:(lia)) as Pk. assert (D0 : 0 < D) by nia.
  assert (Fs : drop_zeros (Z.to_nat (k - 1)) D = drop_zeros (Z.to_nat (P - 1)) S).
  { rewrite B2. replace (P - 1) with (k - 1 + (P - k)) by lia. symmetry. apply dropz_shift; lia. }
  assert (Nd : ndigits D = k).
  { destruct (sig_right a (- sc) P S X Ha HP ES) as (? & ? & _ & _ & _ & B). apply ndigits_unique; [exact D0|lia|].
    assert (E1 : 10 ^ (P - 1) = 10 ^ (k - 1) * 10 ^ (P - k)) by (rewrite <- Z.pow_add_r by lia; f_equal; lia).
    assert (E2 : 10 ^ P = 10 ^ k * 10 ^ (P - k)) by (rewrite <- Z.pow_add_r by lia; f_equal; lia). rewrite E1, E2 in B. clearbody D. nia. }
  unfold cut_loss. unfold r in *. clear r. rewrite Fs. pose proof (drop_zeros_value (Z.to_nat (P - 1)) S) as V. pose proof (drop_snd_le (Z.to_nat (k - 1)) D) as L. rewrite Fs in L.
  destruct (drop_zeros (Z.to_nat (P - 1)) S) as [M r]. cbn [snd] in *. rewrite Nd.
  destruct (Z.eqb_spec r 0) as [->|N0]; [rewrite orb_true_r; reflexivity|]. rewrite orb_false_r. replace (0 <? r) with true by (symmetry; apply Z.ltb_lt; lia). cbn [andb].
  destruct (Z.eqb_spec r (k - 1)) as [->|N1]; [rewrite Z.ltb_irrefl; reflexivity|]. replace (r <? k - 1) with true by (symmetry; apply Z.ltb_lt; lia).
  replace (k - 1 <? k) with true by (symmetry; apply Z.ltb_lt; lia). lia.
Qed.

(** one text in two fields *)
Lemma fields_seen s q neg B (c : bool) n : 0 < n ->
  (in_case s (finite_text (widen q (if c then n else 0)) neg B) = in_case s (finite_text q neg B) <->
   c && (zlen (sign_text q neg) + zlen B <? q_width q + n) = false).
Proof.
  intros Hn. destruct c; cbn [andb]; [|rewrite widen_0; split; reflexivity]. split.
  - intros F. apply case_lens in F. apply widen_seen in F; [|lia]. apply Z.ltb_ge. lia.
  - intros H. apply Z.ltb_ge in H. f_equal. apply widen_same; [lia|right; lia].
Qed.

Lemma g_seen s q neg a sc : 0 <= a -> 1 <= g_prec q ->
  (in_case s (b_g q neg a (- sc)) = in_case s (c_g q neg a (- sc)) <-> g_differs q neg a (- sc) = false).
Proof.
  intros Ha HP. unfold b_g, bg_parts, g_differs. cbv zeta. destruct (Z.eqb_spec a 0) as [->|N].
  - assert (Ed : (if let (_, _) := sig 0 (- sc) (g_prec q) in negb (- sc =? 0) then true else false) = negb (- sc =? 0)) by (destruct (sig 0 (- sc) (g_prec q)), (negb (- sc =? 0)); reflexivity).
    assert (Eg : (let (_, _) := sig 0 (- sc) (g_prec q) in negb (- sc =? 0)) = negb (- sc =? 0)) by (destruct (sig 0 (- sc) (g_prec q)); reflexivity). rewrite Eg. clear Ed Eg.
    assert (Pl : (-4 <=? 0) && (0 <? g_prec q) = true) by (apply andb_true_intro; split; [reflexivity|apply Z.ltb_lt; lia]).
    assert (Dz : forall n, drop_zeros n 0 = (0, 0)) by (induction n; [reflexivity|exact IHn]).
    unfold bg_positional. cbn [Z.eqb]. destruct (Z.eqb_spec (- sc) 0) as [E|E]; cbn [negb].
    + split; [reflexivity|]. intros _. f_equal. assert (B : bg_fixed 0 (- sc) (g_prec q) = (0, 0)) by (rewrite E; unfold bg_fixed; change (ndigits 0) with 1; replace (1 <=? g_prec q) with true by (symmetry; apply Z.leb_le; lia); reflexivity). rewrite B.
      unfold c_g, g_body, sig0. cbv zeta. cbn [Z.eqb]. rewrite Pl. unfold g_text. change (ndigits 0) with 1. rewrite Z.sub_0_r. destruct (q_alt q).
      * rewrite widen_0, Z.mul_0_l, Z.max_r, Z.add_0_l by lia. reflexivity.
      * change (cut_loss 0 0) with 0. rewrite widen_0. unfold short_text. rewrite !Dz. reflexivity.
    + split; [|discriminate]. intros F. exfalso. unfold bg_sci in F. cbn [Z.eqb] in F. assert (K1 : kept 0 (g_prec q) = 1) by (unfold kept; change (ndigits 0) with 1; lia). rewrite K1 in F. change (1 - 1) with 0 in F.
      change (cut_loss 0 0) with 0 in F. change (short_text 0 0) with (decimal_text 0 0) in F.
      assert (F' : in_case s (finite_text q neg (decimal_text 0 0 ++ exp_text (- sc))) = in_case s (c_g q neg 0 (- sc))) by (destruct (q_alt q); rewrite widen_0 in F; exact F). clear F. apply case_reads in F'.
      rewrite (finite_reads q neg false 0 0 _ _ ltac:(lia) ltac:(lia) (exp_text_reads (- sc))) in F'. unfold c_g, g_body, sig0 in F'. cbv zeta in F'. cbn [Z.eqb] in F'. rewrite Pl in F'. unfold g_text in F'. rewrite Z.sub_0_r in F'. destruct (q_alt q).
      * pose proof (finite_reads q neg true 0 (g_prec q - 1) [] 0 ltac:(lia) ltac:(lia) no_exp_reads) as R. cbv iota in R. rewrite app_nil_r in R. rewrite R in F'. injection F' as F1 F2. lia.
      * pose proof (short_reads q neg 0 (g_prec q - 1) [] 0 ltac:(lia) no_exp_reads) as R. rewrite app_nil_r in R. rewrite R in F'. injection F' as F1 F2. lia.
  - assert (Pa : 0 < a) by lia. destruct (sig a (- sc) (g_prec q)) as [S X] eqn:ES. set (P := g_prec q) in *. unfold bg_positional. set (X0 := ndigits a + - sc - 1) in *.
    replace (a =? 0) with false by (symmetry; apply Z.eqb_neq; exact N).
    assert (S0 : 0 < S) by apply (sci_short a sc P S X Pa HP ES).
    assert (XX : X = X0 \/ X = X0 + 1).
    { clear - ES. unfold sig in ES. cbv zeta in ES. destruct (_ =? _); injection ES as _ <-; unfold X0; lia. }
    assert (Cg : c_g q neg a (- sc) = finite_text q neg (if (-4 <=? X) && (X <? P) then g_text q S (P - 1 - X) else g_text q S (P - 1) ++ exp_text X)).
    { unfold c_g, g_body, sig0. cbv zeta. replace (a =? 0) with false by (symmetry; apply Z.eqb_neq; exact N). fold P. rewrite ES. reflexivity. }
    assert (Gb : g_body q a (- sc) = if (-4 <=? X) && (X <? P) then g_text q S (P - 1 - X) else g_text q S (P - 1) ++ exp_text X).
    { unfold g_body, sig0. cbv zeta. replace (a =? 0) with false by (symmetry; apply Z.eqb_neq; exact N). fold P. rewrite ES. reflexivity. }
    assert (Rc : exists M k, read_float 10 (ch "e") (c_g q neg a (- sc)) = Some (neg, M, k, if (-4 <=? X) && (X <? P) then 0 else X)).
    { rewrite Cg. unfold g_text. destruct ((-4 <=? X) && (X <? P)) eqn:Pl; destruct (q_alt q).
      - apply andb_prop in Pl as [P1 P2]. bools. pose proof (finite_reads q neg true S (P - 1 - X) [] 0 ltac:(lia) ltac:(lia) no_exp_reads) as R. cbv iota in R. rewrite app_nil_r in R. rewrite R. eauto.
      - pose proof (short_reads q neg S (P - 1 - X) [] 0 ltac:(lia) no_exp_reads) as R. rewrite app_nil_r in R. rewrite R. eauto.
      - rewrite (finite_reads q neg true S (P - 1) _ _ ltac:(lia) ltac:(lia) (exp_text_reads X)). eauto.
      - rewrite (short_reads q neg S (P - 1) _ _ ltac:(lia) (exp_text_reads X)). eauto. }
    destruct ((-4 <=? X0) && (X0 <? P)) eqn:P0.
    + apply andb_prop in P0 as [Q1 Q2]. bools. assert (Hp : 0 <= P - ndigits a + sc) by (unfold X0 in *; lia). pose proof (fixed_value a sc P Pa HP Hp) as Fv.
      destruct ((-4 <=? X) && (X <? P)) eqn:P1; cbn [Bool.eqb negb].
      * apply andb_prop in P1 as [Q3 Q4]. bools. pose proof (fixed_short a sc P S X Pa HP ES ltac:(lia)) as Fs. pose proof (fixed_loss a sc P S X Pa HP ES ltac:(lia)) as Fl. cbv zeta in Fl.
        pose proof (fixed_alt a sc P S X Pa HP ES ltac:(lia)) as Fa. cbv zeta in Fa. fold X0 in Fl. rewrite Cg, Gb.
        destruct (bg_fixed a (- sc) P) as [M j] eqn:Ef. destruct Fv as (V1 & V2 & V3). unfold g_text. destruct (q_alt q) eqn:Ea.
        -- cbv zeta beta iota. rewrite widen_0. destruct (Z.eqb_spec X X0) as [EX|EX]; cbn [negb andb].
           ++ destruct Fa as [A1 A2]; [left; unfold X0 in *; lia|]. rewrite A1, A2. split; reflexivity.
           ++ destruct (Z.ltb_spec X0 0) as [L|L].
              ** split; [|discriminate]. intros F. exfalso. apply case_reads in F. assert (Em : M = 10 ^ P /\ S = 10 ^ (P - 1)).
                 { clear - ES Ef L EX Pa. unfold sig in ES. cbv zeta in ES. unfold bg_fixed in Ef. cbv zeta in Ef. destruct (Z.eqb_spec (hup a (ndigits a - P)) (10 ^ P)) as [E|E]; injection ES as <- <-; [|exfalso; unfold X0 in *; lia].
                   split; [|reflexivity]. replace (- - sc <? ndigits a) with false in Ef by (symmetry; apply Z.ltb_ge; unfold X0 in *; lia). rewrite andb_false_r in Ef.
                   destruct (Z.leb_spec (ndigits a) P) as [Lp|Lp]; [|injection Ef as <- _; exact E]. injection Ef as <- _. rewrite Z.max_l by (unfold X0 in *; pose proof (ndigits_pos a ltac:(lia)); lia). rewrite Z.pow_0_r.
                   exfalso. unfold hup in E. replace (ndigits a - P <=? 0) with true in E by (symmetry; apply Z.leb_le; lia). replace (- (ndigits a - P)) with (P - ndigits a) in E by lia.
                   destruct (ndigits_bounds a Pa) as (N1 & B1 & B2). replace P with (ndigits a + (P - ndigits a)) in E at 2 by lia. rewrite Z.pow_add_r in E by lia. pose proof (pow10_pos (P - ndigits a) ltac:(lia)). nia. }
                 destruct Em as [-> ->]. pose proof (finite_reads q neg true (10 ^ P * 10 ^ Z.max 0 (P - ndigits (10 ^ P))) (j + Z.max 0 (P - ndigits (10 ^ P))) [] 0 ltac:(pose proof (Z.pow_nonneg 10 (Z.max 0 (P - ndigits (10 ^ P)))); nia) ltac:(lia) no_exp_reads) as R.
                 cbv iota in R. rewrite app_nil_r in R. rewrite R in F. pose proof (finite_reads q neg true (10 ^ (P - 1)) (P - 1 - X) [] 0 ltac:(lia) ltac:(lia) no_exp_reads) as R'. cbv iota in R'. rewrite app_nil_r in R'. rewrite R' in F.
                 injection F as F1 F2. replace P with (P - 1 + 1) in F1 at 1 by lia. rewrite Z.pow_add_r in F1 by lia. pose proof (pow10_pos (Z.max 0 (P - ndigits (10 ^ P))) ltac:(lia)). nia.
              ** destruct Fa as [A1 A2]; [right; unfold X0 in *; lia|]. rewrite A1, A2. split; reflexivity.
        -- unfold short_text. rewrite Fs, Fl. apply fields_seen. destruct (X <? 0) eqn:E; bools; lia.
      * split; [|discriminate]. intros F. exfalso. destruct Rc as (Mc & kc & Rc). destruct (bg_fixed a (- sc) P) as [M j]. destruct Fv as (V1 & V2 & V3).
        assert (X <> 0) by (intros ->; assert (B : (-4 <=? 0) && (0 <? P) = true) by (apply andb_true_intro; split; [reflexivity|apply Z.ltb_lt; lia]); congruence).
        destruct (q_alt q); apply case_reads in F; rewrite Rc in F.
        -- pose proof (finite_reads (widen q 0) neg true (M * 10 ^ Z.max 0 (P - ndigits M)) (j + Z.max 0 (P - ndigits M)) [] 0 ltac:(pose proof (Z.pow_nonneg 10 (Z.max 0 (P - ndigits M))); nia) ltac:(lia) no_exp_reads) as R.
           cbv iota in R. rewrite app_nil_r in R. rewrite R in F. injection F as _ _ F. lia.
        -- pose proof (short_reads (widen q (cut_loss M j)) neg M j [] 0 ltac:(lia) no_exp_reads) as R. rewrite app_nil_r in R. rewrite R in F. injection F as _ _ F. lia.
    + destruct (sci_short a sc P S X Pa HP ES) as (B1 & B2 & B3 & B4). pose proof (sci_loss a sc P S X Pa HP ES) as Sl. cbv zeta in Sl. rewrite B1. unfold kept in *. set (k := Z.min (ndigits a) P) in *. set (D := S / 10 ^ (P - k)) in *.
      pose proof (pow10_pos (P - k) ltac:(lia)) as Pk. assert (D0 : 0 <= D) by nia.
      destruct ((-4 <=? X) && (X <? P)) eqn:P1; cbn [Bool.eqb negb].
      * split; [|discriminate]. intros F. exfalso. destruct Rc as (Mc & kc & Rc). apply andb_prop in P1 as [Q3 Q4]. bools.
        assert (X <> 0) by (intros ->; assert (X0 = -1) by lia; rewrite H in P0; assert (B : (-4 <=? -1) && (-1 <? P) = true) by (apply andb_true_intro; split; [reflexivity|apply Z.ltb_lt; lia]); congruence).
        destruct (q_alt q); apply case_reads in F; rewrite Rc in F.
        -- rewrite (finite_reads (widen q 0) neg false D (k - 1) _ _ D0 ltac:(lia) (big_exp_reads a P X)) in F. injection F as _ _ F. lia.
        -- rewrite (short_reads (widen q (cut_loss D (k - 1))) neg D (k - 1) _ _ D0 (big_exp_reads a P X)) in F. injection F as _ _ F. lia.
      * assert (Ex : big_exp_text a P X = exp_text X).
        { unfold big_exp_text, kept. fold k. destruct (Z.eqb_spec X 9) as [E9|]; [|reflexivity]. destruct (Z.eqb_spec k 10) as [E10|]; [|reflexivity]. exfalso. subst X. clear - P1 E10 HP. unfold k in E10.
          assert (B : (-4 <=? 9) && (9 <? P) = true) by (apply andb_true_intro; split; [reflexivity|apply Z.ltb_lt; lia]). congruence. }
        rewrite Ex, Cg, Gb. unfold g_text. destruct (q_alt q) eqn:Ea.
        -- rewrite widen_0. split.
           ++ intros F. apply orb_false_intro.
              ** apply Z.ltb_ge. apply case_reads in F. rewrite (finite_reads q neg false D (k - 1) _ _ D0 ltac:(lia) (exp_text_reads X)) in F. rewrite (finite_reads q neg true S (P - 1) _ _ ltac:(lia) ltac:(lia) (exp_text_reads X)) in F.
                 injection F as _ F. lia.
              ** apply Z.eqb_neq. intros E1. apply (case_cnt 46) in F; [|lia]. rewrite !cnt_finite in F by discriminate. assert (Ek : k = 1) by lia. rewrite Ek, E1 in F.
                 rewrite no_point, alt_point in F by (try apply exp_point; lia). discriminate F.
           ++ intros F. apply orb_false_elim in F as [F1 F2]. bools. assert (Ek : k = P) by lia. assert (ED : D = S) by (rewrite B2, Ek, Z.sub_diag, Z.pow_0_r; lia). rewrite ED, Ek.
              unfold alt_text. replace (P - 1 =? 0) with false by (symmetry; apply Z.eqb_neq; lia). rewrite app_nil_r. reflexivity.
        -- assert (Fs : drop_zeros (Z.to_nat (k - 1)) D = drop_zeros (Z.to_nat (P - 1)) S).
           { rewrite B2. replace (P - 1) with (k - 1 + (P - k)) by lia. symmetry. apply dropz_shift; lia. }
           unfold short_text. rewrite Fs, Sl. apply fields_seen. lia.
Qed.
