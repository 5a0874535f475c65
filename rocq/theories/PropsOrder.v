(** C66: right-justified numbers of the same length sort as texts the way they sort as numbers. *)
From Coq Require Import QArith Lqa.
From Verif Require Import Base Digits UtilsM ContextM CompilerM GrammarSpec IntFormM FormatterM SeqM SeqSpec FmtSpec FmtP FmtP2 BigDecM TraitsM ImplM DirSpec IntP PropsInt DecSpec RoundP FloatSpec FPDecP FloatP NearP FloatQ PropsDouble PropsFloat WidthP ReadFSpec ReadFP2 ReadFP3 OrderSpec OrderP.
Open Scope Z_scope.

(** the arguments and conversions: integers with %d, and what %u, %x, %X and %o take *)
Definition integer_conversion (J : jdk) (s : spec) (v : value) (n : Z) : Prop :=
  s = Sd /\ is_integer J v n \/ (s = Su \/ s = Sx \/ s = SX \/ s = So) /\ is_unsigned J v n.

Lemma integer_texts J src s q v n r t : directive src s q -> integer_conversion J s v n -> prints J src [traitsOf J v r] t -> q_alt q = false ->
  match s with Sd => t = j_d q n | Su => t = c_u q n | Sx => t = c_x q n | SX => t = upper (c_x q n) | So => t = c_o q n | _ => False end.
Proof.
  intros Hd Hv Ht Ha.
  assert (U : forall T, renders J s (traitsOf J v r) T -> t = T q) by (intros T HT; apply (prints_unique _ _ _ _ _ Ht); apply (renders_prints J src s q _ T Hd HT)).
  assert (X : c_x q n = j_x q n) by (apply x_reg; auto). assert (O : c_o q n = j_o q n) by (apply o_reg; auto).
  destruct Hv as [[-> Hv]|[Hs Hv]]; [|destruct Hs as [Hs|[Hs|[Hs|Hs]]]; subst s].
  - apply (U (fun q => j_d q n)). constructor. exact Hv.
  - apply (U (fun q => c_u q n)). constructor. exact Hv.
  - rewrite X. apply (U (fun q => j_x q n)). constructor. exact Hv.
  - rewrite X. apply (U (fun q => upper (j_x q n))). constructor. exact Hv.
  - rewrite O. apply (U (fun q => j_o q n)). constructor. exact Hv.
Qed.

Theorem C66_integers_sort : forall J src s q v n r v' n' r' t t',
  directive src s q -> q_left q = false -> q_alt q = false -> integer_conversion J s v n -> integer_conversion J s v' n' -> 0 <= n < n' ->
  prints J src [traitsOf J v r] t -> prints J src [traitsOf J v' r'] t' -> zlen t = zlen t' -> text_lt t t'.
Proof.
  intros J src s q v n r v' n' r' t t' Hd Hl Ha Hv Hv' Hn Ht Ht'.
  pose proof (integer_texts J src s q v n r t Hd Hv Ht Ha) as E. pose proof (integer_texts J src s q v' n' r' t' Hd Hv' Ht' Ha) as E'.
  destruct s; try contradiction; subst t t';
    [apply j_d_order|apply c_u_order|apply c_o_order|apply c_x_order|apply c_X_order]; assumption.
Qed.
Print Assumptions C66_integers_sort.

(** Numbers that fit the field do have texts of the same length. *)
Theorem C66_fitting_integers_sort : forall J src s q v n r v' n' r' t t',
  directive src s q -> q_left q = false -> q_alt q = false -> q_plus q = false -> q_space q = false -> q_prec q = None ->
  integer_conversion J s v n -> integer_conversion J s v' n' -> 0 <= n < n' ->
  n' < (match s with Sx | SX => 16 | So => 8 | _ => 10 end) ^ q_width q ->
  prints J src [traitsOf J v r] t -> prints J src [traitsOf J v' r'] t' -> zlen t = q_width q /\ zlen t' = q_width q /\ text_lt t t'.
Proof.
  intros J src s q v n r v' n' r' t t' Hd Hl Ha Hp Hsp Hpr Hv Hv' Hn Hw Ht Ht'.
  assert (W : 1 <= q_width q).
  { destruct (Z_lt_ge_dec (q_width q) 1) as [W|W]; [|lia]. exfalso. destruct (Z.eq_dec (q_width q) 0) as [E|E]; [rewrite E in Hw; destruct s; lia|]. rewrite Z.pow_neg_r in Hw by lia. lia. }
  pose proof (integer_texts J src s q v n r t Hd Hv Ht Ha) as E. pose proof (integer_texts J src s q v' n' r' t' Hd Hv' Ht' Ha) as E'.
  assert (P : forall b zp m, 2 <= b -> 0 <= m <= n' -> n' < b ^ q_width q -> zlen (pad_number q zp [] (int_digits b m None)) = q_width q).
  { intros b zp m Hb Hm Hm'. assert (Ld : zlen (digits b m) <= q_width q) by (apply digits_len_le; lia). unfold int_digits, pad_number, justify. rewrite Hl. cbn [app].
    destruct (zp && negb false); unfold zeros, spaces; rewrite zlen_app, zlen_rep, zlen_numeral; change (zlen (@nil Z)) with 0; lia. }
  assert (D : forall m, 0 <= m <= n' -> n' < 10 ^ q_width q -> zlen (j_d q m) = q_width q).
  { intros m Hm Hm'. unfold j_d, d_irregular, c_d, sign_text. rewrite Hpr, Hp, Hsp, andb_false_r. replace (m <? 0) with false by lia. cbn [andb]. rewrite Z.abs_eq by lia. apply P; lia. }
  assert (G : zlen t = q_width q /\ zlen t' = q_width q).
  { destruct s; try contradiction; subst t t'; unfold upper, c_x, c_u, c_o; rewrite ?zlen_map, ?Ha, ?Hpr; cbn [andb]; split; first [apply D; lia|apply P; lia]. }
  destruct G as [G G']. repeat split; try assumption. apply (C66_integers_sort J src s q v n r v' n' r'); try assumption. lia.
Qed.
Print Assumptions C66_fitting_integers_sort.

(** Fixed notation of doubles: the greater one never sorts first; equal texts are possible, by rounding. *)
Theorem C66_doubles_sort : forall J src s q v b r v' b' r' t t',
  directive src s q -> s = Sf \/ s = SF -> q_left q = false -> is_double J v b -> is_double J v' b' -> finite b -> finite b' -> 0 <= b -> 0 <= b' ->
  (sval b <= sval b')%Q -> prints J src [traitsOf J v r] t -> prints J src [traitsOf J v' r'] t' -> zlen t = zlen t' -> t = t' \/ text_lt t t'.
Proof.
  intros J src s q v b r v' b' r' t t' Hd Hs Hl Hv Hv' Hf Hf' B B' L Ht Ht' Len.
  pose proof (prec_nonneg _ _ _ Hd) as Hp. set (p := prec_or 6 q) in *.
  destruct (C28_rounding_exists b p Hf) as (f & e & N & Hi & HN). destruct (C28_rounding_exists b' p Hf') as (f' & e' & M & Hi' & HM).
  assert (Mag : magnitude b <= magnitude b').
  { pose proof (magnitude_range b Hf). pose proof (magnitude_range b' Hf'). unfold sval in L. replace (b <? 0) with false in L by lia. replace (b' <? 0) with false in L by lia.
    destruct (Z_lt_ge_dec (magnitude b') (magnitude b)) as [K|K]; [|lia]. pose proof (dval_lt (magnitude b') (magnitude b) ltac:(lia)). lra. }
  assert (D0 : (0 <= dec f e)%Q) by (apply dec_nonneg, (its_nonneg _ _ _ Hi)).
  assert (HNM : 0 <= N <= M).
  { split; [apply (half_up_nonneg (dec f e) p N); assumption|]. apply (half_up_mono (dec f e) (dec f' e') p N M); [apply (its_mono b b'); assumption|assumption|assumption]. }
  pose proof (prints_unique _ _ _ _ _ Ht (C28_fixed_notation J src s q v b r f e N Hd Hs Hv Hi HN)) as E.
  pose proof (prints_unique _ _ _ _ _ Ht' (C28_fixed_notation J src s q v' b' r' f' e' M Hd Hs Hv' Hi' HM)) as E'.
  replace (b <? 0) with false in E by lia. replace (b' <? 0) with false in E' by lia.
  assert (Cs : forall K, 0 <= K -> cased s (finite_text q false (point_text (q_alt q) K p)) = finite_text q false (point_text (q_alt q) K p)).
  { intros K HK. assert (U := upper_no_letters _ (pad_no_letters q (q_zero q) _ _ (sign_no_letters q false) (point_no_letters (q_alt q) K p HK Hp))).
    destruct Hs as [-> | ->]; [reflexivity|exact U]. }
  change (t = cased s (finite_text q false (point_text (q_alt q) N p))) in E. change (t' = cased s (finite_text q false (point_text (q_alt q) M p))) in E'.
  rewrite Cs in E by lia. rewrite Cs in E' by lia.
  destruct (Z.eq_dec N M) as [Q|Q]; [left; congruence|right]. subst t t'. apply (point_order q _ p N M Hl Hp (sign_short q)); [lia|exact Len].
Qed.
Print Assumptions C66_doubles_sort.

(** Negative numbers sort backwards, and '+' sorts before '-'. *)
Theorem C66_negative_numbers_refuted :
  exists src q src' q', directive src Sd q /\ q_left q = false /\ directive src' Sd q' /\ q_left q' = false /\ forall J,
    let i n := traitsOf J (VInt n) RPrimitive in
    (prints J src [i (-2)] (txt "-02") /\ prints J src [i (-1)] (txt "-01") /\ text_lt (txt "-01") (txt "-02")) /\
    (prints J src' [i (-1)] (txt "-01") /\ prints J src' [i 1] (txt "+01") /\ text_lt (txt "+01") (txt "-01")).
Proof.
  exists (txt "%03d"), (mkSpec false false false false true 3 None), (txt "%+03d"), (mkSpec false false true false true 3 None).
  assert (D1 : directive (txt "%03d") Sd (mkSpec false false false false true 3 None)) by (is_dir (dir_text (txt "0") (mkFlags false false false false true) (txt "3") 3 [] UNSET (ch "d"))).
  assert (D2 : directive (txt "%+03d") Sd (mkSpec false false true false true 3 None)) by (is_dir (dir_text (txt "+0") (mkFlags false false true false true) (txt "3") 3 [] UNSET (ch "d"))).
  split; [exact D1|]. split; [reflexivity|]. split; [exact D2|]. split; [reflexivity|]. intros J i.
  assert (I1 : forall n, n = -2 \/ n = -1 \/ n = 1 -> is_integer J (VInt n) n) by (intros n Hn; exists (Some 32); constructor; destruct Hn as [-> | [-> | ->]]; vm_compute; split; congruence).
  pose proof (renders_prints J _ _ _ _ _ D1 (rn_d J _ (-2) RPrimitive (I1 (-2) ltac:(auto)))) as P1.
  pose proof (renders_prints J _ _ _ _ _ D1 (rn_d J _ (-1) RPrimitive (I1 (-1) ltac:(auto)))) as P2.
  pose proof (renders_prints J _ _ _ _ _ D2 (rn_d J _ (-1) RPrimitive (I1 (-1) ltac:(auto)))) as P3.
  pose proof (renders_prints J _ _ _ _ _ D2 (rn_d J _ 1 RPrimitive (I1 1 ltac:(auto)))) as P4.
  repeat split; try assumption; vm_compute; auto 8.
Qed.
Print Assumptions C66_negative_numbers_refuted.

Example C66_example : text_lt (c_d (mkSpec false false false false false 4 None) 9) (c_d (mkSpec false false false false false 4 None) 10) /\
  c_d (mkSpec false false false false false 4 None) 9 = txt "   9" /\ c_d (mkSpec false false false false false 4 None) 10 = txt "  10" /\
  text_lt (txt "00ff") (txt "0100") /\ ~ text_lt (txt "9") (txt "10").
Proof. split; [vm_compute; auto 8|]. repeat split; [vm_compute; auto 8|]. vm_compute. intros [H|[H _]]; discriminate. Qed.
