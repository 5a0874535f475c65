(** C92: printing what was printed. *)
From Coq Require Import QArith Qabs Qpower Lqa.
From Verif Require Import Base Digits UtilsM SeqM SeqSpec ContextM CompilerM GrammarSpec IntFormM FormatterM MathM DecimalM FPDecimalM DoubleM BigDecM RoundM TraitsM ImplM
  ReadSpec FmtSpec FmtP DirSpec DecSpec RoundP FloatSpec FPDecP FloatP DoubleP CastP NearP FloatQ HexP FloatArgP IntP PropsInt PropsDouble PropsFloat
  ReadFSpec ReadFP ReadFP2 ReadFP3 PropsRead AgainCheck AgainP AgainP2 AgainP3 AgainP4 AgainSpec.
Open Scope Z_scope.

(** ** what reading gives *)

Lemma top_middle : ((dval (inf_bits - 1) + dval inf_bits) * (1 # 2) == inject_Z (2 ^ 54 - 1) * 2 ^ 970)%Q.
Proof. vm_compute. reflexivity. Qed.
(** from 2^1024 - 2^970 on, and only from there, the nearest is infinity *)
Lemma reads_infinite x m : 0 <= m <= inf_bits -> rounds_to x m -> m = inf_bits <-> (inject_Z (2 ^ 54 - 1) * 2 ^ 970 <= x)%Q.
Proof.
  intros Hm Hr. rewrite <- top_middle. assert (I0 : 1 < inf_bits) by reflexivity.
  pose proof (dval_lt (inf_bits - 1) inf_bits ltac:(lia)) as L. assert (E1 : forall u v, ((u + v) / 2 == (u + v) * (1 # 2))%Q) by (intros; reflexivity). split.
  - intros ->. destruct (Hr (inf_bits - 1) ltac:(lia)) as [H _]. apply near_below in H; [|exact L]. rewrite E1 in H. lra.
  - intros H. destruct (Z.eq_dec m inf_bits) as [E|N]; [exact E|exfalso].
    destruct (Hr inf_bits ltac:(lia)) as [H1 H2]. pose proof (dval_le m (inf_bits - 1) ltac:(lia)) as L1. pose proof (dval_lt m inf_bits ltac:(lia)) as L2.
    apply near_above in H1; [|exact L2]. rewrite E1 in H1. assert (X : (x == (dval m + dval inf_bits) * (1 # 2))%Q) by lra.
    assert (Em : (dval m == dval (inf_bits - 1))%Q) by lra. assert (m = inf_bits - 1).
    { destruct (Z.eq_dec m (inf_bits - 1)) as [E|N1]; [exact E|]. pose proof (dval_lt m (inf_bits - 1) ltac:(lia)). lra. }
    subst m. assert (Z.even (inf_bits - 1) = true); [|discriminate]. apply H2; [lia|]. apply tie_mid; [lra|]. rewrite E1. exact X.
Qed.

(** the text is read as some double of the same sign, nearest to the rounded number *)
Lemma read_again J src s q v b r t : directive src s q -> decimal_spec s -> reads_numerals J -> is_double J v b -> finite b -> prints J src [traitsOf J v r] t ->
  exists f e x b', its_decimal b f e /\ rounded s q (dec f e) x /\ reads_as t (b <? 0) x /\ rounds_to x (magnitude b') /\ 0 <= magnitude b' <= inf_bits /\ (b <? 0) = (b' <? 0) /\
    forall w, chars J w t -> is_double J w b'.
Proof.
  intros Hd Hs HJ Hv Hf Ht. destruct (every_finite_double_has_a_decimal b Hf) as (f & e & Hi).
  destruct (rounded_exists s q f e Hs (its_nonneg _ _ _ Hi) (prec_nonneg _ _ _ Hd)) as (x & Hx).
  pose proof (C55_text_is_the_rounded_number J src s q v b r f e x t Hd Hs Hv Hi Hx Ht) as Rd. destruct (HJ t _ x Rd) as (b' & Eb & Rb & Sb & Lb & Nb).
  exists f, e, x, b'. repeat (split; [assumption|]). split; [split; [unfold magnitude; apply Z.mod_pos_bound; lia|exact Lb]|]. split; [symmetry; exact Sb|]. intros w C. apply (id_chars J w t b' C Eb Rb).
Qed.

(** an infinity is no numeral *)
Lemma no_numeral q s (n p : bool) z : read_float 10 (ch "e") (cased s (justify q ((if n then txt "-" else if p then txt "+" else []) ++ txt "Infinity"))) <> Some z.
Proof.
  rewrite upper_cased; [|left; reflexivity|vm_compute; split; discriminate]. rewrite read_float_body. unfold justify.
  assert (G : forall u, (let (neg, t) := read_sign (skip_blanks (((if n then txt "-" else if p then txt "+" else []) ++ txt "Infinity") ++ u)) in read_body 10 (ch "e") neg t) = None).
  { intros u. destruct n; [|destruct p]; reflexivity. }
  destruct (q_left q); [rewrite G; discriminate|]. rewrite skip_spaces. rewrite <- (app_nil_r (_ ++ txt "Infinity")), G. discriminate.
Qed.

(** ** C92 *)

(** a text of %f, %e or %g, given to the same directive, is printed unchanged: except for infinities, and for the doubles of
    [unstable] *)
Theorem C92_printing_again : forall J src s q v b r t w r',
  directive src s q -> decimal_spec s -> reads_numerals J -> is_double J v b -> finite b -> ~ unstable s q (magnitude b) ->
  prints J src [traitsOf J v r] t -> below_overflow t -> chars J w t -> prints J src [traitsOf J w r'] t.
Proof.
  intros J src s q v b r t w r' Hd Hs HJ Hv Hf Hu Ht Hb Hw. destruct (read_again J src s q v b r t Hd Hs HJ Hv Hf Ht) as (f & e & x & b' & Hi & Hx & Rd & Hr & Rm & Sb & Hd').
  assert (Ft : finite b').
  { unfold finite. destruct (Z.eq_dec (magnitude b') inf_bits) as [E|N]; [|lia]. exfalso. apply (reads_infinite x) in E; [|exact Rm|exact Hr]. specialize (Hb _ _ Rd). lra. }
  destruct (every_finite_double_has_a_decimal b' Ft) as (f' & e' & Hi').
  pose proof (rounded_again s q b f e x b' f' e' Hs (prec_nonneg _ _ _ Hd) (g_prec_pos _ _ _ Hd) Hi Hx Hi' Hr Hu) as Hx'.
  apply (same_text J src s q v b r f e w b' r' f' e' x t); try assumption; [right; exact Hr|apply Hd'; exact Hw].
Qed.
Print Assumptions C92_printing_again.

(** the doubles of [unstable] are exceptions, whatever the flags and the width *)
Theorem C92_unstable_refuted : forall J src s q v b r,
  directive src s q -> decimal_spec s -> reads_numerals J -> is_double J v b -> unstable s q (magnitude b) ->
  exists t t', prints J src [traitsOf J v r] t /\ (forall w r', chars J w t -> prints J src [traitsOf J w r'] t') /\ t <> t'.
Proof. intros J src s q v b r Hd Hs HJ Hv Hu. apply (unstable_moved J src s q v b r); assumption. Qed.
Print Assumptions C92_unstable_refuted.

(** so are the numbers that are read as an infinity *)
Theorem C92_overflow_refuted : forall J src s q v b r t neg x w r',
  directive src s q -> decimal_spec s -> reads_numerals J -> is_double J v b -> finite b -> prints J src [traitsOf J v r] t ->
  reads_as t neg x -> (inject_Z (2 ^ 54 - 1) * 2 ^ 970 <= x)%Q -> chars J w t ->
  exists t', prints J src [traitsOf J w r'] t' /\ t <> t'.
Proof.
  intros J src s q v b r t neg x w r' Hd Hs HJ Hv Hf Ht Hr Hx Hw. destruct (read_again J src s q v b r t Hd Hs HJ Hv Hf Ht) as (f & e & x1 & b' & Hi & Hx1 & Rd & Hr1 & Rm & Sb & Hd').
  destruct (reads_as_unique _ _ _ _ _ Hr Rd) as [-> Ex]. assert (Em : magnitude b' = inf_bits) by (apply (reads_infinite x1); [exact Rm|exact Hr1|rewrite <- Ex; exact Hx]).
  eexists. split; [apply (C42_infinity J src s q w b' r'); [exact Hd|unfold is_float_spec; unfold decimal_spec in Hs; tauto|apply Hd'; exact Hw|exact Em]|].
  intros E. rewrite E in Rd. destruct Rd as (N & k & y & Er & _). revert Er. apply no_numeral.
Qed.
Print Assumptions C92_overflow_refuted.

(** together: when the text comes back *)
Theorem C92_exactly : forall J src s q v b r t w r',
  directive src s q -> decimal_spec s -> reads_numerals J -> is_double J v b -> finite b -> prints J src [traitsOf J v r] t -> chars J w t ->
  (prints J src [traitsOf J w r'] t <-> ~ unstable s q (magnitude b) /\ below_overflow t).
Proof.
  intros J src s q v b r t w r' Hd Hs HJ Hv Hf Ht Hw. split.
  - intros H. split.
    + intros Hu. destruct (C92_unstable_refuted J src s q v b r Hd Hs HJ Hv Hu) as (t1 & t2 & H1 & H2 & N). pose proof (prints_unique _ _ _ _ _ Ht H1) as <-.
      apply N. apply (prints_unique _ _ _ _ _ H (H2 w r' Hw)).
    + intros neg x Hx. apply Qnot_le_lt. intros L. destruct (C92_overflow_refuted J src s q v b r t neg x w r' Hd Hs HJ Hv Hf Ht Hx L Hw) as (t' & H' & N). apply N. apply (prints_unique _ _ _ _ _ H H').
  - intros [Hu Hb]. apply (C92_printing_again J src s q v b r t w r'); assumption.
Qed.
Print Assumptions C92_exactly.

(** %f never overflows *)
Lemma top_decimal : right_decimal (inf_bits - 1) 17976931348623157 292.
Proof. apply shortest_its; [vm_compute; split; reflexivity|vm_compute; reflexivity]. Qed.
Theorem C92_fixed_notation : forall J src s q v b r t w r',
  directive src s q -> s = Sf \/ s = SF -> reads_numerals J -> is_double J v b -> finite b -> prints J src [traitsOf J v r] t -> chars J w t ->
  (prints J src [traitsOf J w r'] t <-> ~ unstable s q (magnitude b)).
Proof.
  intros J src s q v b r t w r' Hd Hs HJ Hv Hf Ht Hw. assert (Hs' : decimal_spec s) by (unfold decimal_spec; tauto).
  rewrite (C92_exactly J src s q v b r t w r' Hd Hs' HJ Hv Hf Ht Hw). split; [tauto|]. intros Hu. split; [exact Hu|]. clear Hu.
  destruct (every_finite_double_has_a_decimal b Hf) as (f & e & Hi). destruct (rounded_exists s q f e Hs' (its_nonneg _ _ _ Hi) (prec_nonneg _ _ _ Hd)) as (x & Hx).
  pose proof (C55_text_is_the_rounded_number J src s q v b r f e x t Hd Hs' Hv Hi Hx Ht) as Rd. intros neg y Ry. destruct (reads_as_unique _ _ _ _ _ Ry Rd) as [_ E]. rewrite E. clear Ry E y.
  assert (HN : exists N, half_up_at (dec f e) (prec_or 6 q) N /\ (x == dec N (- prec_or 6 q))%Q) by (destruct Hs as [-> | ->]; exact Hx).
  destruct HN as (N & [H1 _] & ->). pose proof (prec_nonneg _ _ _ Hd) as Hp. pose proof (magnitude_range b Hf) as Rm.
  assert (L : (dec f e <= dec 17976931348623157 292)%Q).
  { apply (its_mono b (inf_bits - 1) f e); [exact Hi| |rewrite (mag_pos (inf_bits - 1)) by (unfold inf_bits; lia); lia].
    right. rewrite (mag_pos (inf_bits - 1)) by (unfold inf_bits; lia). split; [unfold inf_bits; lia|exact top_decimal]. }
  apply (Qle_lt_trans _ (dec f e + 1)).
  - unfold dec at 1. pose proof (ten_pos (- prec_or 6 q)) as P1. pose proof (ten_cancel (prec_or 6 q)) as C.
    assert (O : (10 ^ (- prec_or 6 q) <= 1)%Q) by (change 1%Q with (10 ^ 0)%Q; apply ten_le; lia).
    assert (M : (inject_Z N * 10 ^ (- prec_or 6 q) <= (dec f e * 10 ^ prec_or 6 q + (1 # 2)) * 10 ^ (- prec_or 6 q))%Q) by (apply Qmult_le_compat_r; lra).
    assert (M2 : ((dec f e * 10 ^ prec_or 6 q + (1 # 2)) * 10 ^ (- prec_or 6 q) == dec f e * (10 ^ prec_or 6 q * 10 ^ (- prec_or 6 q)) + (1 # 2) * 10 ^ (- prec_or 6 q))%Q) by ring.
    rewrite C in M2. lra.
  - apply (Qle_lt_trans _ (dec 17976931348623157 292 + 1)); [lra|vm_compute; reflexivity].
Qed.
Print Assumptions C92_fixed_notation.

(** ** the statements are not empty *)

(** a JDK that reads numerals *)
Example C92_reader_example : reads_numerals J1 /\ j_parseDouble J1 (txt " -12.5E+01") = Some (4638496509959077888 - 2 ^ 63).
Proof. split; [exact J1_reads|vm_compute; reflexivity]. Qed.

Lemma dir_f2 : directive (txt "%.2f") Sf (mkSpec false false false false false 0 (Some 2)).
Proof. change (txt "%.2f") with (pct :: [] ++ [] ++ txt ".2" ++ [ch "f"]). is_dir (dir_text [] (mkFlags false false false false false) [] UNSET (txt ".2") 2). Qed.
Lemma dir_e1 : directive (txt "%.1e") Se (mkSpec false false false false false 0 (Some 1)).
Proof. change (txt "%.1e") with (pct :: [] ++ [] ++ txt ".1" ++ [ch "e"]). is_dir (dir_text [] (mkFlags false false false false false) [] UNSET (txt ".1") 1). Qed.
Lemma dir_e0 : directive (txt "%.0e") Se (mkSpec false false false false false 0 (Some 0)).
Proof. change (txt "%.0e") with (pct :: [] ++ [] ++ txt ".0" ++ [ch "e"]). is_dir (dir_text [] (mkFlags false false false false false) [] UNSET (txt ".0") 0). Qed.

(** 1/3 *)
Example C92_example : prints J1 (txt "%.2f") [traitsOf J1 (VDouble 4599676419421066581) RPrimitive] (txt "0.33") /\ prints J1 (txt "%.2f") [traitsOf J1 (VStr (txt "0.33")) RNull] (txt "0.33").
Proof.
  assert (Hv : is_double J1 (VDouble 4599676419421066581) 4599676419421066581) by (constructor; vm_compute; split; congruence).
  assert (R : 0 < magnitude 4599676419421066581 < inf_bits) by (vm_compute; split; reflexivity).
  assert (P : prints J1 (txt "%.2f") [traitsOf J1 (VDouble 4599676419421066581) RPrimitive] (txt "0.33")).
  { apply (C28_fixed_notation J1 _ Sf _ _ 4599676419421066581 RPrimitive 33333333333333330 (-17) 33 dir_f2 (or_introl eq_refl) Hv).
    - right. split; [exact R|]. apply shortest_its; [exact R|vm_compute; reflexivity].
    - vm_compute. split; congruence. }
  split; [exact P|]. apply (C92_fixed_notation J1 _ Sf _ _ _ RPrimitive _ (VStr (txt "0.33")) RNull dir_f2 (or_introl eq_refl) J1_reads Hv); [reflexivity|exact P|constructor|].
  cbn [unstable prec_or q_prec]. lia.
Qed.

(** 21 * 2^-1074 with two digits: 1.0e-322, which is read as 20 * 2^-1074 and printed as 9.9e-323 *)
Example C92_unstable_example : forall J, reads_numerals J ->
  prints J (txt "%.1e") [traitsOf J (VDouble 21) RPrimitive] (txt "1.0e-322") /\ prints J (txt "%.1e") [traitsOf J (VStr (txt "1.0e-322")) RNull] (txt "9.9e-323").
Proof.
  intros J HJ. assert (H21 : 0 < magnitude 21 < inf_bits) by (vm_compute; split; reflexivity). assert (H20 : 0 < magnitude 20 < inf_bits) by (vm_compute; split; reflexivity).
  split.
  - apply (C30_scientific_notation J _ Se _ (VDouble 21) 21 RPrimitive 104 (-324) 10 (-322) dir_e1 (or_introl eq_refl)); [constructor; vm_compute; split; congruence| |apply H21|].
    + right. split; [exact H21|]. apply shortest_its; [exact H21|vm_compute; reflexivity].
    + apply (sig_right 104 (-324) 2); [lia|lia|vm_compute; reflexivity].
  - assert (Rd : reads_as (txt "1.0e-322") false (dec 10 (-323))) by (exists 10, 1, (-322); split; [vm_compute; reflexivity|reflexivity]).
    destruct (HJ _ _ _ Rd) as (b' & Eb & Rb & Sb & Lb & Nb).
    assert (Em : magnitude b' = 20).
    { apply (rounds_unique (dec 10 (-323))); [unfold magnitude in *; pose proof (Z.mod_pos_bound b' (2 ^ 63) ltac:(lia)); lia|unfold inf_bits; lia|exact Nb|]. apply inside_rounds; [unfold inf_bits; lia|vm_compute; reflexivity]. }
    pose proof (C30_scientific_notation J _ Se _ (VStr (txt "1.0e-322")) b' RNull 99 (-324) 99 (-323) dir_e1 (or_introl eq_refl)) as T. rewrite Sb in T. apply T.
    + apply (id_chars J _ _ b' (cs_str J _) Eb Rb).
    + right. rewrite Em. split; [unfold inf_bits; lia|]. apply shortest_its; [unfold inf_bits; lia|vm_compute; reflexivity].
    + lia.
    + apply (sig_right 99 (-324) 2); [lia|lia|vm_compute; reflexivity].
Qed.

(** Double.MAX_VALUE with one digit: 2e+308, and then Infinity *)
Example C92_overflow_example : forall J, reads_numerals J ->
  prints J (txt "%.0e") [traitsOf J (VDouble (inf_bits - 1)) RPrimitive] (txt "2e+308") /\ exists t', prints J (txt "%.0e") [traitsOf J (VStr (txt "2e+308")) RNull] t' /\ txt "2e+308" <> t'.
Proof.
  intros J HJ. assert (Hm : 0 < magnitude (inf_bits - 1) < inf_bits) by (vm_compute; split; reflexivity). assert (Em : magnitude (inf_bits - 1) = inf_bits - 1) by (vm_compute; reflexivity).
  assert (Hv : is_double J (VDouble (inf_bits - 1)) (inf_bits - 1)) by (constructor; vm_compute; split; congruence).
  assert (P : prints J (txt "%.0e") [traitsOf J (VDouble (inf_bits - 1)) RPrimitive] (txt "2e+308")).
  { apply (C30_scientific_notation J _ Se _ _ (inf_bits - 1) RPrimitive 17976931348623157 292 2 308 dir_e0 (or_introl eq_refl) Hv); [|apply Hm|].
    - right. split; [exact Hm|]. rewrite Em. exact top_decimal.
    - apply (sig_right 17976931348623157 292 1); [lia|lia|vm_compute; reflexivity]. }
  split; [exact P|]. apply (C92_overflow_refuted J _ Se _ (VDouble (inf_bits - 1)) (inf_bits - 1) RPrimitive _ false (dec 2 308) (VStr (txt "2e+308")) RNull dir_e0); try assumption.
  - unfold decimal_spec. tauto.
  - reflexivity.
  - exists 2, 0, 308. split; [vm_compute; reflexivity|reflexivity].
  - vm_compute. discriminate.
  - constructor.
Qed.

(** each pair is there: a double for every directive listed *)
Example C92_pairs_example : unstable Sg (mkSpec false true false false false 0 (Some 16)) (1394 * 2 ^ 52) /\ unstable SF (mkSpec false false false false true 9 (Some 183)) (magnitude (468 * 2 ^ 52 - 1)) /\
  ~ unstable Sf (mkSpec false false false false false 0 None) 21.
Proof. split; [left; split; [reflexivity|cbn; tauto]|]. split; [right; split; vm_compute; reflexivity|]. cbn [unstable]. intros [[H _]|[H _]]; discriminate. Qed.
