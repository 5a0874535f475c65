(** C64: what %f, %e and %g print for BigDecimal and BigInteger arguments, read back. *)
From Coq Require Import QArith Qabs Qpower Lqa.
From Verif Require Import Base Digits UtilsM SeqM SeqSpec ContextM CompilerM GrammarSpec IntFormM FormatterM MathM DecimalM FPDecimalM DoubleM BigDecM RoundM TraitsM ImplM
  ReadSpec FmtSpec FmtP DirSpec DecSpec RoundP FloatSpec FPDecP FloatP DoubleP CastP NearP FloatQ FloatArgP IntP PropsInt PropsDouble PropsFloat BigSpec BigDecP BigGenP PropsBig WidthP
  ReadFSpec ReadFP ReadFP2 ReadFP3 PropsRead BigReadP.
Open Scope Z_scope.

(** the text of %f is not longer than a String can be; for the other conversions there is no restriction *)
Definition fits (s : spec) (u sc : Z) : Prop :=
  match s with
  | Sf | SF => ndigits (Z.abs u) - sc < 2000000000
  | _ => True
  end.

(** the precision keeps all digits of [u * 10^-sc] *)
Definition keeps_digits (s : spec) (q : fspec) (u sc : Z) : Prop :=
  match s with
  | Sf | SF => sc <= prec_or 6 q
  | Se | SE => ndigits (Z.abs u) <= prec_or 6 q + 1
  | Sg | SG => ndigits (Z.abs u) <= g_prec q
  | _ => False
  end.

(** the text is a numeral of the correctly rounded number, whatever the flags, the width and the deviations C34-C36 of the layout *)
Theorem C64_text_is_the_rounded_number : forall J src s q v u sc r x t,
  directive src s q -> decimal_spec s -> is_decimal v u sc -> fits s u sc -> rounded s q (dec (Z.abs u) (- sc)) x ->
  prints J src [traitsOf J v r] t -> reads_as t (u <? 0) x.
Proof.
  intros J src s q v u sc r x t Hd Hs Hv Hf Hx Ht. apply (big_read J src s q v u sc r x t); try assumption.
  intros [-> | ->]; exact Hf.
Qed.
Print Assumptions C64_text_is_the_rounded_number.

(** there is such a number *)
Theorem C64_texts_are_numbers : forall J src s q v u sc r t,
  directive src s q -> decimal_spec s -> is_decimal v u sc -> fits s u sc -> prints J src [traitsOf J v r] t -> exists y, stands_for t y.
Proof.
  intros J src s q v u sc r t Hd Hs Hv Hf Ht. destruct (rounded_exists s q (Z.abs u) (- sc) Hs ltac:(lia) (prec_nonneg _ _ _ Hd)) as (x & Hx).
  exists (if u <? 0 then - x else x)%Q, (u <? 0), x. split; [|reflexivity]. apply (C64_text_is_the_rounded_number J src s q v u sc r x t); assumption.
Qed.
Print Assumptions C64_texts_are_numbers.

Lemma keeps_exact s q u sc x : decimal_spec s -> keeps_digits s q u sc -> rounded s q (dec (Z.abs u) (- sc)) x -> (x == dec (Z.abs u) (- sc))%Q.
Proof.
  intros Hs Hk Hx.
  assert (G : forall P, ndigits (Z.abs u) <= P -> sig_rounded (dec (Z.abs u) (- sc)) P x -> (x == dec (Z.abs u) (- sc))%Q).
  { intros P HP H. destruct (Z.eq_dec u 0) as [->|N]; [|apply (ndigits_keep (Z.abs u) (- sc) P x ltac:(lia) HP H)].
    change (Z.abs 0) with 0 in *. rewrite (sig_zero_val _ _ _ H), dec_zero. reflexivity. }
  assert (F : sc <= prec_or 6 q -> (exists N, half_up_at (dec (Z.abs u) (- sc)) (prec_or 6 q) N /\ (x == dec N (- prec_or 6 q))%Q) -> (x == dec (Z.abs u) (- sc))%Q).
  { intros L (N & HN & E). rewrite E. apply (half_up_keeps _ (Z.abs u) (- sc)); [reflexivity|lia|exact HN]. }
  destruct s; cbn [rounded keeps_digits] in *; try contradiction; first [apply F; assumption|eapply G; eassumption].
Qed.

Lemma signed_dec u e : (dec u e == if u <? 0 then - dec (Z.abs u) e else dec (Z.abs u) e)%Q.
Proof.
  unfold dec. destruct (Z.ltb_spec u 0) as [L|L]; [|rewrite Z.abs_eq by lia; reflexivity].
  rewrite Z.abs_neq by lia. rewrite inject_Z_opp. ring.
Qed.

(** with enough digits the text is a numeral of the argument itself *)
Theorem C64_exact : forall J src s q v u sc r t,
  directive src s q -> decimal_spec s -> is_decimal v u sc -> fits s u sc -> keeps_digits s q u sc ->
  prints J src [traitsOf J v r] t -> stands_for t (dec u (- sc)).
Proof.
  intros J src s q v u sc r t Hd Hs Hv Hf Hk Ht. destruct (rounded_exists s q (Z.abs u) (- sc) Hs ltac:(lia) (prec_nonneg _ _ _ Hd)) as (x & Hx).
  exists (u <? 0), x. split; [apply (C64_text_is_the_rounded_number J src s q v u sc r x t); assumption|].
  pose proof (keeps_exact s q u sc x Hs Hk Hx) as E. rewrite signed_dec. destruct (u <? 0); rewrite E; reflexivity.
Qed.
Print Assumptions C64_exact.

Lemma stands_unique t y y' : stands_for t y -> stands_for t y' -> (y == y')%Q.
Proof.
  intros (n & x & R & E) (n' & x' & R' & E'). destruct (reads_as_unique _ _ _ _ _ R R') as [-> Ex]. rewrite E, E'. destruct n'; rewrite Ex; reflexivity.
Qed.

(** so two arguments with the same text are equal as numbers (compareTo gives 0) *)
Theorem C64_injective : forall J src s q v u sc r v' u' sc' r' t,
  directive src s q -> decimal_spec s -> is_decimal v u sc -> is_decimal v' u' sc' -> fits s u sc -> fits s u' sc' ->
  keeps_digits s q u sc -> keeps_digits s q u' sc' ->
  prints J src [traitsOf J v r] t -> prints J src [traitsOf J v' r'] t -> (dec u (- sc) == dec u' (- sc'))%Q.
Proof.
  intros J src s q v u sc r v' u' sc' r' t Hd Hs Hv Hv' Hf Hf' Hk Hk' Ht Ht'. apply (stands_unique t).
  - apply (C64_exact J src s q v u sc r t); assumption.
  - apply (C64_exact J src s q v' u' sc' r' t); assumption.
Qed.
Print Assumptions C64_injective.

(** a smaller number never gets a text that stands for a greater one *)
Theorem C64_monotone : forall J src s q v u sc r v' u' sc' r' t t' y y',
  directive src s q -> decimal_spec s -> is_decimal v u sc -> is_decimal v' u' sc' -> fits s u sc -> fits s u' sc' ->
  (dec u (- sc) <= dec u' (- sc'))%Q ->
  prints J src [traitsOf J v r] t -> prints J src [traitsOf J v' r'] t' -> stands_for t y -> stands_for t' y' -> (y <= y')%Q.
Proof.
  intros J src s q v u sc r v' u' sc' r' t t' y y' Hd Hs Hv Hv' Hf Hf' L Ht Ht' (n & x & R & E) (n' & x' & R' & E').
  pose proof (prec_nonneg _ _ _ Hd) as Hp.
  destruct (rounded_exists s q (Z.abs u) (- sc) Hs ltac:(lia) Hp) as (w & Hw). destruct (rounded_exists s q (Z.abs u') (- sc') Hs ltac:(lia) Hp) as (w' & Hw').
  destruct (reads_as_unique _ _ _ _ _ R (C64_text_is_the_rounded_number J src s q v u sc r w t Hd Hs Hv Hf Hw Ht)) as [-> Ex].
  destruct (reads_as_unique _ _ _ _ _ R' (C64_text_is_the_rounded_number J src s q v' u' sc' r' w' t' Hd Hs Hv' Hf' Hw' Ht')) as [-> Ex'].
  assert (D0 : (0 <= dec (Z.abs u) (- sc))%Q) by (apply dec_nonneg; lia). assert (D0' : (0 <= dec (Z.abs u') (- sc'))%Q) by (apply dec_nonneg; lia).
  pose proof (rounded_mono s q _ _ w w Hp D0 (Qle_refl _) Hw Hw) as [W0 _]. pose proof (rounded_mono s q _ _ w' w' Hp D0' (Qle_refl _) Hw' Hw') as [W0' _].
  rewrite E, E'. clear E E' R R'. rewrite (signed_dec u), (signed_dec u') in L. destruct (Z.ltb_spec u 0) as [A|A], (Z.ltb_spec u' 0) as [B|B].
  - assert (K : (dec (Z.abs u') (- sc') <= dec (Z.abs u) (- sc))%Q) by lra. pose proof (rounded_mono s q _ _ w' w Hp D0' K Hw' Hw). rewrite Ex, Ex'. lra.
  - rewrite Ex, Ex'. lra.
  - pose proof (dec_pos (Z.abs u') (- sc') ltac:(lia)). lra.
  - assert (K : (dec (Z.abs u) (- sc) <= dec (Z.abs u') (- sc'))%Q) by lra. pose proof (rounded_mono s q _ _ w w' Hp D0 K Hw Hw'). rewrite Ex, Ex'. lra.
Qed.
Print Assumptions C64_monotone.

(** between a double and a BigDecimal the order is not kept, since a double is printed from its shortest decimal: the double 0.1 is greater than
    0.1 + 10^-20, and is printed as 0.1 *)
Theorem C64_mixed_monotone_refuted : exists src q b u sc t t' y y',
  directive src Sf q /\ (dec u (- sc) < sval b)%Q /\ (y < y')%Q /\ stands_for t y /\ stands_for t' y' /\
  (forall J, prints J src [traitsOf J (VDouble b) RPrimitive] t) /\ (forall J, prints J src [traitsOf J (VDec (mkBD u sc)) RPrimitive] t').
Proof.
  exists (txt "%.20f"), (mkSpec false false false false false 0 (Some 20)), 4591870180066957722, (10 ^ 19 + 1), 20,
    (txt "0.10000000000000000000"), (txt "0.10000000000000000001"), (dec (10 ^ 19) (-20)), (dec (10 ^ 19 + 1) (-20)).
  assert (D : directive (txt "%.20f") Sf (mkSpec false false false false false 0 (Some 20))).
  { change (txt "%.20f") with (pct :: [] ++ [] ++ txt ".20" ++ [ch "f"]). is_dir (dir_text [] (mkFlags false false false false false) [] UNSET (txt ".20") 20). }
  split; [exact D|]. split; [vm_compute; reflexivity|]. split; [vm_compute; reflexivity|].
  split; [exists false, (dec (10 ^ 19) (-20)); split; [exists (10 ^ 19), 20, 0; split; [vm_compute; reflexivity|reflexivity]|reflexivity]|].
  split; [exists false, (dec (10 ^ 19 + 1) (-20)); split; [exists (10 ^ 19 + 1), 20, 0; split; [vm_compute; reflexivity|reflexivity]|reflexivity]|].
  split; intros J.
  - assert (R : 0 < magnitude 4591870180066957722 < inf_bits) by (vm_compute; split; reflexivity).
    destruct (printed_by 4591870180066957722 10000000000000000 (-17) R ltac:(vm_compute; reflexivity)) as [(Z0 & _)|[_ P]]; [discriminate|].
    apply (C28_fixed_notation J _ Sf _ (VDouble 4591870180066957722) 4591870180066957722 RPrimitive 10000000000000000 (-17) (10 ^ 19) D);
      [left; reflexivity|constructor; vm_compute; split; congruence|right; split; [exact R|apply (do_right _ _ _ P)]|].
    apply (hup_half_up 10000000000000000 (-17) 20). lia.
  - apply (C34_fixed_notation_partial J _ Sf _ _ (10 ^ 19 + 1) 20 RPrimitive (10 ^ 19 + 1) D); [auto|constructor; split; [reflexivity|lia]|lia|right; apply Z.leb_le; reflexivity| |reflexivity].
    apply (hup_half_up (10 ^ 19 + 1) (-20) 20). lia.
Qed.
Print Assumptions C64_mixed_monotone_refuted.

(** the texts of C34 (zero with leading zeros) and C35 (short exponent) deviate from C, and still read as the number *)
Example C64_example :
  reads_as (txt "000.000000") false 0 /\ reads_as (txt "1.234567890e+9") false 1234567890 /\
  keeps_digits Sg (mkSpec false false false false false 0 (Some 4)) (-1250) 2 /\
  (forall t, prints J0 (txt "%.4g") [traitsOf J0 (VDec (mkBD (-1250) 2)) RPrimitive] t -> stands_for t (-(125 # 10))).
Proof.
  split; [exists 0, 6, 0; split; reflexivity|]. split; [exists 1234567890, 9, 9; split; reflexivity|]. split; [vm_compute; congruence|]. intros t Ht.
  assert (D : directive (txt "%.4g") Sg (mkSpec false false false false false 0 (Some 4))).
  { change (txt "%.4g") with (pct :: [] ++ [] ++ txt ".4" ++ [ch "g"]). is_dir (dir_text [] (mkFlags false false false false false) [] UNSET (txt ".4") 4). }
  destruct (C64_exact J0 _ Sg _ (VDec (mkBD (-1250) 2)) (-1250) 2 RPrimitive t D) as (n & x & R & E); [unfold decimal_spec; tauto|constructor; split; [reflexivity|lia]|exact I|vm_compute; congruence|exact Ht|].
  exists n, x. split; [exact R|]. rewrite <- E. reflexivity.
Qed.
