(** C55-C57: what the floating-point conversions print, read back. *)
From Coq Require Import QArith Qabs Qpower Lqa.
From Verif Require Import Base Digits UtilsM SeqM SeqSpec ContextM CompilerM GrammarSpec IntFormM FormatterM MathM DecimalM FPDecimalM DoubleM BigDecM RoundM TraitsM ImplM ReadSpec FmtSpec FmtP DirSpec DecSpec RoundP FloatSpec FloatP DoubleP CastP NearP FloatQ
  FloatArgP IntP PropsInt PropsDouble PropsFloat ReadFSpec ReadFP ReadFP2 ReadFP3.
Open Scope Z_scope.

(** ** C55 *)

(** the text is a numeral of the rounded decimal, whatever the flags and the width *)
Theorem C55_text_is_the_rounded_number : forall J src s q v b r f e x t,
  directive src s q -> decimal_spec s -> is_double J v b -> its_decimal b f e -> rounded s q (dec f e) x ->
  prints J src [traitsOf J v r] t -> reads_as t (b <? 0) x.
Proof. intros. eapply read_text; eassumption. Qed.
Print Assumptions C55_text_is_the_rounded_number.

(** with enough digits (17 significant ones, or 325 after the point) reading gives the double back *)
Theorem C55_round_trip : forall J src s q v b r t,
  directive src s q -> keeps_all s q -> is_double J v b -> finite b -> prints J src [traitsOf J v r] t -> reads_back t b.
Proof.
  intros J src s q v b r t Hd Hk Hv Hf Ht. assert (Hs : decimal_spec s) by (unfold decimal_spec; destruct s; cbn [keeps_all] in Hk; tauto).
  destruct (every_finite_double_has_a_decimal b Hf) as (f & e & Hi).
  destruct (rounded_exists s q f e Hs (its_nonneg _ _ _ Hi) (prec_nonneg _ _ _ Hd)) as (x & Hx). exists x.
  split; [apply (C55_text_is_the_rounded_number J src s q v b r f e x t); assumption|].
  apply (rounds_eq (dec f e)); [symmetry; apply (keeps_decimal s q b); assumption|apply its_rounds; exact Hi].
Qed.
Print Assumptions C55_round_trip.

(** so different doubles have different texts, 0.0 and -0.0 included *)
Theorem C55_injective : forall J src s q v b r v' b' r' t,
  directive src s q -> keeps_all s q -> is_double J v b -> is_double J v' b' -> finite b -> finite b' ->
  prints J src [traitsOf J v r] t -> prints J src [traitsOf J v' r'] t -> b = b'.
Proof.
  intros J src s q v b r v' b' r' t Hd Hk Hv Hv' Hf Hf' Ht Ht'.
  destruct (C55_round_trip J src s q v b r t Hd Hk Hv Hf Ht) as (x & R1 & R2).
  destruct (C55_round_trip J src s q v' b' r' t Hd Hk Hv' Hf' Ht') as (x' & R1' & R2').
  destruct (reads_as_unique _ _ _ _ _ R1 R1') as [Es Ex]. destruct (double_view J v b r Hv) as [_ Hb]. destruct (double_view J v' b' r' Hv') as [_ Hb'].
  unfold in_range in Hb, Hb'. apply pattern_eq; [lia|lia|exact Es|]. pose proof (magnitude_range b Hf). pose proof (magnitude_range b' Hf').
  apply (C23_reading_is_unique x); [lia|lia|exact R2|]. apply (rounds_eq x'); [symmetry; exact Ex|exact R2'].
Qed.
Print Assumptions C55_injective.

(** 16 significant digits are not enough *)
Theorem C55_sixteen_digits_do_not_suffice :
  exists src q b b' t, directive src Se q /\ prec_or 6 q + 1 = 16 /\ b <> b' /\
    forall J, prints J src [traitsOf J (VDouble b) RPrimitive] t /\ prints J src [traitsOf J (VDouble b') RPrimitive] t.
Proof.
  exists (txt "%.15e"), (mkSpec false false false false false 0 (Some 15)), 4621819117588971520, 4621819117588971521, (txt "1.000000000000000e+01").
  assert (D : directive (txt "%.15e") Se (mkSpec false false false false false 0 (Some 15))).
  { change (txt "%.15e") with (pct :: [] ++ [] ++ txt ".15" ++ [ch "e"]).
    is_dir (dir_text [] (mkFlags false false false false false) [] UNSET (txt ".15") 15). }
  split; [exact D|]. split; [reflexivity|]. split; [discriminate|]. intros J.
  assert (G : forall b f e, 0 < magnitude b < inf_bits -> is_long b -> (b <? 0) = false -> toDecimal (magnitude b) = Ok (NonSpecial false f e) ->
    sig_half_up (dec f e) 16 (10 ^ 15) 1 -> prints J (txt "%.15e") [traitsOf J (VDouble b) RPrimitive] (txt "1.000000000000000e+01")).
  { intros b f e R Hl Hn Ed Hs. destruct (printed_by b f e R Ed) as [(Z0 & _)|[_ P]]; [unfold dbl_mag, magnitude in *; lia|].
    pose proof (C30_scientific_notation J _ Se _ (VDouble b) b RPrimitive f e (10 ^ 15) 1 D (or_introl eq_refl)) as T.
    rewrite Hn in T. apply T; [constructor; unfold in_range, is_long, long_min, long_max in *; lia| |lia|exact Hs]. right. split; [exact R|apply (do_right _ _ _ P)]. }
  split.
  - apply (G _ 10 0); [vm_compute; split; reflexivity|vm_compute; split; congruence|reflexivity|vm_compute; reflexivity|].
    exists 1, (10 ^ 15). vm_compute. repeat split; congruence.
  - apply (G _ 10000000000000002 (-15)); [vm_compute; split; reflexivity|vm_compute; split; congruence|reflexivity|vm_compute; reflexivity|].
    exists 1, (10 ^ 15). vm_compute. repeat split; congruence.
Qed.
Print Assumptions C55_sixteen_digits_do_not_suffice.

(** %a without precision, or with at least 13 digits, is exact *)
Theorem C55_hexadecimal : forall J src s q v b r t,
  directive src s q -> s = Sa \/ s = SA -> (forall p, q_prec q = Some p -> 13 <= p) -> is_double J v b -> finite b ->
  prints J src [traitsOf J v r] t -> hex_reads_as t (b <? 0) (dval (magnitude b)).
Proof.
  intros J src s q v b r t Hd Hs Hp Hv Hf Ht.
  assert (G : forall M k x, 0 <= k -> 0 <= M < 2 * 16 ^ k -> (inject_Z M * 2 ^ x == dval (magnitude b) * 16 ^ k)%Q ->
    prints J src [traitsOf J v r] (cased s (a_text q (b <? 0) M k x)) -> hex_reads_as t (b <? 0) (dval (magnitude b))).
  { intros M k x Hk HM E Pr. rewrite (prints_unique _ _ _ _ _ Ht Pr). exists M, k, x. split; [|symmetry; exact E].
    rewrite upper_cased; [|right; reflexivity|cbn; lia]. apply hex_reads; assumption. }
  destruct (q_prec q) as [p|] eqn:E.
  - specialize (Hp p eq_refl). destruct (C33_hexadecimal_with_precision J src s q v b r p Hd Hs Hv Hf E) as (M & x & Pr & _ & Ex & _).
    destruct (Ex Hp) as [E1 E2]. apply (G M (Z.max 1 p) x); [lia|exact E2|exact E1|exact Pr].
  - destruct (C33_hexadecimal_exact J src s q v b r Hd Hs Hv Hf E) as (M & k & x & K & _ & HM & E1 & Pr). apply (G M k x); [lia|exact HM|exact E1|exact Pr].
Qed.
Print Assumptions C55_hexadecimal.

Example C55_example : reads_as (txt "  -00012.50e-3 ") true (dec 1250 (-5)) /\ hex_reads_as (txt "0X1.8P+1") false 3 /\
  prints J0 (txt "%+08.2f") [traitsOf J0 (VDouble 4594572339843380019) RPrimitive] (txt "+0000.15") /\ reads_as (txt "+0000.15") false (15 # 100).
Proof.
  split; [exists 1250, 2, (-3); split; reflexivity|]. split; [exists 24, 1, 1; split; reflexivity|].
  split; [apply C28_example|]. exists 15, 2, 0. split; reflexivity.
Qed.

(** ** C56 *)

(** A decimal of at most [n] digits, 10^n less than the significand of the double read from it, is what the conversions round:
    the text is the numeral of that decimal rounded, as if it had never been a double. *)
Theorem C56_short_decimals_survive : forall J src s q v b r n y x t,
  directive src s q -> decimal_spec s -> is_double J v b -> finite b ->
  2 <= n -> 10 ^ n < Z.min (magnitude b) (2 ^ 52) -> digits_le y n -> rounds_to y (magnitude b) -> rounded s q y x ->
  prints J src [traitsOf J v r] t -> reads_as t (b <? 0) x.
Proof.
  intros J src s q v b r n y x t Hd Hs Hv Hf H2 Hn Dy Ry Hx Ht. destruct (every_finite_double_has_a_decimal b Hf) as (f & e & Hi).
  assert (P : 0 < 10 ^ n) by (apply Z.pow_pos_nonneg; lia). unfold finite in Hf.
  pose proof (its_source b f e n y Hi ltac:(lia) H2 Hn Dy Ry) as E.
  apply (C55_text_is_the_rounded_number J src s q v b r f e x t); try assumption.
  apply (rounded_eq s q y); [symmetry; exact E|exact Hx].
Qed.
Print Assumptions C56_short_decimals_survive.

(** a normal double keeps 15 digits: if the precision also keeps the digits of [y], the text is a numeral of [y] itself *)
Theorem C56_fifteen_digits : forall J src s q v b r y t,
  directive src s q -> decimal_spec s -> is_double J v b -> 2 ^ 52 <= magnitude b < inf_bits ->
  digits_le y 15 -> rounds_to y (magnitude b) -> rounded s q y y ->
  prints J src [traitsOf J v r] t -> reads_as t (b <? 0) y.
Proof.
  intros J src s q v b r y t Hd Hs Hv Hb Dy Ry Hx Ht.
  apply (C56_short_decimals_survive J src s q v b r 15 y y t); try assumption; [unfold finite; lia|lia|]. replace (Z.min (magnitude b) (2 ^ 52)) with (2 ^ 52) by lia. reflexivity.
Qed.
Print Assumptions C56_fifteen_digits.

(** C29 holds for the doubles whose value is an integer below 2^53, and for the normal ones whose value has at most 15 digits:
    what is printed is the value of the double, correctly rounded *)
Theorem C29_exact_values_partial : forall J src s q v b r x t,
  directive src s q -> decimal_spec s -> is_double J v b -> finite b ->
  (exists n, 0 <= n < 2 ^ 53 /\ (dval (magnitude b) == inject_Z n)%Q) \/ (2 ^ 52 <= magnitude b /\ digits_le (dval (magnitude b)) 15) ->
  rounded s q (dval (magnitude b)) x -> prints J src [traitsOf J v r] t -> reads_as t (b <? 0) x.
Proof.
  intros J src s q v b r x t Hd Hs Hv Hf H Hx Ht. pose proof Hf as Hf'. unfold finite in Hf'. destruct H as [(n & Hn & E)|[Hm Dm]].
  - destruct (every_finite_double_has_a_decimal b Hf) as (f & e & Hi). apply (C55_text_is_the_rounded_number J src s q v b r f e x t); try assumption.
    apply (rounded_eq s q (dval (magnitude b))); [symmetry; apply (integer_exact b f e n); assumption|exact Hx].
  - apply (C56_short_decimals_survive J src s q v b r 15 (dval (magnitude b)) x t); try assumption; [lia| |apply rounds_self; lia].
    replace (Z.min (magnitude b) (2 ^ 52)) with (2 ^ 52) by lia. reflexivity.
Qed.
Print Assumptions C29_exact_values_partial.

(** 0.15 has two digits: %.1f prints it as 0.2, the decimal being rounded, although the double is below 0.15 *)
Example C56_example : digits_le (15 # 100) 15 /\ rounds_to (15 # 100) (magnitude 4594572339843380019) /\ rounded Sf (mkSpec false false false false false 0 (Some 1)) (15 # 100) (2 # 10) /\
  2 ^ 52 <= magnitude 4594572339843380019 < inf_bits /\ forall t, prints J0 (txt "%.1f") [traitsOf J0 (VDouble 4594572339843380019) RPrimitive] t -> reads_as t false (2 # 10).
Proof.
  assert (R : 0 < magnitude 4594572339843380019 < inf_bits) by (vm_compute; split; reflexivity).
  destruct (printed_by 4594572339843380019 15000000000000000 (-17) R ltac:(vm_compute; reflexivity)) as [(Z0 & _)|[_ P]]; [discriminate|].
  assert (Dg : digits_le (15 # 100) 15) by (exists 15, (-2); split; [lia|reflexivity]).
  assert (Ry : rounds_to (15 # 100) (magnitude 4594572339843380019)).
  { apply (rounds_eq (dec 15000000000000000 (-17))); [reflexivity|]. apply (do_right _ _ _ P). }
  assert (Rd : rounded Sf (mkSpec false false false false false 0 (Some 1)) (15 # 100) (2 # 10)) by (exists 2; split; [vm_compute; split; congruence|reflexivity]).
  assert (B : 2 ^ 52 <= magnitude 4594572339843380019 < inf_bits) by (vm_compute; split; [congruence|reflexivity]).
  split; [exact Dg|]. split; [exact Ry|]. split; [exact Rd|]. split; [exact B|]. intros t Ht.
  apply (C56_short_decimals_survive J0 (txt "%.1f") Sf (mkSpec false false false false false 0 (Some 1)) (VDouble 4594572339843380019) 4594572339843380019 RPrimitive 15 (15 # 100) (2 # 10) t);
    [|left; reflexivity|constructor; vm_compute; split; congruence|apply R|lia| |exact Dg|exact Ry|exact Rd|exact Ht].
  - change (txt "%.1f") with (pct :: [] ++ [] ++ txt ".1" ++ [ch "f"]). is_dir (dir_text [] (mkFlags false false false false false) [] UNSET (txt ".1") 1).
  - vm_compute. reflexivity.
Qed.

(** ** C57 *)

(** The conversions are monotone: a smaller double never gets a text that stands for a greater number. *)
Theorem C57_monotone : forall J src s q v b r v' b' r' t t' y y',
  directive src s q -> decimal_spec s -> is_double J v b -> is_double J v' b' -> finite b -> finite b' -> (sval b <= sval b')%Q ->
  prints J src [traitsOf J v r] t -> prints J src [traitsOf J v' r'] t' -> stands_for t y -> stands_for t' y' -> (y <= y')%Q.
Proof.
  intros J src s q v b r v' b' r' t t' y y' Hd Hs Hv Hv' Hf Hf' L Ht Ht' (n & x & R & E) (n' & x' & R' & E').
  pose proof (prec_nonneg _ _ _ Hd) as Hp.
  destruct (every_finite_double_has_a_decimal b Hf) as (f & e & Hi). destruct (every_finite_double_has_a_decimal b' Hf') as (f' & e' & Hi').
  destruct (rounded_exists s q f e Hs (its_nonneg _ _ _ Hi) Hp) as (u & Hu). destruct (rounded_exists s q f' e' Hs (its_nonneg _ _ _ Hi') Hp) as (u' & Hu').
  destruct (reads_as_unique _ _ _ _ _ R (C55_text_is_the_rounded_number J src s q v b r f e u t Hd Hs Hv Hi Hu Ht)) as [-> Ex].
  destruct (reads_as_unique _ _ _ _ _ R' (C55_text_is_the_rounded_number J src s q v' b' r' f' e' u' t' Hd Hs Hv' Hi' Hu' Ht')) as [-> Ex'].
  rewrite E, E'. clear E E' R R'.
  assert (D0 : (0 <= dec f e)%Q) by (apply dec_nonneg, (its_nonneg _ _ _ Hi)). assert (D0' : (0 <= dec f' e')%Q) by (apply dec_nonneg, (its_nonneg _ _ _ Hi')).
  pose proof (rounded_mono s q _ _ u u Hp D0 (Qle_refl _) Hu Hu) as [U0 _]. pose proof (rounded_mono s q _ _ u' u' Hp D0' (Qle_refl _) Hu' Hu') as [U0' _].
  pose proof (magnitude_range b Hf) as M. pose proof (magnitude_range b' Hf') as M'.
  assert (Mag : forall a c, 0 <= a -> 0 <= c -> (dval a <= dval c)%Q -> a <= c).
  { intros a c Ha Hc H. destruct (Z_lt_ge_dec c a) as [K|K]; [|lia]. pose proof (dval_lt c a ltac:(lia)). lra. }
  pose proof (dval_nonneg (magnitude b) ltac:(lia)) as V. pose proof (dval_nonneg (magnitude b') ltac:(lia)) as V'.
  unfold sval in L. destruct (b <? 0), (b' <? 0).
  - assert (K : magnitude b' <= magnitude b) by (apply Mag; [lia|lia|lra]).
    pose proof (rounded_mono s q _ _ u' u Hp D0' (its_mono b' b f' e' f e Hi' Hi K) Hu' Hu). rewrite Ex, Ex'. lra.
  - rewrite Ex, Ex'. lra.
  - assert (K : magnitude b <= magnitude b') by (apply Mag; [lia|lia|lra]).
    assert (K' : magnitude b = 0 /\ magnitude b' = 0).
    { pose proof (Mag (magnitude b') 0 ltac:(lia) ltac:(lia)) as Z1. pose proof (Mag (magnitude b) 0 ltac:(lia) ltac:(lia)) as Z2. assert (E0 : (dval 0 == 0)%Q) by reflexivity. rewrite E0 in *. split; [assert (magnitude b <= 0) by (apply Z2; lra); lia|assert (magnitude b' <= 0) by (apply Z1; lra); lia]. }
    destruct K' as [K1 K2]. rewrite (its_zero _ _ _ Hi K1) in Hu. rewrite (its_zero _ _ _ Hi' K2) in Hu'.
    assert (Z0 : forall c w, rounded s q (dec 0 c) w -> (w == 0)%Q).
    { intros c w Hw. pose proof (rounded_zero s q (dec 0 c) w (dec_zero c) Hp Hw). assumption. }
    rewrite Ex, Ex', (Z0 _ _ Hu), (Z0 _ _ Hu'). apply Qle_refl.
  - assert (K : magnitude b <= magnitude b') by (apply Mag; [lia|lia|lra]).
    pose proof (rounded_mono s q _ _ u u' Hp D0 (its_mono b b' f e f' e' Hi Hi' K) Hu Hu'). rewrite Ex, Ex'. lra.
Qed.
Print Assumptions C57_monotone.

(** the texts do stand for numbers *)
Theorem C57_texts_are_numbers : forall J src s q v b r t,
  directive src s q -> decimal_spec s -> is_double J v b -> finite b -> prints J src [traitsOf J v r] t -> exists y, stands_for t y.
Proof.
  intros J src s q v b r t Hd Hs Hv Hf Ht. destruct (every_finite_double_has_a_decimal b Hf) as (f & e & Hi).
  destruct (rounded_exists s q f e Hs (its_nonneg _ _ _ Hi) (prec_nonneg _ _ _ Hd)) as (x & Hx).
  exists (if b <? 0 then - x else x)%Q, (b <? 0), x. split; [|reflexivity]. apply (C55_text_is_the_rounded_number J src s q v b r f e x t); assumption.
Qed.
Print Assumptions C57_texts_are_numbers.

Example C57_example : (sval (-4616189618054758400) <= sval 4607182418800017408)%Q /\ stands_for (txt " -1.0") (-1) /\ stands_for (txt "+1e0") 1.
Proof.
  split; [vm_compute; congruence|]. split; [exists true, 1%Q|exists false, 1%Q]; (split; [|reflexivity]).
  - exists 10, 1, 0. split; reflexivity.
  - exists 1, 0, 0. split; reflexivity.
Qed.
