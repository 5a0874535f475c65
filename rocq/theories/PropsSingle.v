(** C63: float arguments. *)
From Coq Require Import QArith Qabs Qpower Lqa.
From Verif Require Import Base Digits UtilsM SeqM SeqSpec ContextM CompilerM GrammarSpec IntFormM FormatterM MathM DecimalM FPDecimalM DoubleM BigDecM RoundM TraitsM ImplM ReadSpec FmtSpec FmtP DirSpec DecSpec RoundP FloatSpec FloatP DoubleP CastP NearP FloatQ
  FloatArgP IntP PropsInt PropsDouble PropsFloat ReadFSpec ReadFP ReadFP2 ReadFP3 PropsRead SingleSpec SingleP.
Open Scope Z_scope.

Lemma float_sign f b : widened f b -> (b <? 0) = (f <? 0).
Proof. intros (_ & _ & _ & S & _). destruct (Z.ltb_spec b 0), (Z.ltb_spec f 0); try reflexivity; lia. Qed.

(** nine significant digits (46 after the point for %f) identify a float *)
Theorem C63_round_trip : forall J src s q f r t,
  directive src s q -> keeps_floats s q -> fmagnitude f < finf_bits -> prints J src [traitsOf J (VFloat f) r] t -> freads_back t f.
Proof.
  intros J src s q g r t Hd Hk Hf Ht. pose proof (f2d_widens g Hf) as Hw. assert (Hb : finite (f2d g)) by apply Hw.
  assert (Hs : decimal_spec s) by (unfold decimal_spec; destruct s; cbn [keeps_floats] in Hk; tauto).
  destruct (every_finite_double_has_a_decimal (f2d g) Hb) as (f & e & Hi). pose proof (prec_nonneg _ _ _ Hd) as Hp.
  destruct (rounded_exists s q f e Hs (its_nonneg _ _ _ Hi) Hp) as (x & Hx). exists x. rewrite <- (float_sign _ _ Hw).
  split; [apply (C55_text_is_the_rounded_number J src s q (VFloat g) (f2d g) r f e x t); try assumption; constructor; exact Hw|].
  apply (float_back s q g (f2d g) f e x); assumption.
Qed.
Print Assumptions C63_round_trip.

Theorem C63_injective : forall J src s q f r f' r' t,
  directive src s q -> keeps_floats s q -> in_range 32 f -> in_range 32 f' -> fmagnitude f < finf_bits -> fmagnitude f' < finf_bits ->
  prints J src [traitsOf J (VFloat f) r] t -> prints J src [traitsOf J (VFloat f') r'] t -> f = f'.
Proof.
  intros J src s q f r f' r' t Hd Hk Rf Rf' Hf Hf' Ht Ht'.
  destruct (C63_round_trip J src s q f r t Hd Hk Hf Ht) as (x & R1 & R2).
  destruct (C63_round_trip J src s q f' r' t Hd Hk Hf' Ht') as (x' & R1' & R2').
  destruct (reads_as_unique _ _ _ _ _ R1 R1') as [Es Ex].
  assert (G : 0 <= fmagnitude f) by (apply Z.mod_pos_bound; reflexivity). assert (G' : 0 <= fmagnitude f') by (apply Z.mod_pos_bound; reflexivity).
  assert (E : fmagnitude f = fmagnitude f').
  { destruct (Z.eq_dec (fmagnitude f) (fmagnitude f')) as [E|N]; [exact E|exfalso].
    destruct (R2 (fmagnitude f') ltac:(lia)) as [A1 A2]. destruct (R2' (fmagnitude f) ltac:(lia)) as [B1 B2].
    assert (Wd : forall g, (Qabs (x' - fval g) == Qabs (x - fval g))%Q) by (intros g; apply Qabs_wd; rewrite Ex; reflexivity).
    rewrite !Wd in B1. rewrite !Wd in B2. assert (Eq : (Qabs (x - fval (fmagnitude f)) == Qabs (x - fval (fmagnitude f')))%Q) by lra.
    specialize (A2 ltac:(congruence) Eq). specialize (B2 N ltac:(symmetry; exact Eq)).
    (* two even floats are not neighbours: the one between is nearer *)
    assert (K : forall a b, 0 <= a -> b <= finf_bits -> a < b -> Z.even a = true -> Z.even b = true ->
      (Qabs (x - fval a) == Qabs (x - fval b))%Q -> (Qabs (x - fval a) <= Qabs (x - fval (a + 1)))%Q -> False).
    { intros a b Ha Hb L Ea Eb Q1 Q2.
      assert (L2 : a + 1 < b).
      { assert (b <> a + 1) by (intros ->; rewrite Z.even_add, Ea in Eb; discriminate). lia. }
      pose proof (fval_succ a Ha) as S1. pose proof (two_pos (fexpo a)) as U. pose proof (fval_succ (a + 1) ltac:(lia)) as S2. pose proof (two_pos (fexpo (a + 1))) as U2.
      pose proof (fval_le (a + 1 + 1) b ltac:(lia)) as M. apply tie_mid in Q1; [|intros X; lra].
      assert (E1 : ((fval a + fval b) / 2 == (fval a + fval b) * (1 # 2))%Q) by reflexivity. rewrite E1 in Q1.
      apply near_above in Q2; [|lra]. assert (E2 : ((fval a + fval (a + 1)) / 2 == (fval a + fval (a + 1)) * (1 # 2))%Q) by reflexivity. rewrite E2 in Q2. lra. }
    destruct (Z_lt_ge_dec (fmagnitude f) (fmagnitude f')) as [L|L].
    - apply (K (fmagnitude f) (fmagnitude f')); try assumption; [lia|]. apply R2. lia.
    - apply (K (fmagnitude f') (fmagnitude f)); try assumption; [lia|lia|symmetry; exact Eq|]. rewrite <- !Wd. apply R2'. lia. }
  unfold fmagnitude, in_range in *. change (2 ^ (32 - 1)) with (2 ^ 31) in *.
  assert (Q : forall g, - 2 ^ 31 <= g < 2 ^ 31 -> g = if g <? 0 then g mod 2 ^ 31 - 2 ^ 31 else g mod 2 ^ 31).
  { intros g Hg. destruct (Z.ltb_spec g 0) as [L|L].
    - replace (g mod 2 ^ 31) with (g + 2 ^ 31); [lia|]. apply (Z.mod_unique_pos _ _ (-1)); lia.
    - symmetry. apply Z.mod_small. lia. }
  rewrite (Q f Rf), (Q f' Rf'). rewrite Es, E. reflexivity.
Qed.
Print Assumptions C63_injective.

(** a decimal read as a normal float and printed with at most six significant digits comes out as it was *)
Theorem C63_six_digits : forall J src s q f r y t,
  directive src s q -> decimal_spec s -> 2 ^ 23 <= fmagnitude f < finf_bits -> frounds_to y (fmagnitude f) ->
  shows_at_most s q y 6 -> rounded s q y y -> prints J src [traitsOf J (VFloat f) r] t -> reads_as t (f <? 0) y.
Proof.
  intros J src s q g r y t Hd Hs Hf Hy Hm Hr Ht. assert (Hf' : g mod 2 ^ 31 < 255 * 2 ^ 23) by (change (fmagnitude g < finf_bits); lia).
  pose proof (f2d_widens g Hf') as Hw. assert (Hb : finite (f2d g)) by apply Hw. pose proof (prec_nonneg _ _ _ Hd) as Hp.
  destruct (every_finite_double_has_a_decimal (f2d g) Hb) as (f & e & Hi).
  destruct (rounded_exists s q f e Hs (its_nonneg _ _ _ Hi) Hp) as (x & Hx).
  apply (reads_eq t _ x); [apply (float_six s q g (f2d g) f e); assumption|]. rewrite <- (float_sign _ _ Hw).
  apply (C55_text_is_the_rounded_number J src s q (VFloat g) (f2d g) r f e x t); try assumption. constructor. exact Hw.
Qed.
Print Assumptions C63_six_digits.

(** It is false that a float is printed from the shortest decimal that identifies it: 0.1f is not 0.100000000 but 0.100000001. *)
Theorem C63_shortest_decimal_refuted : exists src q f y,
  directive src Sg q /\ keeps_floats Sg q /\ digits_le y 1 /\ frounds_to y (fmagnitude f) /\ rounded Sg q y y /\
  forall J r t, prints J src [traitsOf J (VFloat f) r] t -> reads_as t false (100000001 # 1000000000) /\ ~ reads_as t false y.
Proof.
  exists (txt "%.9g"), (mkSpec false false false false false 0 (Some 9)), 1036831949, (1 # 10).
  assert (D : directive (txt "%.9g") Sg (mkSpec false false false false false 0 (Some 9))).
  { change (txt "%.9g") with (pct :: [] ++ [] ++ txt ".9" ++ [ch "g"]). is_dir (dir_text [] (mkFlags false false false false false) [] UNSET (txt ".9") 9). }
  split; [exact D|]. split; [vm_compute; congruence|]. split; [exists 1, (-1); split; [lia|reflexivity]|].
  split; [apply near_frounds; [vm_compute; split; congruence|right; vm_compute; reflexivity]|].
  split.
  { right. exists 100000000, (-1). split; [|reflexivity]. exists (-1), 100000000. vm_compute. repeat split; congruence. }
  intros J r t Ht.
  assert (E : reads_as t false (100000001 # 1000000000)).
  { assert (R : 0 < magnitude 4591870180174331904 < inf_bits) by (vm_compute; split; reflexivity).
    destruct (printed_by 4591870180174331904 10000000149011612 (-17) R ltac:(vm_compute; reflexivity)) as [(Z0 & _)|[_ P]]; [discriminate|].
    apply (C55_text_is_the_rounded_number J (txt "%.9g") Sg (mkSpec false false false false false 0 (Some 9)) (VFloat 1036831949) 4591870180174331904 r 10000000149011612 (-17) _ t);
      [exact D|unfold decimal_spec; tauto| |right; split; [exact R|apply (do_right _ _ _ P)]| |exact Ht].
    - constructor. pose proof (f2d_widens 1036831949 ltac:(vm_compute; reflexivity)) as W. change (f2d 1036831949) with 4591870180174331904 in W. exact W.
    - right. exists 100000001, (-1). split; [|reflexivity]. exists (-1), 100000001. vm_compute. repeat split; congruence. }
  split; [exact E|]. intros E'. destruct (reads_as_unique _ _ _ _ _ E E') as [_ X]. discriminate X.
Qed.
Print Assumptions C63_shortest_decimal_refuted.

Example C63_example :
  let f := 1036831949 in let q := mkSpec false false false false false 0 (Some 6) in
  2 ^ 23 <= fmagnitude f < finf_bits /\ frounds_to (1 # 10) (fmagnitude f) /\ shows_at_most Sg q (1 # 10) 6 /\ rounded Sg q (1 # 10) (1 # 10) /\
  directive (txt "%.6g") Sg q /\ forall t, prints J0 (txt "%.6g") [traitsOf J0 (VFloat f) RPrimitive] t -> reads_as t false (1 # 10).
Proof.
  cbv zeta.
  assert (A : 2 ^ 23 <= fmagnitude 1036831949 < finf_bits) by (vm_compute; split; congruence).
  assert (B : frounds_to (1 # 10) (fmagnitude 1036831949)) by (apply near_frounds; [vm_compute; split; congruence|right; vm_compute; reflexivity]).
  assert (C : shows_at_most Sg (mkSpec false false false false false 0 (Some 6)) (1 # 10) 6) by (vm_compute; congruence).
  assert (R : rounded Sg (mkSpec false false false false false 0 (Some 6)) (1 # 10) (1 # 10)).
  { right. exists 100000, (-1). split; [|reflexivity]. exists (-1), 100000. vm_compute. repeat split; congruence. }
  assert (D : directive (txt "%.6g") Sg (mkSpec false false false false false 0 (Some 6))).
  { change (txt "%.6g") with (pct :: [] ++ [] ++ txt ".6" ++ [ch "g"]). is_dir (dir_text [] (mkFlags false false false false false) [] UNSET (txt ".6") 6). }
  split; [exact A|]. split; [exact B|]. split; [exact C|]. split; [exact R|]. split; [exact D|]. intros t Ht.
  apply (C63_six_digits J0 (txt "%.6g") Sg _ 1036831949 RPrimitive (1 # 10) t D); try assumption. unfold decimal_spec. tauto.
Qed.
