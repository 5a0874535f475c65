(** C82: %e and %g against the exact value of the double. *)
From Coq Require Import QArith Qabs Lqa.
From Verif Require Import Base Digits ContextM CompilerM GrammarSpec CompilerP2 FormatterM TraitsM ImplM FmtSpec DecSpec FloatSpec DirSpec RoundP NearP FloatQ FloatP DoubleP IntP PropsInt FloatArgP PropsFloat
  ReadFSpec PropsRead ValueSpec PropsValue ScaleP PropsWhole SigSpec SigP.
Open Scope Z_scope.

(** significant digits asked for *)
Definition sig_digits (s : spec) (q : fspec) : Z := match s with Se | SE => prec_or 6 q + 1 | _ => g_prec q end.

Lemma sig_digits_pos src s q : directive src s q -> 1 <= sig_digits s q.
Proof.
  intros Hd. pose proof (prec_nonneg _ _ _ Hd) as Hp. unfold sig_digits, g_prec. destruct s; try lia; destruct (Z.eqb_spec (prec_or 6 q) 0); lia.
Qed.

(** C82 holds exactly when no midpoint of two numbers of as many digits separates the double from its decimal: then, and only
    then, the printed number is one nearest to the double *)
Theorem C82_wrong_exactly_across_a_midpoint_partial : forall J src s q v b r f e S X t,
  directive src s q -> In s [Se; SE; Sg; SG] -> is_double J v b -> its_decimal b f e -> let P := sig_digits s q in
  sig_half_up (dec f e) P S X -> prints J src [traitsOf J v r] t ->
  reads_as t (b <? 0) (dec S (X - P + 1)) /\
  (nearest_sig (dval (magnitude b)) P (dec S (X - P + 1)) <-> ~ midpoint_between (dval (magnitude b)) (dec f e) P).
Proof.
  intros J src s q v b r f e S X t Hd Hs Hv Hi P HS Ht. pose proof (sig_digits_pos src s q Hd) as HP. split; [|apply sig_nearest; [exact HP|exact HS]].
  apply (C55_text_is_the_rounded_number J src s q v b r f e (dec S (X - P + 1)) t Hd); try assumption.
  - unfold decimal_spec. destruct Hs as [<-|[<-|[<-|[<-|[]]]]]; tauto.
  - assert (G : sig_rounded (dec f e) P (dec S (X - P + 1))) by (right; exists S, X; split; [exact HS|reflexivity]).
    unfold P, sig_digits in G. destruct Hs as [<-|[<-|[<-|[<-|[]]]]]; exact G.
Qed.
Print Assumptions C82_wrong_exactly_across_a_midpoint_partial.

(** a decimal is within half the distance to a neighbouring double *)
Lemma decimal_near b f e : its_decimal b f e ->
  exists b', Z.abs (b' - magnitude b) = 1 /\ (Qabs (dec f e - dval (magnitude b)) <= (1 # 2) * Qabs (dval b' - dval (magnitude b)))%Q.
Proof.
  intros Hi. destruct Hi as [[Z0 F0]|[R D]].
  - exists 1. rewrite Z0, F0. split; [reflexivity|]. assert (E : (dec 0 e - dval 0 == 0)%Q) by (unfold dec; change (inject_Z 0) with 0%Q; assert (E0 : (dval 0 == 0)%Q) by reflexivity; rewrite E0; ring).
    rewrite E. change (Qabs 0) with 0%Q. pose proof (Qabs_nonneg (dval 1 - dval 0)). lra.
  - destruct D as (_ & Rt & _). set (m := magnitude b) in *. set (y := dec f e) in *. clearbody y.
    destruct (Qlt_le_dec y (dval m)) as [L|L].
    + exists (m - 1). split; [lia|]. destruct (Rt (m - 1) ltac:(lia)) as [H _].
      assert (M : (dval (m - 1) < dval m)%Q) by (apply dval_lt; lia).
      rewrite (Qabs_neg (y - dval m)) in * by lra. rewrite (Qabs_neg (dval (m - 1) - dval m)) by lra.
      revert H. apply Qabs_case; intros; lra.
    + exists (m + 1). split; [lia|]. destruct (Rt (m + 1) ltac:(lia)) as [H _].
      assert (M : (dval m < dval (m + 1))%Q) by (apply dval_lt; lia).
      rewrite (Qabs_pos (y - dval m)) in * by lra. rewrite (Qabs_pos (dval (m + 1) - dval m)) by lra.
      revert H. apply Qabs_case; intros; lra.
Qed.

(** C82: the printed number is always within half a unit of its last digit plus half the distance to a neighbouring double *)
Theorem C82_error_bound_partial : forall J src s q v b r f e S X t,
  directive src s q -> In s [Se; SE; Sg; SG] -> is_double J v b -> its_decimal b f e -> let P := sig_digits s q in
  sig_half_up (dec f e) P S X -> prints J src [traitsOf J v r] t ->
  reads_as t (b <? 0) (dec S (X - P + 1)) /\
  exists b', Z.abs (b' - magnitude b) = 1 /\
    (Qabs (dec S (X - P + 1) - dval (magnitude b)) <= (1 # 2) * 10 ^ (X - P + 1) + (1 # 2) * Qabs (dval b' - dval (magnitude b)))%Q.
Proof.
  intros J src s q v b r f e S X t Hd Hs Hv Hi P HS Ht. split; [apply (C82_wrong_exactly_across_a_midpoint_partial J src s q v b r f e S X t Hd Hs Hv Hi HS Ht)|].
  destruct (decimal_near b f e Hi) as (b' & E & B). exists b'. split; [exact E|].
  pose proof (sig_error P (sig_digits_pos src s q Hd) (dec f e) S X HS) as A.
  assert (T : (Qabs (dec S (X - P + 1) - dval (magnitude b)) <= Qabs (dec S (X - P + 1) - dec f e) + Qabs (dec f e - dval (magnitude b)))%Q).
  { eapply Qle_trans; [|apply Qabs_triangle]. assert (Eq : (dec S (X - P + 1) - dval (magnitude b) == dec S (X - P + 1) - dec f e + (dec f e - dval (magnitude b)))%Q) by ring. rewrite Eq. apply Qle_refl. }
  lra.
Qed.
Print Assumptions C82_error_bound_partial.

(** C82 is false: 0.15 is slightly below 15/100; "%.0e" and "%.1g" print 2e-01 and 0.2, and 0.1 is nearer *)
Theorem C82_nearest_refuted : forall J, let b := 4594572339843380019 in
  prints J (txt "%.0e") [traitsOf J (VDouble b) RPrimitive] (txt "2e-01") /\
  prints J (txt "%.1g") [traitsOf J (VDouble b) RPrimitive] (txt "0.2") /\
  ~ nearest_sig (dval (magnitude b)) 1 (2 # 10).
Proof.
  intros J b. assert (R : 0 < magnitude b < inf_bits) by (vm_compute; split; reflexivity).
  destruct (printed_by b 15000000000000000 (-17) R ltac:(vm_compute; reflexivity)) as [(Z0 & _)|[_ P]]; [discriminate|].
  assert (Hi : its_decimal b 15000000000000000 (-17)) by (right; split; [exact R|apply (do_right _ _ _ P)]).
  assert (Hv : is_double J (VDouble b) b) by (constructor; vm_compute; split; congruence).
  assert (HS : sig_half_up (dec 15000000000000000 (-17)) 1 2 (-1)).
  { exists (-1), 2. split; [vm_compute; split; congruence|]. split; [vm_compute; split; congruence|]. split; [reflexivity|]. vm_compute; split; congruence. }
  split; [|split].
  - apply (C30_scientific_notation J _ Se (mkSpec false false false false false 0 (Some 0)) _ b _ 15000000000000000 (-17) 2 (-1)); try assumption; [|left; reflexivity|apply R].
    change (txt "%.0e") with (pct :: [] ++ [] ++ txt ".0" ++ [ch "e"]). is_dir (dir_text [] (mkFlags false false false false false) [] UNSET (txt ".0") 0).
  - assert (Hd : directive (txt "%.1g") Sg (mkSpec false false false false false 0 (Some 1))).
    { change (txt "%.1g") with (pct :: [] ++ [] ++ txt ".1" ++ [ch "g"]). is_dir (dir_text [] (mkFlags false false false false false) [] UNSET (txt ".1") 1). }
    apply (C32_general_exact J _ Sg _ (VDouble b) b RPrimitive 15000000000000000 (-17) Hd); [left; reflexivity|exact Hv|]. apply digits_printed. right. split; [exact R|exact P].
  - intros N. specialize (N 1 (-1) ltac:(vm_compute; reflexivity)). revert N. vm_compute. intros N. apply N. reflexivity.
Qed.
Print Assumptions C82_nearest_refuted.

(** with many digits the zeros printed after the decimal are not those of the double: 0.1 is 0.1000000000000000055... *)
Theorem C82_many_digits_refuted : forall J, let b := 4591870180066957722 in
  prints J (txt "%.17e") [traitsOf J (VDouble b) RPrimitive] (txt "1.00000000000000000e-01") /\
  ~ nearest_sig (dval (magnitude b)) 18 (1 # 10).
Proof.
  intros J b. assert (R : 0 < magnitude b < inf_bits) by (vm_compute; split; reflexivity).
  destruct (printed_by b 10000000000000000 (-17) R ltac:(vm_compute; reflexivity)) as [(Z0 & _)|[_ P]]; [discriminate|].
  assert (Hi : its_decimal b 10000000000000000 (-17)) by (right; split; [exact R|apply (do_right _ _ _ P)]).
  assert (Hv : is_double J (VDouble b) b) by (constructor; vm_compute; split; congruence). split.
  - apply (C30_scientific_notation J _ Se (mkSpec false false false false false 0 (Some 17)) _ b _ 10000000000000000 (-17) (10 ^ 17) (-1)); try assumption; [|left; reflexivity|apply R|].
    + change (txt "%.17e") with (pct :: [] ++ [] ++ txt ".17" ++ [ch "e"]). is_dir (dir_text [] (mkFlags false false false false false) [] UNSET (txt ".17") 17).
    + exists (-1), (10 ^ 17). split; [vm_compute; split; congruence|]. split; [vm_compute; split; congruence|]. split; [reflexivity|]. vm_compute; split; congruence.
  - intros N. specialize (N 100000000000000006 (-18) ltac:(vm_compute; reflexivity)). revert N. vm_compute. intros N. apply N. reflexivity.
Qed.
Print Assumptions C82_many_digits_refuted.

(** the partial theorems apply: 0.15 and its decimal are separated by the midpoint 0.15 of 0.1 and 0.2 *)
Example C82_midpoint_example : let b := 4594572339843380019 in
  midpoint_between (dval (magnitude b)) (dec 15 (-2)) 1 /\ sig_half_up (dec 15 (-2)) 1 2 (-1).
Proof.
  cbv zeta. split.
  - exists (15 # 100). split; [|left; vm_compute; split; congruence]. exists 1, (-1). split; [vm_compute; split; congruence|reflexivity].
  - exists (-1), 2. split; [vm_compute; split; congruence|]. split; [vm_compute; split; congruence|]. split; [reflexivity|]. vm_compute; split; congruence.
Qed.
Example C82_nearest_example : (* 0.5 is exact *)
  nearest_sig (1 # 2) 1 (dec 5 (-1)) /\ ~ midpoint_between (1 # 2) (dec 5 (-1)) 1.
Proof.
  assert (H : sig_half_up (dec 5 (-1)) 1 5 (-1)).
  { exists (-1), 5. split; [vm_compute; split; congruence|]. split; [vm_compute; split; congruence|]. split; [reflexivity|]. vm_compute; split; congruence. }
  assert (N : ~ midpoint_between (1 # 2) (dec 5 (-1)) 1).
  { intros (T & _ & A). assert (E : (dec 5 (-1) == 1 # 2)%Q) by reflexivity. rewrite E in A. lra. }
  split; [|exact N]. apply (sig_nearest 1 ltac:(lia) (1 # 2) (dec 5 (-1)) 5 (-1) H). exact N.
Qed.
