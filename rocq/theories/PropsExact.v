(** Properties that fail for some inputs: what happens for all of them. *)
From Coq Require Import QArith Qabs Qpower Lqa.
From Verif Require Import Base Digits UtilsM SeqM SeqSpec SeqP SeqSubP SeqExpr SeqExprP ContextM CompilerM GrammarSpec IntFormM FormatterM MathM DecimalM FPDecimalM DoubleM BigDecM RoundM TraitsM ImplM
  ReadSpec ReadP FmtSpec FmtP FmtP2 DirSpec DecSpec RoundP FloatSpec FPDecP FloatP DoubleP NearP FloatQ FloatArgP IntP PropsInt PropsDouble PropsFloat BigSpec AnnP BigDecP BigGenP PropsBig WidthP
  ReadFSpec ReadFP ReadFP2 BigReadP ExactSpec ExactP.
Open Scope Z_scope.

(** ** C09, C11, C45: the integer conversions, without exception *)

(** %d is C's %d, without the blank for "% .0d" of 0 ([j_d], FmtSpec.v) *)
Theorem C09_exact_text : forall J v z r src q, is_integer J v z -> directive src Sd q -> prints J src [traitsOf J v r] (j_d q z).
Proof. intros J v z r src q Hv Hd. apply (renders_prints J src Sd q _ (fun q => j_d q z) Hd). constructor. exact Hv. Qed.
Print Assumptions C09_exact_text.

(** %u is C's; %x, %X and %o are C's except as [j_x] and [j_o] say *)
Theorem C11_exact_text : forall J v n r src q, is_unsigned J v n ->
  (directive src Su q -> prints J src [traitsOf J v r] (c_u q n)) /\
  (directive src Sx q -> prints J src [traitsOf J v r] (j_x q n)) /\
  (directive src SX q -> prints J src [traitsOf J v r] (upper (j_x q n))) /\
  (directive src So q -> prints J src [traitsOf J v r] (j_o q n)).
Proof.
  intros J v n r src q Hv. split; [|split; [|split]]; intros Hd.
  - apply (renders_prints J src Su q _ (fun q => c_u q n) Hd). constructor. exact Hv.
  - apply (renders_prints J src Sx q _ (fun q => j_x q n) Hd). constructor. exact Hv.
  - apply (renders_prints J src SX q _ (fun q => upper (j_x q n)) Hd). constructor. exact Hv.
  - apply (renders_prints J src So q _ (fun q => j_o q n) Hd). constructor. exact Hv.
Qed.
Print Assumptions C11_exact_text.

(** ** C19: what a slice records *)

(** the length of a proper slice counts only the characters taken from its last leaf *)
Theorem C19_recorded_length : forall s t ts i j u,
  den s t -> Forall2 den_atom (leaves s) ts -> 0 <= i -> i <= j -> j <= zlen t -> s_sub s i j = Ok u ->
  s_len u = if (i =? j) || (i =? 0) && (j =? zlen t) then j - i else j - Z.max i (leaf_start ts j).
Proof.
  intros s t ts i j u Hd F Hi Hij Hj E. destruct (Z.eqb_spec i j) as [->|Nij]; cbn [orb].
  - destruct (s_sub_spec s t j j Hd Hi Hij Hj) as (u' & E' & _ & L). assert (u' = u) by congruence. subst u'.
    destruct L as [L|(ps & ini & last & -> & Es & N1 & N2)]; [rewrite (den_len _ _ L), zlen_slice by lia; reflexivity|].
    assert (Ez : zlen (slice t j j) = zlen (ini ++ last)) by (rewrite Es; reflexivity). rewrite zlen_slice, zlen_app in Ez by lia. pose proof (zlen_nonneg ini). pose proof (zlen_nonneg last).
    cbn [s_len]. lia.
  - destruct ((i =? 0) && (j =? zlen t)) eqn:B.
    + apply andb_prop in B as [B1 B2]. apply Z.eqb_eq in B1, B2. subst i j.
      assert (G : s_sub s 0 (zlen t) = Ok s -> s_len u = zlen t - 0) by (intros G; assert (u = s) by congruence; subst u; rewrite (den_len _ _ Hd); lia).
      pose proof (den_wden _ _ Hd) as Hw. pose proof (den_len _ _ Hd) as Hl. destruct s as [a|l r n k|ps n].
      * inversion Hd as [a1 t1 Ha| |]; subst. destruct (s_sub_leaf a t 0 (zlen t) Ha ltac:(lia) ltac:(lia) ltac:(lia)) as (b & Eb & Db).
        assert (u = Leaf b) by congruence. subst u. rewrite (den_len _ _ Db), zlen_slice by lia. reflexivity.
      * apply G. unfold s_sub. rewrite checkIdxs_ok by (rewrite ?Hl; lia). cbn [bind]. rewrite Hl.
        replace (0 =? zlen t) with false by (symmetry; apply Z.eqb_neq; lia). rewrite !Z.eqb_refl. reflexivity.
      * apply G. unfold s_sub. rewrite checkIdxs_ok by (rewrite ?Hl; lia). cbn [bind]. rewrite Hl.
        replace (0 =? zlen t) with false by (symmetry; apply Z.eqb_neq; lia). rewrite !Z.eqb_refl. reflexivity.
    + apply (s_sub_length s t ts i j u); try assumption; [lia|]. apply andb_false_iff in B. rewrite !Z.eqb_neq in B. lia.
Qed.
Print Assumptions C19_recorded_length.

(** charAt of a slice: the character of the slice below the recorded length, an exception from there on *)
Theorem C19_charAt_of_a_slice : forall s t i j u,
  den s t -> 0 <= i -> i <= j -> j <= zlen t -> s_sub s i j = Ok u ->
  forall k, s_charAt u k = if (0 <=? k) && (k <? s_len u) then match znth (slice t i j) k with Some c => Ok c | None => Err IndexOOB end else Err IndexOOB.
Proof. exact slice_charAt. Qed.
Print Assumptions C19_charAt_of_a_slice.

(** "abcdef" of three leaves, characters 1 to 5: length 1 instead of 4 *)
Example C19_recorded_length_example :
  exists s u, seval (Xconcat (Xconcat (Xatom (Xwrap (txt "ab"))) (Xatom (Xwrap (txt "cd")))) (Xatom (Xwrap (txt "ef")))) = Ok s /\ den s (txt "abcdef") /\
    Forall2 den_atom (leaves s) [txt "ab"; txt "cd"; txt "ef"] /\ leaf_start [txt "ab"; txt "cd"; txt "ef"] 5 = 4 /\ s_sub s 1 5 = Ok u /\ s_len u = 1 /\ s_charAt u 1 = Err IndexOOB.
Proof.
  eexists _, _. split; [reflexivity|]. split; [|split; [|split; [reflexivity|split; [reflexivity|split; reflexivity]]]].
  - change (txt "abcdef") with (txt "ab" ++ (txt "cd" ++ txt "ef")). apply (den_cat _ _ (txt "ab") (txt "cd" ++ txt "ef")); [constructor; vm_compute; intuition congruence| |vm_compute; discriminate].
    apply (den_cat _ _ (txt "cd") (txt "ef")); [constructor; vm_compute; intuition congruence|constructor; vm_compute; intuition congruence|vm_compute; discriminate].
  - repeat constructor; vm_compute; intuition congruence.
Qed.

(** ** C12: %s and %S of a composite sequence *)

(** cut by the precision, it is padded as if the field were wider by the offset of the last leaf used ([seq_text]) *)
Theorem C12_composite_sequence_exact : forall J src s0 q s t ts r,
  directive src s0 q -> s0 = Ss \/ s0 = SS -> den s t -> Forall2 den_atom (leaves s) ts ->
  prints J src [traitsOf J (VSeq s) r] (match s0 with SS => upper (seq_text q t ts) | _ => seq_text q t ts end).
Proof. exact composite_exact. Qed.
Print Assumptions C12_composite_sequence_exact.

Example C12_exact_example : seq_text (mkSpec false false false false false 5 (Some 3)) (txt "abcd") [txt "ab"; txt "cd"] = txt "    abc".
Proof. reflexivity. Qed.

(** ** C07, C08, C45: %g of decimal numbers *)

(** characters by which the field is too wide ([bg_parts], BigSpec.v): none with '#', none if all or no fraction digits are cut *)
Definition g_excess (q : fspec) (f e : Z) : Z := snd (bg_parts q f e).

(** the decimal numbers that %g does not reject (C36_overflow) *)
Definition g_range (q : fspec) (u sc : Z) : Prop :=
  bg_positional (Z.abs u) (- sc) (g_prec q) = true \/ last_exp (Z.abs u) (- sc) (g_prec q) <= 2147483648.

Theorem C07_decimal_general_notation_exact : forall J src src0 s q v u sc r,
  directive src s q -> directive src0 s (no_width q) -> s = Sg \/ s = SG -> is_decimal v u sc -> g_range q u sc ->
  exists t t0, prints J src [traitsOf J v r] t /\ prints J src0 [traitsOf J v r] t0 /\
    0 <= g_excess q (Z.abs u) (- sc) <= zlen t0 /\ zlen t = Z.max (q_width q + g_excess q (Z.abs u) (- sc)) (zlen t0).
Proof.
  intros J src src0 s q v u sc r Hd Hd0 Hs Hv Hr. pose proof (g_prec_pos _ _ _ Hd) as HP.
  exists (cased s (b_g q (u <? 0) (Z.abs u) (- sc))), (cased s (b_g (no_width q) (u <? 0) (Z.abs u) (- sc))).
  split; [apply C36_general_notation_characterised; assumption|]. split; [apply C36_general_notation_characterised; assumption|].
  pose proof (bg_field s q (u <? 0) (Z.abs u) (- sc) ltac:(lia) HP) as F. pose proof (bg_loss q (Z.abs u) (- sc) ltac:(lia) HP) as L. split.
  - unfold g_excess. split; [lia|]. apply Z.le_trans with (zlen (fst (bg_parts q (Z.abs u) (- sc)))); [lia|]. apply bg_body_length; [lia|exact HP].
  - unfold g_excess. exact (field_len _ _ _ _ F).
Qed.
Print Assumptions C07_decimal_general_notation_exact.

Theorem C08_decimal_general_notation_exact : forall J src src0 s q v u sc r,
  directive src s q -> directive src0 s (no_width q) -> s = Sg \/ s = SG -> is_decimal v u sc -> g_range q u sc -> q_zero q = false \/ q_left q = true ->
  exists t0, prints J src0 [traitsOf J v r] t0 /\ prints J src [traitsOf J v r] (justify (widen q (g_excess q (Z.abs u) (- sc))) t0).
Proof.
  intros J src src0 s q v u sc r Hd Hd0 Hs Hv Hr Hz. pose proof (g_prec_pos _ _ _ Hd) as HP.
  exists (cased s (b_g (no_width q) (u <? 0) (Z.abs u) (- sc))). split; [apply C36_general_notation_characterised; assumption|].
  destruct (bg_field s q (u <? 0) (Z.abs u) (- sc) ltac:(lia) HP) as [F _]. unfold g_excess. rewrite <- F; [apply C36_general_notation_characterised; assumption|].
  cbn [widen q_left]. destruct Hz as [-> | ->]; [reflexivity|apply andb_false_r].
Qed.
Print Assumptions C08_decimal_general_notation_exact.

Theorem C45_decimal_general_notation_exact : forall J src src0 s q v u sc r,
  directive src s q -> directive src0 s (no_width q) -> s = Sg \/ s = SG -> is_decimal v u sc -> g_range q u sc -> q_zero q = true -> q_left q = false ->
  exists body, let sg := sign_text q (u <? 0) in
    prints J src0 [traitsOf J v r] (sg ++ body) /\
    prints J src [traitsOf J v r] (sg ++ zeros (q_width q + g_excess q (Z.abs u) (- sc) - zlen (sg ++ body)) ++ body).
Proof.
  intros J src src0 s q v u sc r Hd Hd0 Hs Hv Hr Hz Hl. pose proof (g_prec_pos _ _ _ Hd) as HP.
  destruct (bg_zeros s q (u <? 0) (Z.abs u) (- sc) ltac:(lia) HP Hz Hl) as (body & E1 & E2). exists body. cbv zeta. split.
  - rewrite <- E1. apply C36_general_notation_characterised; assumption.
  - unfold g_excess. rewrite <- E2. apply C36_general_notation_characterised; assumption.
Qed.
Print Assumptions C45_decimal_general_notation_exact.

(** 100.50 with width 10: the field is 4 too wide *)
Example C07_exact_example : g_excess (mkSpec false false false false false 10 None) 10050 (-2) = 4.
Proof. reflexivity. Qed.

(** ** C32: %#g in exponent notation *)

(** normal doubles and at most 16 significant digits: exactly P digits are printed (with P = 1, without the point C prints) *)
Theorem C32_alternate_form_normal_partial : forall J src s q v b r f e S X,
  directive src s q -> s = Sg \/ s = SG -> q_alt q = true -> is_double J v b ->
  its_decimal b f e -> 2 ^ 52 <= magnitude b -> let P := g_prec q in P <= 16 -> sig_half_up (dec f e) P S X -> X < -4 \/ P <= X ->
  prints J src [traitsOf J v r] (cased s (finite_text q (b <? 0) ((if P =? 1 then decimal_text S 0 else alt_text S (P - 1)) ++ exp_text X))).
Proof. exact general_exponent. Qed.
Print Assumptions C32_alternate_form_normal_partial.

(** 16 is the limit: 2^62 + 1024, with 17 significant digits asked, is printed with 16 *)
Theorem C32_seventeen_digits_refuted :
  exists src q b, directive src Sg q /\ q_alt q = true /\ g_prec q = 17 /\ 2 ^ 52 <= magnitude b < inf_bits /\
    forall J, prints J src [traitsOf J (VDouble b) RPrimitive] (txt "4.611686018427389e+18").
Proof.
  exists (txt "%#.17g"), (mkSpec false true false false false 0 (Some 17)), 4886405595696988161.
  assert (D : directive (txt "%#.17g") Sg (mkSpec false true false false false 0 (Some 17))).
  { change (txt "%#.17g") with (pct :: txt "#" ++ [] ++ txt ".17" ++ [ch "g"]).
    is_dir (dir_text (txt "#") (mkFlags false true false false false) [] UNSET (txt ".17") 17). }
  split; [exact D|]. split; [reflexivity|]. split; [reflexivity|]. split; [vm_compute; split; [discriminate|reflexivity]|].
  intros J. assert (R : 0 < magnitude 4886405595696988161 < inf_bits) by (vm_compute; split; reflexivity).
  pose proof (printed_by 4886405595696988161 4611686018427389 3 R ltac:(vm_compute; reflexivity)) as P.
  apply (conv_prints J _ Sg _ (VDouble 4886405595696988161) 4886405595696988161 RPrimitive _ D); [unfold is_float_spec; tauto|constructor; vm_compute; split; congruence|].
  intros c F Hr Hq EF. assert (F = fmt_g c) as -> by (cbn in EF; congruence).
  destruct (fmt_g_double c 4886405595696988161 4611686018427389 3 Hr P) as (u & Eu & Du). exists u. split; [exact Eu|]. rewrite Hq in Du. exact Du.
Qed.
Print Assumptions C32_seventeen_digits_refuted.

(** ** C29: when %f misses the nearest number *)

(** the number printed is a nearest one to the value of the double unless a midpoint separates the value from its decimal *)
Theorem C29_wrong_exactly_across_a_midpoint_partial : forall J src s q v b r f e N,
  directive src s q -> s = Sf \/ s = SF -> is_double J v b -> its_decimal b f e -> let p := prec_or 6 q in half_up_at (dec f e) p N ->
  prints J src [traitsOf J v r] (cased s (finite_text q (b <? 0) (if q_alt q then alt_text N p else decimal_text N p))) /\
  (nearest_at (dval (magnitude b)) p N <-> ~ tie_between (dval (magnitude b)) (dec f e) p).
Proof.
  intros J src s q v b r f e N Hd Hs Hv Hi p HN. split; [apply (C28_fixed_notation J src s q v b r f e N); assumption|]. apply half_up_nearest. exact HN.
Qed.
Print Assumptions C29_wrong_exactly_across_a_midpoint_partial.

(** 0.15 and one fraction digit: the decimal is the midpoint 0.15, the value is below *)
Example C29_midpoint_example : tie_between (dval (magnitude 4594572339843380019)) (dec 15 (-2)) 1 /\ ~ tie_between (dval (magnitude 4594572339843380019)) (dec 15 (-2)) 2.
Proof.
  split; [exists 1; left; vm_compute; split; [reflexivity|discriminate]|].
  intros (M & H). assert (E : (dec 15 (-2) * 10 ^ 2 == 15)%Q) by reflexivity. cbv zeta in H. set (z := (dec 15 (-2) * 10 ^ 2)%Q) in *. clearbody z.
  assert (B : (149 # 10 < dval (magnitude 4594572339843380019) * 10 ^ 2)%Q) by (vm_compute; reflexivity).
  assert (C : (dval (magnitude 4594572339843380019) * 10 ^ 2 < 15)%Q) by (vm_compute; reflexivity).
  set (y := (dval (magnitude 4594572339843380019) * 10 ^ 2)%Q) in *. clearbody y.
  assert (L1 : (inject_Z 14 < inject_Z M)%Q) by (change (inject_Z 14) with 14%Q; destruct H as [[H1 H2]|[H1 H2]]; lra).
  assert (L2 : (inject_Z M < inject_Z 15)%Q) by (change (inject_Z 15) with 15%Q; destruct H as [[H1 H2]|[H1 H2]]; lra).
  rewrite <- Zlt_Qlt in L1, L2. lia.
Qed.
