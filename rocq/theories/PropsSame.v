(** C65: the text depends on the number, not on the Java class that carries it. *)
From Coq Require Import QArith Qabs Qpower Lqa.
From Verif Require Import Base Digits UtilsM SeqM SeqSpec ContextM CompilerM GrammarSpec IntFormM FormatterM MathM DecimalM FPDecimalM DoubleM BigDecM RoundM TraitsM ImplM ReadSpec FmtSpec FmtP DirSpec DecSpec RoundP FloatSpec FPDecP FloatP DoubleP CastP NearP FloatQ
  FloatArgP IntP PropsInt PropsDouble PropsFloat BigSpec BigDecP BigGenP PropsBig WidthP ReadFSpec ReadFP ReadFP2 ReadFP3 ValueSpec ValueP OrderSpec OrderP PropsOrder.
Open Scope Z_scope.

(** ** Integers *)

Theorem C65_integers_agree : forall J src s q v n r v' r',
  directive src s q -> integer_conversion J s v n -> integer_conversion J s v' n ->
  exists t, prints J src [traitsOf J v r] t /\ prints J src [traitsOf J v' r'] t.
Proof.
  intros J src s q v n r v' r' Hd Hv Hv'.
  assert (U : forall T, renders J s (traitsOf J v r) T -> renders J s (traitsOf J v' r') T -> exists t, prints J src [traitsOf J v r] t /\ prints J src [traitsOf J v' r'] t).
  { intros T H H'. exists (T q). split; apply (renders_prints J src s q _ T Hd); assumption. }
  destruct Hv as [[-> Hv]|[Hs Hv]], Hv' as [[E Hv']|[Hs' Hv']]; try (subst s; destruct Hs as [Hs|[Hs|[Hs|Hs]]]; discriminate); try (destruct Hs' as [Hs'|[Hs'|[Hs'|Hs']]]; discriminate).
  - apply (U (fun q => j_d q n)); constructor; assumption.
  - destruct Hs as [Hs|[Hs|[Hs|Hs]]]; subst s;
      [apply (U (fun q => c_u q n))|apply (U (fun q => j_x q n))|apply (U (fun q => upper (j_x q n)))|apply (U (fun q => j_o q n))]; constructor; assumption.
Qed.
Print Assumptions C65_integers_agree.

(** %s and %d agree on the integer classes *)
Definition plain_integer (v : value) (z : Z) : Prop :=
  v = VByte z /\ in_range 8 z \/ v = VShort z /\ in_range 16 z \/ v = VInt z /\ in_range 32 z \/ v = VLong z /\ in_range 64 z \/ v = VBig z /\ Z.log2 (Z.abs z) < 2147483647.

Theorem C65_string_and_decimal_agree : forall J src q src' v z r,
  directive src Ss q -> directive src' Sd q -> q_plus q = false -> q_space q = false -> q_zero q = false -> q_prec q = None -> plain_integer v z ->
  zlen (dec_text z) <= int_max ->
  exists t, prints J src [traitsOf J v r] t /\ prints J src' [traitsOf J v r] t.
Proof.
  intros J src q src' v z r Hd Hd' Hp Hs Hz Hpr Hv Hl.
  assert (I1 : is_integer J v z) by (destruct Hv as [[-> H]|[[-> H]|[[-> H]|[[-> H]|[-> H]]]]]; eexists; constructor; exact H).
  assert (T1 : is_text J v (dec_text z)) by (destruct Hv as [[-> H]|[[-> H]|[[-> H]|[[-> H]|[-> H]]]]]; constructor; exact H).
  exists (c_s q (dec_text z)). split; [apply (renders_prints J src Ss q _ (fun q => c_s q (dec_text z)) Hd); constructor; assumption|].
  assert (E : c_s q (dec_text z) = j_d q z).
  { unfold c_s, j_d, d_irregular, c_d, pad_number, sign_text, int_digits, dec_text. rewrite Hpr, Hp, Hs, Hz, andb_false_r. cbn [andb]. destruct (z <? 0) eqn:E; [|rewrite Z.abs_eq by lia; reflexivity].
    rewrite Z.abs_neq by lia. reflexivity. }
  rewrite E. apply (renders_prints J src' Sd q _ (fun q => j_d q z) Hd'). constructor. exact I1.
Qed.
Print Assumptions C65_string_and_decimal_agree.

(** ** Floating-point numbers *)

(** the conversion looks at nothing but the view *)
Lemma same_conversion J src s q x x' t : directive src s q -> (forall c, formatterFor J s c x = formatterFor J s c x') -> prints J src [x] t -> prints J src [x'] t.
Proof.
  intros Hd H Ht dtf. destruct (Ht dtf) as (apps & Ec & Ef & Et). exists apps. split; [exact Ec|].
  destruct (directive_compile dtf _ _ _ Hd) as (c & Ec' & Hr & Hq & A & B & D). rewrite Ec' in Ec. assert (E : apps = [Default s c]) by congruence. subst apps.
  assert (R : forall sb target, formatInto J sb [Default s c] [x'] target = formatInto J sb [Default s c] [x] target).
  { intros sb target. unfold formatInto. cbn [run appendOne]. rewrite !(resolve_plain _ _ A B). cbn [bind]. rewrite H. reflexivity. }
  split; [|intros sb target; rewrite R; apply Et].
  rewrite <- Ef. unfold ImplM.format. cbn [run appendOne]. rewrite !(resolve_plain _ _ A B). cbn [bind]. rewrite H. reflexivity.
Qed.

(** the classes with a double view: one double, one text *)
Theorem C65_doubles_agree : forall J src s q v b r v' r' t,
  directive src s q -> is_float_spec s -> is_double J v b -> is_double J v' b ->
  prints J src [traitsOf J v r] t -> prints J src [traitsOf J v' r'] t.
Proof.
  intros J src s q v b r v' r' t Hd Hs Hv Hv'. destruct (double_view J v b r Hv) as [E _]. destruct (double_view J v' b r' Hv') as [E' _].
  apply (same_conversion J src s q _ _ t Hd). intros c.
  destruct Hs as [->|[->|[->|[->|[->|[->|[->| ->]]]]]]]; cbn [formatterFor]; unfold withFloat; rewrite E, E'; reflexivity.
Qed.
Print Assumptions C65_doubles_agree.

Lemma directive_bounds src s q : directive src s q -> 0 <= q_width q <= 65536 /\ 0 <= prec_or 6 q <= 65536.
Proof. intros Hd. destruct (directive_compile (fun _ => false) _ _ _ Hd) as (c & _ & Hr & <- & _). apply rt_bounds. exact Hr. Qed.

(** %f of a decimal number and of the double with that decimal *)
Theorem C65_double_and_decimal_agree : forall J src s q v b r f e v' u sc r',
  directive src s q -> s = Sf \/ s = SF -> is_double J v b -> its_decimal b f e -> is_decimal v' u sc -> u <> 0 \/ 0 <= sc ->
  u = 0 \/ sc - prec_or 6 q <= 646456992 -> (b <? 0) = (u <? 0) -> (dec (Z.abs u) (- sc) == dec f e)%Q ->
  exists t, prints J src [traitsOf J v r] t /\ prints J src [traitsOf J v' r'] t.
Proof.
  intros J src s q v b r f e v' u sc r' Hd Hs Hv Hi Hv' Hz Hd' Hn E.
  destruct (C34_rounding_exists u sc (prec_or 6 q)) as (N & HN). pose proof (half_up_eq _ _ _ _ E HN) as HN'.
  pose proof (C28_fixed_notation J src s q v b r f e N Hd Hs Hv Hi HN') as P. rewrite Hn in P.
  set (T := finite_text q (u <? 0) (if q_alt q then alt_text N (prec_or 6 q) else decimal_text N (prec_or 6 q))) in *.
  exists (cased s T). split; [exact P|]. apply (C34_fixed_notation_partial J src s q v' u sc r' N Hd Hs Hv' Hz Hd' HN).
  destruct (its_printed b f e Hi) as (f0 & e0 & Pr & Ed & _ & F0). destruct (directive_bounds _ _ _ Hd) as [W Pb].
  assert (EN : N = hup f0 (- (e0 + prec_or 6 q))).
  { apply (half_up_unique (dec f0 e0) (prec_or 6 q)); [apply (half_up_eq (dec f e)); assumption|apply hup_half_up; exact F0]. }
  assert (B : ndigits f0 <= 17 /\ e0 <= 292).
  { destruct Pr as [(_ & -> & ->)|[_ D]]; [split; vm_compute; discriminate|]. pose proof (do_f _ _ _ D). pose proof (do_e _ _ _ D). split; [|lia]. apply digits_len_le; lia. }
  pose proof (with_alt_short (q_alt q) f0 (- (e0 + prec_or 6 q)) (prec_or 6 q) F0 ltac:(lia)) as L. rewrite <- EN in L. unfold with_alt in L.
  fold T. unfold T. rewrite zlen_finite_text. pose proof (zlen_sign_text q (u <? 0)). lia.
Qed.
Print Assumptions C65_double_and_decimal_agree.

(** the same for %e, but for the decimals with ten digits and the exponent 9 (C35) *)
Theorem C65_double_and_decimal_agree_in_exponent_form : forall J src s q v b r f e v' u sc r' S X,
  directive src s q -> s = Se \/ s = SE -> is_double J v b -> its_decimal b f e -> 0 < magnitude b -> is_decimal v' u sc -> u <> 0 ->
  (b <? 0) = (u <? 0) -> (dec (Z.abs u) (- sc) == dec f e)%Q -> sig_half_up (dec f e) (prec_or 6 q + 1) S X ->
  ~ (X = 9 /\ kept (Z.abs u) (prec_or 6 q + 1) = 10) ->
  exists t, prints J src [traitsOf J v r] t /\ prints J src [traitsOf J v' r'] t.
Proof.
  intros J src s q v b r f e v' u sc r' S X Hd Hs Hv Hi Hm Hv' Hu Hn E HS Hk. eexists. split.
  - apply (C30_scientific_notation J src s q v b r f e S X); assumption.
  - rewrite Hn. apply (C35_scientific_notation_partial J src s q v' u sc r' S X); try assumption; [apply (sig_half_up_eq (dec f e)); [symmetry; exact E|exact HS]|].
    destruct (its_printed b f e Hi) as (f0 & e0 & Pr & Ed & _ & F0). destruct (directive_bounds _ _ _ Hd) as [W Pb].
    assert (K : 1 <= kept (Z.abs u) (prec_or 6 q + 1)) by (unfold kept; pose proof (ndigits_pos (Z.abs u) ltac:(lia)); lia).
    destruct Pr as [(M0 & _)|[_ D]]; [change (dbl_mag b) with (magnitude b) in M0; lia|]. pose proof (do_f _ _ _ D) as D1. pose proof (do_e _ _ _ D) as D2.
    assert (B : ndigits f0 <= 17) by (apply digits_len_le; lia).
    destruct (sig f0 e0 (prec_or 6 q + 1)) as [S1 X1] eqn:Es. pose proof (sig_right f0 e0 (prec_or 6 q + 1) S1 X1 ltac:(lia) ltac:(lia) Es) as Hs1.
    destruct (sig_half_up_unique (dec f0 e0) (prec_or 6 q + 1) S X S1 X1 ltac:(lia)) as [_ ->]; [apply (sig_half_up_eq (dec f e)); assumption|exact Hs1|].
    assert (X1 <= ndigits f0 + e0) by (clear - Es; unfold FloatSpec.sig in Es; cbv zeta in Es; destruct (hup f0 _ =? _) in Es; injection Es as _ <-; lia). lia.
Qed.
Print Assumptions C65_double_and_decimal_agree_in_exponent_form.

(** every integer below 2^53 is a double *)
Lemma small_integer_double n : 0 <= n < 2 ^ 53 -> exists b, 0 <= b < inf_bits /\ (dval b == inject_Z n)%Q.
Proof.
  intros Hn. destruct (Z.eq_dec n 0) as [->|N0]; [exists 0; split; [split; reflexivity || discriminate|reflexivity]|].
  assert (L : 2 ^ Z.log2 n <= n < 2 ^ (Z.log2 n + 1)) by (apply Z.log2_spec; lia). pose proof (Z.log2_nonneg n) as L0. set (k := Z.log2 n) in *. clearbody k.
  assert (K : k <= 52). { destruct (Z_le_gt_dec k 52) as [K|K]; [exact K|]. assert (2 ^ 53 <= 2 ^ k) by (apply Z.pow_le_mono_r; lia). lia. }
  assert (M : 2 ^ 52 <= n * 2 ^ (52 - k) < 2 ^ 53).
  { assert (P : 0 < 2 ^ (52 - k)) by (apply Z.pow_pos_nonneg; lia). replace 52 with (k + (52 - k)) at 1 by lia. replace 53 with (k + 1 + (52 - k)) by lia. rewrite (Z.pow_add_r 2 k), (Z.pow_add_r 2 (k + 1)) by lia. nia. }
  set (m := n * 2 ^ (52 - k)) in *. exists ((k + 1022) * 2 ^ 52 + m).
  assert (D : ((k + 1022) * 2 ^ 52 + m) / 2 ^ 52 = k + 1023) by (symmetry; apply (Z.div_unique _ _ _ (m - 2 ^ 52)); lia).
  assert (R : ((k + 1022) * 2 ^ 52 + m) mod 2 ^ 52 = m - 2 ^ 52) by (symmetry; apply (Z.mod_unique _ _ (k + 1023)); lia).
  split; [unfold inf_bits; lia|]. unfold dval. rewrite D, R. replace (k + 1023 =? 0) with false by lia. replace (2 ^ 52 + (m - 2 ^ 52)) with m by lia.
  unfold m. rewrite inject_Z_mult, two_Z by lia. rewrite <- Qmult_assoc, <- two_add. replace (52 - k + (k + 1023 - 1075)) with 0 by lia. ring.
Qed.

Lemma nearest_small z b : - 2 ^ 53 < z < 2 ^ 53 -> nearest_double (inject_Z z) b ->
  finite b /\ (b <? 0) = (z <? 0) /\ (dval (magnitude b) == inject_Z (Z.abs z))%Q.
Proof.
  intros Hz (Hr & Hm & H). destruct (small_integer_double (Z.abs z) ltac:(lia)) as (c & Hc & Ec).
  assert (Q0 : forall x, (rounds_to x (magnitude b) -> x == inject_Z (Z.abs z) -> dval (magnitude b) == inject_Z (Z.abs z))%Q).
  { intros x R E. destruct (R c ltac:(lia)) as [R1 _]. rewrite Ec, E in R1. setoid_replace (inject_Z (Z.abs z) - inject_Z (Z.abs z))%Q with 0%Q in R1 by ring.
    change (Qabs 0) with 0%Q in R1. apply Qabs_Qle_condition in R1. lra. }
  assert (Fi : (dval (magnitude b) == inject_Z (Z.abs z))%Q -> finite b).
  { intros E. unfold finite. destruct (Z.eq_dec (magnitude b) inf_bits) as [F|F]; [|lia]. exfalso. rewrite F, <- Ec in E. pose proof (dval_lt c inf_bits ltac:(lia)). lra. }
  destruct H as [[E B]|[(G & B & R)|(G & B & R)]].
  - assert (z = 0) by (change 0%Q with (inject_Z 0) in E; rewrite inject_Z_injective in E; exact E). subst z b. split; [reflexivity|]. split; [reflexivity|]. reflexivity.
  - change 0%Q with (inject_Z 0) in G. rewrite <- Zlt_Qlt in G. assert (V := Q0 _ R ltac:(rewrite Z.abs_eq by lia; reflexivity)). split; [auto|]. split; [lia|exact V].
  - change 0%Q with (inject_Z 0) in G. rewrite <- Zlt_Qlt in G. assert (V := Q0 _ R ltac:(rewrite <- inject_Z_opp, Z.abs_neq by lia; reflexivity)). split; [auto|]. split; [lia|exact V].
Qed.

(** %f of an integer below 2^53: the primitive classes go by way of a double, BigInteger does not *)
Theorem C65_small_integers_agree : forall J src s q v z r r',
  directive src s q -> s = Sf \/ s = SF -> - 2 ^ 53 < z < 2 ^ 53 ->
  v = VByte z /\ in_range 8 z \/ v = VShort z /\ in_range 16 z \/ v = VInt z /\ in_range 32 z \/ v = VLong z ->
  exists t, prints J src [traitsOf J v r] t /\ prints J src [traitsOf J (VBig z) r'] t.
Proof.
  intros J src s q v z r r' Hd Hs Hz Hv. destruct (long_nearest z ltac:(unfold in_range; lia)) as (b & Hb).
  assert (Dv : is_double J v b) by (destruct Hv as [[-> H]|[[-> H]|[[-> H]| ->]]]; constructor; try assumption; unfold in_range; lia).
  destruct (nearest_small z b Hz Hb) as (Hf & Hs' & Ev). destruct (every_finite_double_has_a_decimal b Hf) as (f & e & Hi).
  apply (C65_double_and_decimal_agree J src s q v b r f e (VBig z) z 0 r'); try assumption; [|lia|pose proof (directive_bounds _ _ _ Hd); lia|].
  - constructor. split; [|lia]. destruct (Z.eq_dec z 0) as [->|Z0]; [reflexivity|]. apply Z.le_lt_trans with 53; [|reflexivity]. rewrite <- (Z.log2_pow2 53) by lia. apply Z.log2_le_mono. lia.
  - rewrite (integer_exact b f e (Z.abs z) Hi ltac:(lia) Ev), Ev. unfold dec. change (10 ^ (- 0))%Q with 1%Q. ring.
Qed.
Print Assumptions C65_small_integers_agree.

(** Above 2^53 the long is rounded to a double first. *)
Theorem C65_large_integers_refuted :
  exists src q z, directive src Sf q /\ in_range 64 z /\ forall J r,
    prints J src [traitsOf J (VLong z) r] (txt "9007199254740992") /\ prints J src [traitsOf J (VBig z) r] (txt "9007199254740993").
Proof.
  exists (txt "%.0f"), (mkSpec false false false false false 0 (Some 0)), 9007199254740993.
  assert (D : directive (txt "%.0f") Sf (mkSpec false false false false false 0 (Some 0))).
  { change (txt "%.0f") with (pct :: [] ++ [] ++ txt ".0" ++ [ch "f"]). is_dir (dir_text [] (mkFlags false false false false false) [] UNSET (txt ".0") 0). }
  split; [exact D|]. split; [unfold in_range; lia|]. intros J r. split.
  - set (b := 4845873199050653696). assert (R : 0 < magnitude b < inf_bits) by (vm_compute; split; reflexivity).
    destruct (printed_by b 9007199254740992 0 R ltac:(vm_compute; reflexivity)) as [(Z0 & _)|[_ P]]; [discriminate|].
    assert (Dv : is_double J (VLong 9007199254740993) b).
    { constructor; [unfold in_range; lia|]. change b with (ofLong 9007199254740993). apply ofLong_nearest. lia. }
    apply (C28_fixed_notation J _ Sf _ _ b r 9007199254740992 0 9007199254740992 D); [auto|exact Dv|right; split; [exact R|apply (do_right _ _ _ P)]|].
    vm_compute. split; congruence.
  - apply (C34_fixed_notation_partial J _ Sf _ (VBig 9007199254740993) 9007199254740993 0 r 9007199254740993 D); [auto|constructor; split; [reflexivity|lia]|lia|right; apply Z.leb_le; reflexivity| |reflexivity].
    apply (hup_half_up 9007199254740993 0 0). lia.
Qed.
Print Assumptions C65_large_integers_refuted.

Example C65_example : integer_conversion J0 Sd (VLong 7) 7 /\ integer_conversion J0 Sd (VStr (txt "7")) 7 /\ integer_conversion J0 Sx (VInt (-1)) 4294967295 /\ integer_conversion J0 Sx (VLong 4294967295) 4294967295.
Proof.
  split; [left; split; [reflexivity|]; exists (Some 64); constructor; unfold in_range; lia|].
  split; [left; split; [reflexivity|]; exists (Some 64); apply (ii_chars J0 _ (txt "7")); [constructor|apply nt_plain; [discriminate|discriminate|apply dt_one; reflexivity]|unfold in_range; lia]|].
  split; right; (split; [auto|]).
  - exists (Some 32), (-1). split; [constructor; unfold in_range; lia|reflexivity].
  - exists (Some 64), 4294967295. split; [constructor; unfold in_range; lia|reflexivity].
Qed.
