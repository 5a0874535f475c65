(** C98: which calls print what C prints. *)
From Coq Require Import QArith Lqa.
From Verif Require Import Base Digits SeqM SeqSpec ContextM CompilerM GrammarSpec FormatterM MathM DecimalM BigDecM TraitsM ImplM
  FmtSpec DecSpec FloatSpec FloatQ CastP BigSpec DirSpec LoopSpec LoopP ExactSpec ScaleSpec ScaleP ValueSpec PropsValue WholeSpec CompilerP2 IntP PropsInt PropsWhole PropsFloat PropsSame DoubleP SigP
  HexP CharP ReadSpec ReadFP2 ScanP3 PortSpec PortP PortP2 PortP3 PortP4.
Open Scope Z_scope.

(** ** The texts of C *)

(** C prints something for every argument of every directive *)
Theorem C98_c_prints : forall J src s q x a, directive src s q -> means J s x a -> exists t, c_text s q a t.
Proof.
  intros J src s q x a Hd Hm. destruct (directive_bounds _ _ _ Hd) as [_ H6].
  assert (Hp : forall p, q_prec q = Some p -> 0 <= p) by (intros p E; unfold prec_or in H6; rewrite E in H6; lia).
  destruct Hm as [v z r Hs H|v n r Hs H|v c r Hs H|v u r Hs Hq H Hl|v b r Hs H Hb|v r Hs H].
  - eexists. apply ct_d. exact Hs.
  - destruct s; try discriminate Hs; eexists; [apply ct_u; reflexivity|apply ct_o; reflexivity|apply ct_x; left; reflexivity|apply ct_x; right; reflexivity].
  - eexists. apply ct_c. exact Hs.
  - eexists. apply ct_s. exact Hs.
  - destruct (Z.eq_dec (magnitude b) inf_bits) as [Ei|Ei]; [eexists; apply (ct_inf s q b (txt "inf")); auto|].
    assert (Hf : finite b) by (unfold finite; lia). pose proof (magnitude_range b Hf) as Mr. set (m := magnitude b) in *.
    assert (C : fixed_conv s = true \/ exp_conv s = true \/ general_conv s = true \/ hex_conv s = true) by (destruct s; try discriminate Hs; auto).
    assert (D : forall P, 1 <= P -> exists S X, c_digits (dval m) P S X).
    { intros P HP. destruct (Z.eq_dec m 0) as [E|E]; [exists 0, 0; left; rewrite E; split; [apply dval_0|split; reflexivity]|].
      destruct (sig_even_exists (dval m) P HP (dval_positive m ltac:(lia))) as (S & X & HS). exists S, X. right. exact HS. }
    destruct C as [C|[C|[C|C]]].
    + destruct (even_exists (dval m) (prec_or 6 q)) as [N HN]. eexists. apply (ct_f s q b N); assumption.
    + destruct (D (prec_or 6 q + 1) ltac:(lia)) as (S & X & HS). eexists. apply (ct_e s q b S X); assumption.
    + assert (G : 1 <= g_prec q) by (unfold g_prec; cbv zeta; destruct (Z.eqb_spec (prec_or 6 q) 0); lia). destruct (D (g_prec q) G) as (S & X & HS).
      assert (E : -4 <= X < g_prec q \/ ~ -4 <= X < g_prec q) by lia. destruct E as [E|E]; eexists; [apply (ct_g_fixed s q b S X)|apply (ct_g_exp s q b S X)]; assumption.
    + destruct (q_prec q) as [P|] eqn:Ep.
      * specialize (Hp P eq_refl). destruct (bin_parts m) as [c x] eqn:Eb. destruct (bin_parts_range m c x ltac:(lia) Eb) as (Rc & _). destruct (normal_parts m c x ltac:(lia) Eb) as [Nc Zx].
        pose proof (bin_parts_value m c x ltac:(lia) Eb) as V. destruct (even_of_q (dval m * 16 ^ P * 2 ^ (- x))) as (M & A & B).
        assert (Y : (dval m * 16 ^ P * 2 ^ (- x) * inject_Z (2 ^ 52) == inject_Z c * 16 ^ P)%Q).
        { change (2 ^ 52) with (16 ^ 13). rewrite two_16 by lia.
          setoid_replace (dval m * 16 ^ P * 2 ^ (- x) * 16 ^ 13)%Q with (dval m * 16 ^ 13 * 2 ^ (- x) * 16 ^ P)%Q by ring. rewrite V, <- (Qmult_assoc (inject_Z c)), <- two_add.
          replace (x + - x) with 0 by lia. change (2 ^ 0)%Q with 1%Q. ring. }
        set (y := (dval m * 16 ^ P * 2 ^ (- x))%Q) in *. pose proof (Z.pow_pos_nonneg 16 P ltac:(lia) Hp) as P16. rewrite <- two_16 in Y by exact Hp.
        assert (U : (0 <= y < inject_Z (2 * 16 ^ P))%Q).
        { assert (Y0 : (0 <= inject_Z c)%Q) by (change 0%Q with (inject_Z 0); rewrite <- Zle_Qle; lia). assert (Y1 : (inject_Z c < inject_Z (2 ^ 53))%Q) by (rewrite <- Zlt_Qlt; lia).
          assert (S0 : (0 < inject_Z (16 ^ P))%Q) by (change 0%Q with (inject_Z 0); rewrite <- Zlt_Qlt; lia).
          split; [apply (Qmult_le_r 0 y (inject_Z (2 ^ 52)) ltac:(reflexivity)); rewrite Y, Qmult_0_l; apply Qmult_le_0_compat; lra|].
          apply (Qmult_lt_r y _ (inject_Z (2 ^ 52)) ltac:(reflexivity)). rewrite Y, inject_Z_mult. setoid_replace (inject_Z 2 * inject_Z (16 ^ P) * inject_Z (2 ^ 52))%Q with (inject_Z (2 ^ 53) * inject_Z (16 ^ P))%Q.
          - apply Qmult_lt_r; assumption.
          - change (inject_Z (2 ^ 53)) with (inject_Z 2 * inject_Z (2 ^ 52))%Q. ring. }
        assert (L : 2 ^ 52 <= m -> (inject_Z (16 ^ P) <= y)%Q).
        { intros Hm. specialize (Nc Hm). apply (Qmult_le_r _ y (inject_Z (2 ^ 52)) ltac:(reflexivity)). rewrite Y, <- !inject_Z_mult, <- Zle_Qle. nia. }
        assert (M0 : -1 < M) by (rewrite Zlt_Qlt; change (inject_Z (-1)) with (-1 # 1)%Q; lra).
        assert (M2 : M < 2 * 16 ^ P + 1) by (rewrite Zlt_Qlt, inject_Z_plus; change (inject_Z 1) with 1%Q; lra).
        eexists. apply (ct_a s q b P M x); [exact C|exact Hf|exact Ep| |split; [exact A|exact B]]. fold m. split; [exact Hp|]. split; [lia|]. split; [|exact Zx].
        intros Hm. specialize (L Hm). assert (16 ^ P < M + 1) by (rewrite Zlt_Qlt, inject_Z_plus; change (inject_Z 1) with 1%Q; lra). lia.
      * eexists. apply (a_port s q b C Hf); [rewrite Ep; exact Hp|]. cbn [departs]. intros [[F _]|[_ [[_ F]|[F _]]]]; [exact (Ei F)|congruence|congruence].
  - eexists. apply (ct_nan s q []); [exact Hs|left; reflexivity].
Qed.
Print Assumptions C98_c_prints.

(** and one text only, but for %a, infinities and NaN *)
Theorem C98_c_is_determined : forall J src s q x a t t', directive src s q -> means J s x a ->
  (forall b, a = CDouble b -> finite b /\ hex_conv s = false) -> a <> CNan -> c_text s q a t -> c_text s q a t' -> t = t'.
Proof.
  intros J src s q x a t t' Hd Hm Ha Hn H H'. destruct (directive_bounds _ _ _ Hd) as [_ H6]. assert (G1 : 1 <= g_prec q) by (unfold g_prec; cbv zeta; destruct (Z.eqb_spec (prec_or 6 q) 0); lia).
  assert (U : forall b P S X S' X', 1 <= P -> c_digits (dval (magnitude b)) P S X -> c_digits (dval (magnitude b)) P S' X' -> S = S' /\ X = X').
  { intros b P S X S' X' HP [(A & -> & ->)|A] [(B & -> & ->)|B]; [split; reflexivity|apply sig_even_pos in B; lra|apply sig_even_pos in A; lra|exact (sig_even_unique _ _ _ _ _ _ HP A B)]. }
  assert (G : forall b, a = CDouble b -> finite b) by (intros b E; apply (Ha b E)).
  destruct H as [z Hs|n Hs|n Hs|n Hs|c Hs|u Hs|b N Hs Hf HN|b S X Hs Hf HS|b S X Hs Hf HS HX|b S X Hs Hf HS HX|b P M y Hs Hf|b P M y Hs Hf|b w Hs Hi|];
    inversion H' as [z' Hs'|n' Hs'|n' Hs'|n' Hs'|c' Hs'|u' Hs'|b' N' Hs' Hf' HN' Eb|b' S' X' Hs' Hf' HS' Eb|b' S' X' Hs' Hf' HS' HX' Eb|b' S' X' Hs' Hf' HS' HX' Eb|b' P' M' y' Hs' Hf'|b' P' M' y' Hs' Hf'|b' w' Hs' Hi'|]; subst;
    try reflexivity; try (exfalso; solve [intuition discriminate|destruct s; discriminate|apply (not_inf _ (G _ eq_refl)); assumption|destruct (Ha _ eq_refl); congruence|tauto]).
  - rewrite (even_unique _ _ _ _ HN HN'). reflexivity.
  - destruct (U b (prec_or 6 q + 1) _ _ _ _ ltac:(lia) HS HS') as [-> ->]. reflexivity.
  - destruct (U b _ _ _ _ _ G1 HS HS') as [-> ->]. reflexivity.
  - destruct (U b _ _ _ _ _ G1 HS HS') as [-> ->]. contradiction.
  - destruct (U b _ _ _ _ _ G1 HS HS') as [-> ->]. contradiction.
  - destruct (U b _ _ _ _ _ G1 HS HS') as [-> ->]. reflexivity.
Qed.
Print Assumptions C98_c_is_determined.

(** ** One directive, whole calls *)

(** fast-printf prints a text of C exactly when the directive does not depart for that argument *)
Theorem C98_one_directive : forall J src s q x a t, jdk_ok J -> directive src s q -> means J s x a -> prints J src [x] t ->
  (c_text s q a t <-> ~ departs s q a).
Proof. exact one_directive. Qed.
Print Assumptions C98_one_directive.

(** a call none of whose directives departs prints what C prints, through every entry point *)
Theorem C98_portable_calls : forall J dtf src ds args, jdk_ok J -> GrammarSpec.format dtf src ds -> portable J ds args ->
  exists t, ImplM.format J ds args = Ok t /\ (forall sb target, formatInto J sb ds args target = (target ++ t, None)) /\ c_line J ds args t.
Proof.
  intros J dtf src ds args HJ F H. pose proof F as F'. apply compile_iff, compiled_sane in F'. destruct (portable_says J ds args HJ F' H) as (t & S & C).
  destruct (C74_calls_follow_the_reference J dtf src ds args t None HJ F S) as (_ & A & B). exists t. repeat split; assumption.
Qed.
Print Assumptions C98_portable_calls.

(** ** Where rounding departs, for %f *)

(** a midpoint between two texts lies between the value and its decimal, or is the value *)
Theorem C98_rounding_by_midpoints : forall s q b f e, fixed_conv s = true -> finite b -> its_digits b f e ->
  (rounds_apart s q b <-> midpoint_apart (dval (magnitude b)) (dec f e) (prec_or 6 q)).
Proof.
  intros s q b f e Hs Hf Hi. unfold rounds_apart. rewrite Hs. split.
  - intros (f' & e' & Hi' & N & M & A & B & D). destruct (digits_unique b f' e' f e Hi' Hi) as [-> ->]. exact (proj1 (apart_midpoint _ _ _ _ _ A B) D).
  - intros H. exists f, e. split; [exact Hi|]. assert (A : exists N, half_up_at (dec f e) (prec_or 6 q) N) by (eexists; apply hup_half_up; apply (its_digits_nonneg b f e Hi)). destruct A as [N A]. destruct (even_exists (dval (magnitude b)) (prec_or 6 q)) as [M B].
    exists N, M. repeat split; try assumption; try apply A; try apply B. exact (proj2 (apart_midpoint _ _ _ _ _ A B) H).
Qed.
Print Assumptions C98_rounding_by_midpoints.

(** a double equal to its decimal (every integer, every short binary fraction) departs only at exact ties below which there is an even number *)
Theorem C98_exact_decimals : forall s q b f e, fixed_conv s = true -> finite b -> its_digits b f e -> (dval (magnitude b) == dec f e)%Q ->
  (rounds_apart s q b <-> exists K, Z.even K = true /\ (dval (magnitude b) * 10 ^ prec_or 6 q == inject_Z K + (1 # 2))%Q).
Proof.
  intros s q b f e Hs Hf Hi E. rewrite (C98_rounding_by_midpoints s q b f e Hs Hf Hi). unfold midpoint_apart.
  assert (E' : (dec f e * 10 ^ prec_or 6 q == dval (magnitude b) * 10 ^ prec_or 6 q)%Q) by (rewrite E; reflexivity).
  set (d := (dec f e * 10 ^ prec_or 6 q)%Q) in *. set (x := (dval (magnitude b) * 10 ^ prec_or 6 q)%Q) in *. clearbody d x. split.
  - intros (K & [H|[H|[H G]]]); [lra|lra|]. exists K. destruct (Z.even K); [split; [reflexivity|exact H]|lra].
  - intros (K & Ek & H). exists K. right. right. rewrite Ek. split; lra.
Qed.
Print Assumptions C98_exact_decimals.

(** ** C98 is false *)

Definition fq (p : option Z) := mkSpec false false false false false 0 p.

(** the two decimals rounded in C are those of the double, not of its shortest decimal: "%.1f" of 0.15 and "%.0f" of 0.5 *)
Lemma digits_of_half : its_digits 4602678819172646912 50000000000000000 (-17).
Proof. apply digits_printed. apply printed_by; [vm_compute; split; reflexivity|vm_compute; reflexivity]. Qed.
Lemma digits_of_15 : its_digits 4594572339843380019 15000000000000000 (-17).
Proof. apply digits_printed. apply printed_by; [vm_compute; split; reflexivity|vm_compute; reflexivity]. Qed.
Lemma digits_of_e10 : its_digits 4756540486875873280 10000000000 0.
Proof. apply digits_printed. apply printed_by; [vm_compute; split; reflexivity|vm_compute; reflexivity]. Qed.

(** fast-printf prints [t], the only text of C is [u] *)
Definition instead (s : spec) (src : list Z) (q : fspec) (v : value) (a : carg) (t u : list Z) : Prop :=
  directive src s q /\ means J2 s (traitsOf J2 v RPrimitive) a /\ prints J2 src [traitsOf J2 v RPrimitive] t /\
  c_text s q a u /\ t <> u /\ forall u', c_text s q a u' -> u' <> t.

Lemma instead_of s src q v a t u : directive src s q -> means J2 s (traitsOf J2 v RPrimitive) a -> s <> St -> s <> ST ->
  shown J2 s None q (traitsOf J2 v RPrimitive) (Ok t) -> departs s q a -> c_text s q a u -> instead s src q v a t u.
Proof.
  intros Hd Hm N1 N2 Hs Hp Hu. pose proof (shown_prints J2 src s q _ t J2_ok Hd N1 N2 Hs) as Pr.
  assert (F : forall u', c_text s q a u' -> u' <> t) by (intros u' Hu' ->; exact (proj1 (one_directive J2 src s q _ a t J2_ok Hd Hm Pr) Hu' Hp)).
  split; [exact Hd|]. split; [exact Hm|]. split; [exact Pr|]. split; [exact Hu|]. split; [|exact F]. intros <-. exact (F t Hu eq_refl).
Qed.

Theorem C98_prints_like_c_refuted :
  instead Sf (txt "%.1f") (fq (Some 1)) (VDouble 4594572339843380019) (CDouble 4594572339843380019) (txt "0.2") (txt "0.1") /\
  instead Sf (txt "%.0f") (fq (Some 0)) (VDouble 4602678819172646912) (CDouble 4602678819172646912) (txt "1") (txt "0") /\
  instead Sf (txt "%f") (fq None) (VDouble inf_bits) (CDouble inf_bits) (txt "Infinity") (txt "inf") /\
  instead Sf (txt "%f") (fq None) (VDouble (inf_bits + 1)) CNan (txt "NaN") (txt "nan") /\
  instead Sa (txt "%.0a") (fq (Some 0)) (VDouble 4607182418800017408) (CDouble 4607182418800017408) (txt "0x1.0p+0") (txt "0x1p+0") /\
  instead Sg (txt "%#.1g") (mkSpec false true false false false 0 (Some 1)) (VDouble 4756540486875873280) (CDouble 4756540486875873280) (txt "1e+10") (txt "1.e+10") /\
  instead Sd (txt "% .0d") (mkSpec false false false true false 0 (Some 0)) (VInt 0) (CInt 0) [] (txt " ") /\
  instead Sx (txt "%#06x") (mkSpec false true false false true 6 None) (VInt 0) (CUns 0) (txt "  0000") (txt "000000") /\
  instead So (txt "%#.3o") (mkSpec false true false false false 0 (Some 3)) (VInt 0) (CUns 0) (txt "00") (txt "000").
Proof.
  assert (D : forall b, 0 <= b <= inf_bits + 1 -> is_double J2 (VDouble b) b) by (intros b Hb; constructor; unfold in_range; revert Hb; change (inf_bits + 1) with 9218868437227405313; change (2 ^ (64 - 1)) with 9223372036854775808; lia).
  assert (I : is_integer J2 (VInt 0) 0) by (exists (Some 32); apply ii_int; split; vm_compute; congruence).
  assert (U : is_unsigned J2 (VInt 0) 0) by (exists (Some 32), 0; split; [apply ii_int; split; vm_compute; congruence|reflexivity]).
  assert (R : forall b, 0 <= b < inf_bits -> finite b /\ magnitude b <= inf_bits) by (intros b Hb; unfold finite, magnitude; rewrite Z.mod_small; [lia|]; revert Hb; change inf_bits with 9218868437227405312; change (2 ^ 63) with 9223372036854775808; lia).
  assert (F1 : finite 4594572339843380019) by (vm_compute; reflexivity). assert (F2 : finite 4602678819172646912) by (vm_compute; reflexivity).
  assert (F3 : finite 4607182418800017408) by (vm_compute; reflexivity). assert (F4 : finite 4756540486875873280) by (vm_compute; reflexivity).
  assert (B : forall b, finite b -> magnitude b <= inf_bits) by (unfold finite; lia).
  repeat match goal with |- _ /\ _ => split end; apply instead_of; try discriminate.
  - change (txt "%.1f") with (pct :: [] ++ [] ++ txt ".1" ++ [ch "f"]). is_dir (dir_text [] noFlags [] UNSET (txt ".1") 1).
  - apply me_double; [reflexivity|apply D; vm_compute; split; congruence|apply B; exact F1].
  - refine (sh_fixed J2 Sf None _ _ _ _ _ _ _ _ digits_of_15); [reflexivity|apply D; vm_compute; split; congruence].
  - right. split; [exact F1|]. right. split; [reflexivity|]. left. exists 15000000000000000, (-17). split; [exact digits_of_15|]. exists 2, 1. split; [vm_compute; split; congruence|]. split; [|discriminate].
    split; [vm_compute; split; congruence|]. intros [H|H]; vm_compute in H; discriminate H.
  - refine (ct_f Sf (fq (Some 1)) _ 1 _ F1 _); [reflexivity|]. split; [vm_compute; split; congruence|]. intros [H|H]; vm_compute in H; discriminate H.
  - change (txt "%.0f") with (pct :: [] ++ [] ++ txt ".0" ++ [ch "f"]). is_dir (dir_text [] noFlags [] UNSET (txt ".0") 0).
  - apply me_double; [reflexivity|apply D; vm_compute; split; congruence|apply B; exact F2].
  - refine (sh_fixed J2 Sf None _ _ _ _ _ _ _ _ digits_of_half); [reflexivity|apply D; vm_compute; split; congruence].
  - right. split; [exact F2|]. right. split; [reflexivity|]. left. exists 50000000000000000, (-17). split; [exact digits_of_half|]. exists 1, 0. split; [vm_compute; split; congruence|]. split; [|discriminate].
    split; [vm_compute; split; congruence|]. reflexivity.
  - refine (ct_f Sf (fq (Some 0)) _ 0 _ F2 _); [reflexivity|]. split; [vm_compute; split; congruence|]. reflexivity.
  - change (txt "%f") with (pct :: [] ++ [] ++ [] ++ [ch "f"]). is_dir (dir_text [] noFlags [] UNSET [] UNSET).
  - apply me_double; [reflexivity|apply D; vm_compute; split; congruence|vm_compute; discriminate].
  - apply (sh_infinite J2 Sf None (fq None) (VDouble inf_bits) inf_bits); [reflexivity|apply D; vm_compute; split; congruence|reflexivity].
  - left. split; [reflexivity|]. left. reflexivity.
  - apply (ct_inf Sf (fq None) inf_bits (txt "inf")); [reflexivity|reflexivity|left; reflexivity].
  - change (txt "%f") with (pct :: [] ++ [] ++ [] ++ [ch "f"]). is_dir (dir_text [] noFlags [] UNSET [] UNSET).
  - apply me_nan; [reflexivity|]. apply in_double; vm_compute; [split; congruence|reflexivity].
  - apply (sh_nan J2 Sf None (fq None)); [reflexivity|]. apply in_double; vm_compute; [split; congruence|reflexivity].
  - left. reflexivity.
  - apply (ct_nan Sf (fq None) []); [reflexivity|left; reflexivity].
  - change (txt "%.0a") with (pct :: [] ++ [] ++ txt ".0" ++ [ch "a"]). is_dir (dir_text [] noFlags [] UNSET (txt ".0") 0).
  - apply me_double; [reflexivity|apply D; vm_compute; split; congruence|apply B; exact F3].
  - apply (sh_hexfloat J2 Sa None (fq (Some 0)) (VDouble 4607182418800017408) 4607182418800017408); [reflexivity|apply D; vm_compute; split; congruence|exact F3].
  - right. split; [exact F3|]. left. split; reflexivity.
  - apply (ct_a Sa (fq (Some 0)) 4607182418800017408 0 1 0); [reflexivity|exact F3|reflexivity| |].
    + split; [lia|]. split; [lia|]. split; [intros _; reflexivity|discriminate].
    + split; [vm_compute; split; congruence|]. intros [H|H]; vm_compute in H; discriminate H.
  - change (txt "%#.1g") with (pct :: txt "#" ++ [] ++ txt ".1" ++ [ch "g"]). is_dir (dir_text (txt "#") (mkFlags false true false false false) [] UNSET (txt ".1") 1).
  - apply me_double; [reflexivity|apply D; vm_compute; split; congruence|apply B; exact F4].
  - refine (sh_general J2 Sg None _ _ _ _ _ _ _ _ digits_of_e10); [reflexivity|apply D; vm_compute; split; congruence].
  - right. split; [exact F4|]. right. split; [reflexivity|]. right. split; [reflexivity|]. split; [reflexivity|]. exists 10000000000, 0, 1, 10. split; [exact digits_of_e10|]. split; [|split; [change (g_prec (mkSpec false true false false false 0 (Some 1))) with 1; lia|left; reflexivity]].
    exists 10, 1. split; [vm_compute; split; congruence|]. split; [vm_compute; split; congruence|]. split; [reflexivity|]. vm_compute; split; congruence.
  - refine (ct_g_exp Sg (mkSpec false true false false false 0 (Some 1)) _ 1 10 _ F4 _ _); [reflexivity| |change (g_prec (mkSpec false true false false false 0 (Some 1))) with 1; lia].
    right. exists 10, 1. split; [vm_compute; split; congruence|]. split; [|split; [reflexivity|vm_compute; split; congruence]].
    split; [vm_compute; split; congruence|]. intros [H|H]; vm_compute in H; discriminate H.
  - change (txt "% .0d") with (pct :: txt " " ++ [] ++ txt ".0" ++ [ch "d"]). is_dir (dir_text (txt " ") (mkFlags false false false true false) [] UNSET (txt ".0") 0).
  - apply me_int; [reflexivity|exact I].
  - apply (sh_signed J2 Sd None (mkSpec false false false true false 0 (Some 0)) (VInt 0) 0); [reflexivity|exact I].
  - repeat split; reflexivity.
  - apply (ct_d Sd (mkSpec false false false true false 0 (Some 0)) 0). reflexivity.
  - change (txt "%#06x") with (pct :: txt "#0" ++ txt "6" ++ [] ++ [ch "x"]). is_dir (dir_text (txt "#0") (mkFlags false true false false true) (txt "6") 6 [] UNSET).
  - apply me_uns; [reflexivity|exact U].
  - apply (sh_hex J2 Sx None (mkSpec false true false false true 6 None) (VInt 0) 0); [left; reflexivity|exact U].
  - split; [reflexivity|]. split; [reflexivity|]. repeat split; vm_compute; discriminate.
  - apply (ct_x Sx (mkSpec false true false false true 6 None) 0). left; reflexivity.
  - change (txt "%#.3o") with (pct :: txt "#" ++ [] ++ txt ".3" ++ [ch "o"]). is_dir (dir_text (txt "#") (mkFlags false true false false false) [] UNSET (txt ".3") 3).
  - apply me_uns; [reflexivity|exact U].
  - apply (sh_octal J2 So None (mkSpec false true false false false 0 (Some 3)) (VInt 0) 0); [reflexivity|exact U].
  - split; [reflexivity|]. split; [reflexivity|]. discriminate.
  - apply (ct_o So (mkSpec false true false false false 0 (Some 3)) 0). reflexivity.
Qed.
Print Assumptions C98_prints_like_c_refuted.

(** 2.5 is equal to its decimal: "%.0f" rounds it apart (C prints 2), "%.2f" does not *)
Example C98_midpoint_example :
  rounds_apart Sf (fq (Some 0)) 4612811918334230528 /\ ~ rounds_apart Sf (fq (Some 2)) 4612811918334230528.
Proof.
  assert (Fi : finite 4612811918334230528) by (vm_compute; reflexivity).
  split; [apply (C98_exact_decimals Sf _ _ _ _ eq_refl Fi digits_2_5); [vm_compute; reflexivity|]; exists 2; split; vm_compute; reflexivity|].
  intros H. apply (C98_exact_decimals Sf _ _ _ _ eq_refl Fi digits_2_5) in H; [|vm_compute; reflexivity]. destruct H as (K & _ & H).
  set (y := (dval (magnitude 4612811918334230528) * 10 ^ prec_or 6 (fq (Some 2%Z)))%Q) in *. assert (E : (y == inject_Z 250)%Q) by (vm_compute; reflexivity). rewrite E in H. clear E y.
  destruct (Z_lt_le_dec K 250) as [L|L].
  - assert (G : (inject_Z (K + 1) <= inject_Z 250)%Q) by (rewrite <- Zle_Qle; lia). rewrite inject_Z_plus in G. change (inject_Z 1) with 1%Q in G. lra.
  - rewrite Zle_Qle in L. lra.
Qed.

(** a portable call: a width from an argument, a text, a double, a hexadecimal double *)
Example C98_example :
  let d := traitsOf J2 (VDouble 4612811918334230528) RPrimitive in
  let args := [traitsOf J2 (VInt (-4)) RPrimitive; traitsOf J2 (VInt 42) RPrimitive; traitsOf J2 (VStr (txt "ab")) RNull; d; d] in
  exists ds, GrammarSpec.format (fun _ => true) (txt "%*d|%s|%.2f|%a") ds /\ portable J2 ds args /\
    ImplM.format J2 ds args = Ok (txt "42  |ab|2.50|0x1.4p+1").
Proof.
  cbv zeta. eexists. split; [apply compile_iff; reflexivity|]. split; [|vm_compute; reflexivity].
  assert (Fi : finite 4612811918334230528) by (vm_compute; reflexivity).
  assert (D : is_double J2 (VDouble 4612811918334230528) 4612811918334230528) by (constructor; split; vm_compute; congruence).
  eapply po_directive.
  { apply (wi_negative J2 false 4); [apply tk_int, st_int, iv_int; split; vm_compute; congruence|lia]. }
  { apply pi_none. }
  { apply (me_int J2 Sd (VInt 42) 42); [reflexivity|]. exists (Some 32). apply ii_int. split; vm_compute; congruence. }
  { intros [H _]. discriminate H. }
  apply po_literal. eapply po_directive; [apply wi_none|apply pi_none|apply (me_str J2 Ss (VStr (txt "ab")) (txt "ab")); [reflexivity|discriminate|constructor|vm_compute; discriminate]|intros []|].
  apply po_literal. eapply po_directive; [apply wi_none|apply (pi_number J2 2); vm_compute; discriminate|apply (me_double J2 Sf (VDouble 4612811918334230528) 4612811918334230528); [reflexivity|exact D|vm_compute; discriminate]| |].
  { cbn [departs]. intros [[H _]|[_ [[H _]|[_ [H|[H _]]]]]]; [vm_compute in H; discriminate H|discriminate H| |discriminate H]. exact (proj2 C98_midpoint_example H). }
  apply po_literal. eapply po_directive; [apply wi_none|apply pi_none|apply (me_double J2 Sa (VDouble 4612811918334230528) 4612811918334230528); [reflexivity|exact D|vm_compute; discriminate]| |apply po_end].
  cbn [departs]. intros [[H _]|[_ [[_ H]|[H _]]]]; [vm_compute in H; discriminate H|discriminate H|discriminate H].
Qed.
