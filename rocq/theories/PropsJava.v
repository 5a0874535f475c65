(** C99: which calls print what String.format prints. *)
From Coq Require Import QArith Lqa.
From Verif Require Import Base Digits SeqM SeqSpec ContextM CompilerM GrammarSpec FormatterM MathM DecimalM BigDecM TraitsM ImplM
  FmtSpec DecSpec FloatSpec FloatQ CastP BigSpec BigDecP FPDecP PropsBig DirSpec LoopSpec LoopP ExactSpec ScaleSpec ScaleP ValueSpec PropsValue WholeSpec CompilerP2 IntP PropsInt PropsWhole PropsFloat PropsSame DoubleP SigP
  HexP CharP ReadSpec ReadFP2 ScanP3 PortSpec PortP PortP2 PortP3 PortP4 PropsPort JavaSpec JavaP JavaP2 JavaP3.
Open Scope Z_scope.

(** ** The texts of Java *)

(** the directives compared are among those of fast-printf *)
Theorem C99_shared_syntax : forall dtf src, (forall s q, java_directive src s q -> directive src s q) /\ (forall ds, java_format src ds -> GrammarSpec.format dtf src ds).
Proof. intros dtf src. split; [intros s q H; apply java_directive_is; exact H|apply java_format_is]. Qed.
Print Assumptions C99_shared_syntax.

(** Java prints something for every argument it takes *)
Theorem C99_java_prints : forall up J src s q v, jdk_ok J -> java_directive src s q -> java_value v -> takes s v -> compared s q v -> legal s (is_big v) q ->
  exists t, java_text up J s q (Some v) t.
Proof.
  intros up J src s q v HJ Hd Hv Ht Hc Hl. apply java_directive_is in Hd as [Hd Hs]. destruct (directive_bounds _ _ _ Hd) as [[Bw _] [B6 _]].
  destruct (besides up J s q v RNull HJ Hs Bw B6 Hv Ht Hc Hl) as (_ & U & _ & H & _). exists U. apply jt_value; assumption.
Qed.
Print Assumptions C99_java_prints.

(** and one text only *)
Theorem C99_java_is_determined : forall up J src s q x t t', java_directive src s q -> (forall v, x = Some v -> compared s q v) ->
  java_text up J s q x t -> java_text up J s q x t' -> t = t'.
Proof.
  intros up J src s q x t t' Hd Hc H H'. apply java_directive_is in Hd as [Hd _]. destruct (directive_bounds _ _ _ Hd) as [_ [B6 _]].
  destruct H as [Hl|v t Ht Hl H]; inversion H' as [|v' u Ht' Hl' Hu]; subst; [reflexivity|]. exact (value_text_unique up J s q v t t' B6 Ht (Hc v eq_refl) H Hu).
Qed.
Print Assumptions C99_java_is_determined.

(** ** One directive, whole calls *)

(** fast-printf prints the text of Java exactly when the directive does not differ for that argument *)
Theorem C99_one_directive : forall up J src s q v r, jdk_ok J -> java_directive src s q -> java_value v -> takes s v -> compared s q v -> legal s (is_big v) q ->
  ((exists t, prints J src [traitsOf J v r] t /\ java_text up J s q (Some v) t) <-> ~ value_differs up J s q v).
Proof. exact one_directive_java. Qed.
Print Assumptions C99_one_directive.

(** null: the same under %s and %S; elsewhere Java prints "null" and fast-printf throws *)
Theorem C99_null : forall up J src s q, jdk_ok J -> java_directive src s q -> legal s true q ->
  java_text up J s q None (in_case s (justify q (cut q (txt "null")))) /\
  (text_conv s = true -> prints J src [nullTraits] (in_case s (justify q (cut q (txt "null"))))) /\
  (text_conv s = false -> forall t, ~ prints J src [nullTraits] t).
Proof.
  intros up J src s q HJ Hd Hl. apply java_directive_is in Hd as [Hd Hs]. destruct (java_spec s Hs) as (N1 & N2 & _). split; [apply jt_null; exact Hl|]. split; intros Ht.
  - apply (shown_prints J src s q _ _ HJ Hd N1 N2). exact (sh_null_text J s None q Ht).
  - intros t. apply (shown_silent J src s q nullTraits (Printf BadConversion) t HJ Hd N1 N2). apply sh_null. clear - Hs Ht. destruct s; try discriminate Ht; cbn in Hs; auto; exfalso; intuition discriminate.
Qed.
Print Assumptions C99_null.

(** a call none of whose directives differs prints what Java prints, through every entry point *)
Theorem C99_same_calls : forall up J dtf src ds vals args, jdk_ok J -> java_format src ds -> alike_calls up J ds vals -> Forall2 (wraps J) vals args ->
  exists t, compile dtf src = Ok ds /\ ImplM.format J ds args = Ok t /\ (forall sb target, formatInto J sb ds args target = (target ++ t, None)) /\ java_line up J ds vals t.
Proof.
  intros up J dtf src ds vals args HJ F Ha Hx. destruct (alike_says up J src ds vals args HJ F Ha Hx) as (t & S & C). apply (java_format_is dtf) in F.
  destruct (C74_calls_follow_the_reference J dtf src ds args t None HJ F S) as (K & A & B). exists t. repeat split; try assumption.
Qed.
Print Assumptions C99_same_calls.

(** ** Conversions that never differ *)

(** integers under %d, texts under %s, BigDecimals of scale 0 and above under %f, finite floats and doubles under %f, %e and %E;
    octal and hexadecimal digits of int and long without '#'; characters given as such *)
Theorem C99_never_differ : forall up J s q v, takes s v ->
  match s with
  | Sd | Ss => True
  | So | Sx | SX => is_big v = false /\ (q_alt q = false \/ ~ is_zero v)
  | Sc => match v with VInt z => z <= 65535 | _ => True end
  | Sf | Se | SE => match v with VDec (mkBD u sc) => s = Sf /\ 0 <= sc | _ => forall b, is_double J v b -> magnitude b <> inf_bits end
  | _ => False
  end -> ~ value_differs up J s q v.
Proof.
  intros up J s q v Ht H D.
  assert (I : (forall b, is_double J v b -> magnitude b <> inf_bits) -> ~ infinity_differs J q v) by (intros G (b & B & E & _); exact (G b B E)).
  destruct s; try contradiction; cbn [value_differs] in D.
  1-3: destruct D as [_ [[A B]|A]]; [destruct H as [_ [H|H]]; [congruence|exact (H B)]|destruct v; try contradiction; destruct H; discriminate].
  all: try (destruct v; try contradiction; first [lia | destruct d; lia | destruct d; destruct H as [H _]; discriminate H | exact (I H D)]).
Qed.
Print Assumptions C99_never_differ.

(** BigDecimals under %e and %E, except zeros and where ten digits are kept *)
Theorem C99_decimal_exponents : forall up J s q u sc, exp_conv s = true -> 0 <= prec_or 6 q -> java_decimal u sc -> 0 <= sc -> u <> 0 -> kept (Z.abs u) (prec_or 6 q + 1) <> 10 ->
  ~ value_differs up J s q (VDec (mkBD u sc)).
Proof.
  intros up J s q u sc Hs H6 Hj Hsc Hu Hk D. assert (E : big_exp_differs q u sc) by (destruct s; try discriminate Hs; exact D). destruct E as [[E _]|(S & X & HS & E)]; [contradiction|].
  cbv zeta in E. destruct E as [[_ E]|E]; [contradiction|]. pose proof (big_sig u sc (prec_or 6 q + 1) S X Hu ltac:(lia) HS) as Es.
  pose proof (ndigits_tight u (proj1 Hj)) as L. destruct (ndigits_bounds (Z.abs u) ltac:(lia)) as (N1 & _).
  assert (X <= ndigits (Z.abs u)) by (unfold FloatSpec.sig in Es; cbv zeta in Es; destruct (_ =? _); injection Es as _ <-; lia). unfold kept in E. lia.
Qed.
Print Assumptions C99_decimal_exponents.

(** texts of ASCII characters under %S *)
Theorem C99_ascii_upper : forall up J q v, (forall t, Forall (fun c => 0 <= c < 128) t -> up t = map ascii_upper t) ->
  (forall t, is_text J v t -> Forall (fun c => 0 <= c < 128) t) -> ~ value_differs up J SS q v.
Proof.
  intros up J q v Hu Ha (t & T & D). apply D. rewrite Hu; [reflexivity|]. specialize (Ha t T). unfold cut. destruct (q_prec q) as [p|]; [|exact Ha].
  rewrite Forall_forall in *. intros c Hc. apply Ha. rewrite <- (firstn_skipn (Z.to_nat p) t). apply in_or_app. left. exact Hc.
Qed.
Print Assumptions C99_ascii_upper.

(** ** C99 is false *)

(** Java prints [U] only; fast-printf prints [t], or throws if there is no [t] *)
Definition java_instead (up : list Z -> list Z) (s : spec) (src : list Z) (q : fspec) (v : value) (o : option (list Z)) (U : list Z) : Prop :=
  java_directive src s q /\ java_value v /\ java_text up J2 s q (Some v) U /\ (forall U', java_text up J2 s q (Some v) U' -> U' = U) /\
  match o with Some t => prints J2 src [traitsOf J2 v RPrimitive] t /\ t <> U | None => forall t, ~ prints J2 src [traitsOf J2 v RPrimitive] t end.

Lemma java_instead_of up s src q v o U : java_directive src s q -> java_value v -> takes s v -> compared s q v -> legal s (is_big v) q -> value_text up J2 s q v U ->
  shown J2 s None q (traitsOf J2 v RPrimitive) o -> o <> Ok U -> java_instead up s src q v (match o with Ok t => Some t | Err _ => None end) U.
Proof.
  intros Hd Hv Ht Hc Hl Hu Hs Ho. pose proof (java_directive_is _ _ _ Hd) as [Hd' Hj]. destruct (java_spec s Hj) as (N1 & N2 & _).
  assert (T : java_text up J2 s q (Some v) U) by (apply jt_value; assumption).
  split; [exact Hd|]. split; [exact Hv|]. split; [exact T|]. split.
  - intros U' T'. apply (C99_java_is_determined up J2 src s q (Some v) U' U Hd); [|exact T'|exact T]. intros w E. injection E as <-. exact Hc.
  - destruct o as [t|e]; [split; [exact (shown_prints J2 src s q _ t J2_ok Hd' N1 N2 Hs)|congruence]|]. intros t. exact (shown_silent J2 src s q _ e t J2_ok Hd' N1 N2 Hs).
Qed.

(** shows that a given text is a directive both have *)
Ltac is_jdir t :=
  apply t;
  [ split; [repeat (apply NoDup_nil || apply NoDup_cons); cbn; intuition discriminate|split; [intros ? Hc; cbn in *; intuition|reflexivity]]
   | first [apply jw_none | apply jw_num; [discriminate|repeat constructor; discriminate|vm_compute; discriminate]]
   | first [apply jp_none | eapply jp_num; [repeat constructor; discriminate|vm_compute; discriminate]]
   | cbn; tauto ].

Definition altq := mkSpec false true false false false 0 None.
Definition plusq := mkSpec false false true false false 0 None.
Definition spaceq := mkSpec false false false true false 0 None.

Theorem C99_prints_like_java_refuted : forall up, (up [223] = txt "SS") ->
  java_instead up Sx (txt "%#x") altq (VInt 0) (Some (txt "0")) (txt "0x0") /\
  java_instead up So (txt "%#o") altq (VInt 0) (Some (txt "0")) (txt "00") /\
  java_instead up Sx (txt "%x") (fq None) (VBig (-255)) None (txt "-ff") /\
  java_instead up Sx (txt "%+x") plusq (VBig 255) (Some (txt "ff")) (txt "+ff") /\
  java_instead up Sc (txt "%c") (fq None) (VInt 128512) (Some [62976]) [55357; 56832] /\
  java_instead up SS (txt "%S") (fq None) (VStr [223]) (Some [223]) (txt "SS") /\
  java_instead up Sg (txt "%g") (fq None) (VDouble 4612811918334230528) (Some (txt "2.5")) (txt "2.50000") /\
  java_instead up Sa (txt "%a") (fq None) (VDouble 4607182418800017408) (Some (txt "0x1.0p+0")) (txt "0x1.0p0") /\
  java_instead up Sf (txt "% f") spaceq (VDouble inf_bits) (Some (txt "Infinity")) (txt " Infinity") /\
  java_instead up Sf (txt "%f") (fq None) (VDec (mkBD 0 (-3))) (Some (txt "0000.000000")) (txt "0.000000").
Proof.
  intros up Hup.
  assert (D : forall b, 0 <= b <= inf_bits -> is_double J2 (VDouble b) b) by (intros b Hb; constructor; unfold in_range; revert Hb; change inf_bits with 9218868437227405312; change (2 ^ (64 - 1)) with 9223372036854775808; lia).
  assert (U : is_unsigned J2 (VInt 0) 0) by (exists (Some 32), 0; split; [apply ii_int; split; vm_compute; congruence|reflexivity]).
  assert (UB : is_unsigned J2 (VBig 255) 255) by (exists None, 255; split; [apply ii_big; vm_compute; reflexivity|split; [lia|reflexivity]]).
  assert (L : forall s b q, In s java_convs -> In q [fq None; altq; plusq; spaceq] -> match s with So | Sx | SX => b = true \/ q = fq None \/ q = altq | Sf | Sa => True | _ => q = fq None end -> legal s b q).
  { intros s b q Hs Hq H. unfold legal. cbn [In java_convs] in Hs.
    repeat (destruct Hq as [<-|Hq]); try contradiction; cbn [fq altq plusq spaceq q_left q_zero q_width q_plus q_space q_alt q_prec]; (split; [intros [E|E]; discriminate E|]); (split; [intros [E _]; discriminate E|]); (split; [first [intros [E _]; discriminate E|intros [_ E]; discriminate E]|]);
      destruct s; try exact I; repeat split; try reflexivity; try discriminate H; try tauto; intros; destruct H as [H|[H|H]]; try discriminate H; congruence. }
  repeat match goal with |- _ /\ _ => split end.
  - change (Some (txt "0")) with (match (Ok (txt "0") : res (list Z)) with Ok t => Some t | Err _ => None end). apply java_instead_of; [| | | |apply L; cbn; tauto| | |discriminate].
    + change (txt "%#x") with (pct :: txt "#" ++ [] ++ [] ++ [letter Sx]). is_jdir (jd_text (txt "#") (mkFlags false true false false false) [] UNSET [] UNSET Sx).
    + split; vm_compute; congruence.
    + exact I.
    + discriminate.
    + exact (vt_x up J2 Sx altq (VInt 0) 32 0 (or_introl eq_refl) (sz_int 0)).
    + exact (sh_hex J2 Sx None altq (VInt 0) 0 RPrimitive (or_introl eq_refl) U).
  - change (Some (txt "0")) with (match (Ok (txt "0") : res (list Z)) with Ok t => Some t | Err _ => None end). apply java_instead_of; [| | | |apply L; cbn; tauto| | |discriminate].
    + change (txt "%#o") with (pct :: txt "#" ++ [] ++ [] ++ [letter So]). is_jdir (jd_text (txt "#") (mkFlags false true false false false) [] UNSET [] UNSET So).
    + split; vm_compute; congruence.
    + exact I.
    + discriminate.
    + exact (vt_o up J2 So altq (VInt 0) 32 0 eq_refl (sz_int 0)).
    + exact (sh_octal J2 So None altq (VInt 0) 0 RPrimitive eq_refl U).
  - apply (java_instead_of up Sx (txt "%x") (fq None) (VBig (-255)) (Err (Printf NegativeUnsigned)) (txt "-ff")); [| | | |apply L; cbn; tauto| | |discriminate].
    + change (txt "%x") with (pct :: [] ++ [] ++ [] ++ [letter Sx]). is_jdir (jd_text [] noFlags [] UNSET [] UNSET Sx).
    + vm_compute; reflexivity.
    + exact I.
    + discriminate.
    + exact (vt_x_big up J2 Sx (fq None) (-255) (or_introl eq_refl)).
    + apply (sh_negative J2 Sx None (fq None) (VBig (-255)) (-255) RPrimitive eq_refl); [apply ii_big; vm_compute; reflexivity|lia].
  - change (Some (txt "ff")) with (match (Ok (txt "ff") : res (list Z)) with Ok t => Some t | Err _ => None end). apply java_instead_of; [| | | |apply L; cbn; tauto| | |discriminate].
    + change (txt "%+x") with (pct :: txt "+" ++ [] ++ [] ++ [letter Sx]). is_jdir (jd_text (txt "+") (mkFlags false false true false false) [] UNSET [] UNSET Sx).
    + vm_compute; reflexivity.
    + exact I.
    + discriminate.
    + exact (vt_x_big up J2 Sx plusq 255 (or_introl eq_refl)).
    + exact (sh_hex J2 Sx None plusq (VBig 255) 255 RPrimitive (or_introl eq_refl) UB).
  - change (Some [62976]) with (match (Ok [62976] : res (list Z)) with Ok t => Some t | Err _ => None end). apply java_instead_of; [| | | |apply L; cbn; tauto| | |discriminate].
    + change (txt "%c") with (pct :: [] ++ [] ++ [] ++ [letter Sc]). is_jdir (jd_text [] noFlags [] UNSET [] UNSET Sc).
    + split; vm_compute; congruence.
    + vm_compute; split; discriminate.
    + discriminate.
    + exact (vt_code up J2 Sc (fq None) (VInt 128512) 32 128512 eq_refl (sz_int 128512)).
    + apply (sh_char J2 Sc None (fq None) (VInt 128512) 62976 RPrimitive eq_refl). apply (ic_int J2 (VInt 128512) 128512); [intros s H; inversion H|discriminate|apply iv_int; split; vm_compute; congruence].
  - change (Some [223]) with (match (Ok [223] : res (list Z)) with Ok t => Some t | Err _ => None end). apply java_instead_of; [| | | |apply L; cbn; tauto| | |discriminate].
    + change (txt "%S") with (pct :: [] ++ [] ++ [] ++ [letter SS]). is_jdir (jd_text [] noFlags [] UNSET [] UNSET SS).
    + vm_compute; discriminate.
    + exact I.
    + discriminate.
    + pose proof (vt_S up J2 SS (fq None) (VStr [223]) [223] eq_refl (it_str J2 [223])) as H. cbn [cut fq q_prec] in H. rewrite Hup in H. exact H.
    + apply (sh_text J2 SS None (fq None) (VStr [223]) [223] RPrimitive eq_refl); [discriminate|constructor|vm_compute; discriminate].
  - change (Some (txt "2.5")) with (match (Ok (txt "2.5") : res (list Z)) with Ok t => Some t | Err _ => None end). apply java_instead_of; [| | | |apply L; cbn; tauto| | |discriminate].
    + change (txt "%g") with (pct :: [] ++ [] ++ [] ++ [letter Sg]). is_jdir (jd_text [] noFlags [] UNSET [] UNSET Sg).
    + split; vm_compute; congruence.
    + exact I.
    + discriminate.
    + refine (vt_g_fixed up J2 Sg (fq None) (VDouble 4612811918334230528) 4612811918334230528 _ _ 250000 0 eq_refl (D _ _) digits_2_5 _ _); [vm_compute; split; congruence| |vm_compute; split; congruence].
      right. exists 0, 250000. split; [vm_compute; split; congruence|]. split; [vm_compute; split; congruence|]. split; [vm_compute; reflexivity|]. vm_compute. split; congruence.
    + refine (sh_general J2 Sg None _ _ _ _ _ _ _ _ digits_2_5); [reflexivity|apply D; vm_compute; split; congruence].
  - change (Some (txt "0x1.0p+0")) with (match (Ok (txt "0x1.0p+0") : res (list Z)) with Ok t => Some t | Err _ => None end). apply java_instead_of; [| | | |apply L; cbn; tauto| | |discriminate].
    + change (txt "%a") with (pct :: [] ++ [] ++ [] ++ [letter Sa]). is_jdir (jd_text [] noFlags [] UNSET [] UNSET Sa).
    + split; vm_compute; congruence.
    + exact I.
    + intros _; reflexivity.
    + refine (vt_a up J2 Sa (fq None) (VDouble 4607182418800017408) 4607182418800017408 16 1 0 eq_refl eq_refl (D _ _) _ _); [vm_compute; split; congruence|vm_compute; reflexivity|].
      split; [vm_compute; reflexivity|]. split; [lia|]. split; [left; reflexivity|]. vm_compute. split; congruence.
    + apply (sh_hexfloat J2 Sa None (fq None) (VDouble 4607182418800017408) 4607182418800017408); [reflexivity|apply D; vm_compute; split; congruence|vm_compute; reflexivity].
  - change (Some (txt "Infinity")) with (match (Ok (txt "Infinity") : res (list Z)) with Ok t => Some t | Err _ => None end). apply java_instead_of; [| | | |apply L; cbn; tauto| | |discriminate].
    + change (txt "% f") with (pct :: txt " " ++ [] ++ [] ++ [letter Sf]). is_jdir (jd_text (txt " ") (mkFlags false false false true false) [] UNSET [] UNSET Sf).
    + split; vm_compute; congruence.
    + exact I.
    + discriminate.
    + exact (vt_inf up J2 Sf spaceq (VDouble inf_bits) inf_bits eq_refl (D inf_bits ltac:(vm_compute; split; congruence)) eq_refl).
    + apply (sh_infinite J2 Sf None spaceq (VDouble inf_bits) inf_bits); [reflexivity|apply D; vm_compute; split; congruence|reflexivity].
  - change (Some (txt "0000.000000")) with (match (Ok (txt "0000.000000") : res (list Z)) with Ok t => Some t | Err _ => None end). apply java_instead_of; [| | | |apply L; cbn; tauto| | |discriminate].
    + change (txt "%f") with (pct :: [] ++ [] ++ [] ++ [letter Sf]). is_jdir (jd_text [] noFlags [] UNSET [] UNSET Sf).
    + vm_compute. repeat split; congruence.
    + cbn. split; discriminate.
    + cbn [compared]. split; [|discriminate]. intros _. split; [vm_compute; repeat split; congruence|left; reflexivity].
    + refine (vt_f_dec up J2 Sf (fq None) 0 (-3) 0 eq_refl _). vm_compute. split; congruence.
    + refine (sh_big_fixed J2 Sf None (fq None) (VDec (mkBD 0 (-3))) 0 (-3) RPrimitive eq_refl _ _ _); [vm_compute; repeat split; congruence|constructor; vm_compute; repeat split; congruence|left; reflexivity].
Qed.
Print Assumptions C99_prints_like_java_refuted.

(** BigDecimals: exponent 9, a zero, a scale out of range; the notation, the width *)
Definition field5 := mkSpec false false false false false 5 (Some 1).
Theorem C99_decimals_like_java_refuted : forall up,
  java_instead up Se (txt "%.9e") (fq (Some 9)) (VDec (mkBD 1234567890 0)) (Some (txt "1.234567890e+9")) (txt "1.234567890e+09") /\
  java_instead up Se (txt "%e") (fq None) (VDec (mkBD 0 2)) (Some (txt "0.000000e-02")) (txt "0.000000e+00") /\
  java_instead up Se (txt "%e") (fq None) (VDec (mkBD 12345678 (-2147483648))) None (txt "1.234568e+2147483655") /\
  java_instead up Sg (txt "%g") (fq None) (VDec (mkBD 9999995 1)) (Some (txt "1000000")) (txt "1.00000e+06") /\
  java_instead up Sg (txt "%5.1g") field5 (VDec (mkBD 96 3)) (Some (txt "    0.1")) (txt "  0.1").
Proof.
  intros up.
  assert (L : forall s b q, In s [Se; Sg] -> In q [fq (Some 9); fq None; field5] -> legal s b q).
  { intros s b q Hs Hq. unfold legal. cbn [In] in Hs, Hq. repeat (destruct Hq as [<-|Hq]); try contradiction; cbn [fq field5 q_left q_zero q_width q_plus q_space q_alt q_prec];
      (split; [intros [E|E]; discriminate E|]); (split; [intros [E _]; discriminate E|]); (split; [intros [E _]; discriminate E|]); (destruct Hs as [<-|[<-|[]]]; [exact I|reflexivity]). }
  assert (G : forall u sc P S X, 0 < Z.abs u -> 1 <= P -> FloatSpec.sig (Z.abs u) (- sc) P = (S, X) -> java_digits (dec (Z.abs u) (- sc)) P S X) by (intros u sc P S X H0 H1 H2; right; apply sig_right; assumption).
  assert (Jd : forall u sc, Z.abs u < 2 ^ 64 -> -2147483648 <= sc <= 2147483647 -> java_decimal u sc).
  { intros u sc H1 H2. split; [|exact H2]. destruct (Z.eq_dec (Z.abs u) 0) as [->|N]; [reflexivity|]. apply Z.lt_trans with 64; [apply Z.log2_lt_pow2; lia|reflexivity]. }
  refine (conj _ (conj _ (conj _ (conj _ _)))).
  - apply (java_instead_of up Se (txt "%.9e") (fq (Some 9)) (VDec (mkBD 1234567890 0)) (Ok (txt "1.234567890e+9")) (txt "1.234567890e+09")); [| | | |apply L; cbn; tauto| | |discriminate].
    + change (txt "%.9e") with (pct :: [] ++ [] ++ txt ".9" ++ [letter Se]). is_jdir (jd_text [] noFlags [] UNSET (txt ".9") 9 Se).
    + apply Jd; [reflexivity|lia].
    + cbn. split; discriminate.
    + cbn [compared]. split; discriminate.
    + refine (vt_e_dec up J2 Se (fq (Some 9)) 1234567890 0 1234567890 9 eq_refl _). apply G; [reflexivity|vm_compute; discriminate|vm_compute; reflexivity].
    + refine (sh_big_exp J2 Se None (fq (Some 9)) (VDec (mkBD 1234567890 0)) 1234567890 0 RPrimitive eq_refl _ _); [constructor; apply Jd; [reflexivity|lia]|vm_compute; discriminate].
  - apply (java_instead_of up Se (txt "%e") (fq None) (VDec (mkBD 0 2)) (Ok (txt "0.000000e-02")) (txt "0.000000e+00")); [| | | |apply L; cbn; tauto| | |discriminate].
    + change (txt "%e") with (pct :: [] ++ [] ++ [] ++ [letter Se]). is_jdir (jd_text [] noFlags [] UNSET [] UNSET Se).
    + apply Jd; [reflexivity|lia].
    + cbn. split; discriminate.
    + cbn [compared]. split; discriminate.
    + refine (vt_e_dec up J2 Se (fq None) 0 2 0 0 eq_refl _). left. split; [reflexivity|split; reflexivity].
    + refine (sh_big_exp J2 Se None (fq None) (VDec (mkBD 0 2)) 0 2 RPrimitive eq_refl _ _); [constructor; apply Jd; [reflexivity|lia]|vm_compute; discriminate].
  - apply (java_instead_of up Se (txt "%e") (fq None) (VDec (mkBD 12345678 (-2147483648))) (Err (OtherExn 1)) (txt "1.234568e+2147483655")); [| | | |apply L; cbn; tauto| | |discriminate].
    + change (txt "%e") with (pct :: [] ++ [] ++ [] ++ [letter Se]). is_jdir (jd_text [] noFlags [] UNSET [] UNSET Se).
    + apply Jd; [reflexivity|lia].
    + cbn. split; discriminate.
    + cbn [compared]. split; discriminate.
    + refine (vt_e_dec up J2 Se (fq None) 12345678 (-2147483648) 1234568 2147483655 eq_refl _). apply G; [reflexivity|vm_compute; discriminate|vm_compute; reflexivity].
    + refine (sh_big_exp_huge J2 Se None (fq None) (VDec (mkBD 12345678 (-2147483648))) 12345678 (-2147483648) RPrimitive eq_refl _ _); [constructor; apply Jd; [reflexivity|lia]|vm_compute; reflexivity].
  - apply (java_instead_of up Sg (txt "%g") (fq None) (VDec (mkBD 9999995 1)) (Ok (txt "1000000")) (txt "1.00000e+06")); [| | | |apply L; cbn; tauto| | |discriminate].
    + change (txt "%g") with (pct :: [] ++ [] ++ [] ++ [letter Sg]). is_jdir (jd_text [] noFlags [] UNSET [] UNSET Sg).
    + apply Jd; [reflexivity|lia].
    + cbn. split; discriminate.
    + cbn [compared]. split; [discriminate|lia].
    + refine (vt_g_dec_exp up J2 Sg (fq None) 9999995 1 100000 6 eq_refl _ _); [apply G; [reflexivity|vm_compute; discriminate|vm_compute; reflexivity]|]. change (g_prec (fq None)) with 6. lia.
    + refine (sh_big_general J2 Sg None (fq None) (VDec (mkBD 9999995 1)) 9999995 1 RPrimitive eq_refl _ _); [constructor; apply Jd; [reflexivity|lia]|left; vm_compute; reflexivity].
  - apply (java_instead_of up Sg (txt "%5.1g") field5 (VDec (mkBD 96 3)) (Ok (txt "    0.1")) (txt "  0.1")); [| | | |apply L; cbn; tauto| | |discriminate].
    + change (txt "%5.1g") with (pct :: [] ++ txt "5" ++ txt ".1" ++ [letter Sg]). is_jdir (jd_text [] noFlags (txt "5") 5 (txt ".1") 1 Sg).
    + apply Jd; [reflexivity|lia].
    + cbn. split; discriminate.
    + cbn [compared]. split; [discriminate|lia].
    + refine (vt_g_dec_fixed up J2 Sg field5 96 3 1 (-1) eq_refl _ _); [apply G; [reflexivity|vm_compute; discriminate|vm_compute; reflexivity]|]. change (g_prec field5) with 1. lia.
    + refine (sh_big_general J2 Sg None field5 (VDec (mkBD 96 3)) 96 3 RPrimitive eq_refl _ _); [constructor; apply Jd; [reflexivity|lia]|left; vm_compute; reflexivity].
Qed.
Print Assumptions C99_decimals_like_java_refuted.

(** a directive Java has no text for: %d of a char, %d with a precision, %x of an int with a sign *)
Theorem C99_java_refuses : forall up,
  (directive (txt "%d") Sd (fq None) /\ prints J2 (txt "%d") [traitsOf J2 (VChar 65) RPrimitive] (txt "65") /\ forall t, ~ java_text up J2 Sd (fq None) (Some (VChar 65)) t) /\
  (directive (txt "%.3d") Sd (fq (Some 3)) /\ prints J2 (txt "%.3d") [traitsOf J2 (VInt 5) RPrimitive] (txt "005") /\ forall t, ~ java_text up J2 Sd (fq (Some 3)) (Some (VInt 5)) t) /\
  (directive (txt "%+x") Sx plusq /\ prints J2 (txt "%+x") [traitsOf J2 (VInt 255) RPrimitive] (txt "ff") /\ forall t, ~ java_text up J2 Sx plusq (Some (VInt 255)) t).
Proof.
  intros up. repeat match goal with |- _ /\ _ => split end.
  - change (txt "%d") with (pct :: [] ++ [] ++ [] ++ [letter Sd]). is_dir (dir_text [] noFlags [] UNSET [] UNSET).
  - apply (shown_prints J2 (txt "%d") Sd (fq None)); [exact J2_ok| |discriminate|discriminate|].
    + change (txt "%d") with (pct :: [] ++ [] ++ [] ++ [letter Sd]). is_dir (dir_text [] noFlags [] UNSET [] UNSET).
    + apply (sh_signed J2 Sd None (fq None) (VChar 65) 65); [reflexivity|]. exists (Some 32). apply ii_char. lia.
  - intros t H. inversion H as [|v u Ht]; subst. exact Ht.
  - change (txt "%.3d") with (pct :: [] ++ [] ++ txt ".3" ++ [letter Sd]). is_dir (dir_text [] noFlags [] UNSET (txt ".3") 3).
  - apply (shown_prints J2 (txt "%.3d") Sd (fq (Some 3))); [exact J2_ok| |discriminate|discriminate|].
    + change (txt "%.3d") with (pct :: [] ++ [] ++ txt ".3" ++ [letter Sd]). is_dir (dir_text [] noFlags [] UNSET (txt ".3") 3).
    + apply (sh_signed J2 Sd None (fq (Some 3)) (VInt 5) 5); [reflexivity|]. exists (Some 32). apply ii_int. split; vm_compute; congruence.
  - intros t H. inversion H as [|v u Ht Hl]; subst. destruct Hl as (_ & _ & _ & _ & E). discriminate E.
  - change (txt "%+x") with (pct :: txt "+" ++ [] ++ [] ++ [letter Sx]). is_dir (dir_text (txt "+") (mkFlags false false true false false) [] UNSET [] UNSET).
  - apply (shown_prints J2 (txt "%+x") Sx plusq); [exact J2_ok| |discriminate|discriminate|].
    + change (txt "%+x") with (pct :: txt "+" ++ [] ++ [] ++ [letter Sx]). is_dir (dir_text (txt "+") (mkFlags false false true false false) [] UNSET [] UNSET).
    + apply (sh_hex J2 Sx None plusq (VInt 255) 255); [left; reflexivity|]. exists (Some 32), 255. split; [apply ii_int; split; vm_compute; congruence|reflexivity].
  - intros t H. inversion H as [|v u Ht Hl]; subst. destruct Hl as (_ & _ & _ & _ & E). destruct (E eq_refl) as [E' _]. discriminate E'.
Qed.
Print Assumptions C99_java_refuses.

(** "%-5d|%s|%.2f|%#x|%S|%%" of 42, null, 2.5, 255, "ab" *)
Example C99_example :
  let up := map ascii_upper in
  let vals := [Some (VInt 42); None; Some (VDouble 4612811918334230528); Some (VInt 255); Some (VStr (txt "ab"))] in
  let args := map (fun x => match x with Some v => traitsOf J2 v RPrimitive | None => nullTraits end) vals in
  exists ds, java_format (txt "%-5d|%s|%.2f|%#x|%S|%%") ds /\ alike_calls up J2 ds vals /\ Forall2 (wraps J2) vals args /\
    ImplM.format J2 ds args = Ok (txt "42   |null|2.50|0xff|AB|%").
Proof.
  cbv zeta. eexists. split; [|split; [|split; [repeat constructor|]]].
  - change (txt "%-5d|%s|%.2f|%#x|%S|%%") with
      (pct :: txt "-" ++ txt "5" ++ [] ++ letter Sd :: txt "|" ++ pct :: [] ++ [] ++ [] ++ letter Ss :: txt "|" ++ pct :: [] ++ [] ++ txt ".2" ++ letter Sf :: txt "|" ++
       pct :: txt "#" ++ [] ++ [] ++ letter Sx :: txt "|" ++ pct :: [] ++ [] ++ [] ++ letter SS :: txt "|" ++ pct :: pct :: []).
    assert (B : forall r ds, hd_error r = Some pct -> java_format r ds -> java_format (txt "|" ++ r) (Fixed (txt "|") :: ds)) by (intros r ds E H; apply jf_lit; [discriminate|intros [F|[]]; discriminate F|right; exact E|exact H]).
    Ltac is_jf t :=
      apply t;
      [ split; [repeat (apply NoDup_nil || apply NoDup_cons); cbn; intuition discriminate|split; [intros ? Hc; cbn in *; intuition|reflexivity]]
      | first [apply jw_none | apply jw_num; [discriminate|repeat constructor; discriminate|vm_compute; discriminate]]
      | first [apply jp_none | eapply jp_num; [repeat constructor; discriminate|vm_compute; discriminate]]
      | cbn; tauto | ].
    is_jf (jf_dir (txt "-") (mkFlags true false false false false) (txt "5") 5 [] UNSET Sd). apply B; [reflexivity|].
    is_jf (jf_dir [] noFlags [] UNSET [] UNSET Ss). apply B; [reflexivity|].
    is_jf (jf_dir [] noFlags [] UNSET (txt ".2") 2 Sf). apply B; [reflexivity|].
    is_jf (jf_dir (txt "#") (mkFlags false true false false false) [] UNSET [] UNSET Sx). apply B; [reflexivity|].
    is_jf (jf_dir [] noFlags [] UNSET [] UNSET SS). apply B; [reflexivity|]. apply jf_pct. apply jf_end.
  - assert (Ld : forall s b q, q = mkSpec true false false false false 5 None \/ q = fq None \/ q = fq (Some 2) \/ q = altq -> In s [Sd; Ss; Sf; Sx; SS] -> (s = Sd \/ s = Sx -> q_prec q = None) -> (s <> Sx -> q_alt q = false) -> legal s b q).
    { intros s b q Hq Hs Hp Ha. unfold legal. assert (E : q_plus q = false /\ q_space q = false /\ q_zero q = false) by (destruct Hq as [->|[->|[->| ->]]]; repeat split; reflexivity). destruct E as (Ep & Es & Ez).
      split; [intros [F|F]; [|congruence]; destruct Hq as [->|[->|[->| ->]]]; try discriminate F; reflexivity|]. split; [intros [_ F]; congruence|]. split; [intros [F _]; congruence|].
      destruct s; try exact I; cbn in Hs; try (exfalso; intuition discriminate); repeat split; try assumption; try (apply Ha; discriminate); apply Hp; auto. }
    assert (N : forall s q v, takes s v -> match s with Sd | Ss => True | So | Sx | SX => is_big v = false /\ (q_alt q = false \/ ~ is_zero v) | Sc => match v with VInt z => z <= 65535 | _ => True end
      | Sf | Se | SE => match v with VDec (mkBD u sc) => s = Sf /\ 0 <= sc | _ => forall b, is_double J2 v b -> magnitude b <> inf_bits end | _ => False end -> ~ value_differs (map ascii_upper) J2 s q v) by (intros; apply C99_never_differ; assumption).
    apply al_directive; [|apply al_literal; apply al_directive; [|apply al_literal; apply al_directive; [|apply al_literal; apply al_directive; [|apply al_literal; apply al_directive; [|apply al_literal; apply al_literal; apply al_end]]]]].
    + split; [split; vm_compute; congruence|]. split; [discriminate|]. split; [exact I|]. split; [(apply Ld; [first [left; reflexivity|right; left; reflexivity|right; right; left; reflexivity|right; right; right; reflexivity]|cbn; tauto|intros [F|F]; first [discriminate F|reflexivity]|intros F; first [reflexivity|contradiction F; reflexivity]])|apply N; exact I].
    + split; [reflexivity|]. (apply Ld; [first [left; reflexivity|right; left; reflexivity|right; right; left; reflexivity|right; right; right; reflexivity]|cbn; tauto|intros [F|F]; first [discriminate F|reflexivity]|intros F; first [reflexivity|contradiction F; reflexivity]]).
    + split; [split; vm_compute; congruence|]. split; [discriminate|]. split; [exact I|]. split; [(apply Ld; [first [left; reflexivity|right; left; reflexivity|right; right; left; reflexivity|right; right; right; reflexivity]|cbn; tauto|intros [F|F]; first [discriminate F|reflexivity]|intros F; first [reflexivity|contradiction F; reflexivity]]); intros [F|F]; discriminate F|]. apply N; [exact I|].
      intros b H. rewrite (double_unique J2 (VDouble 4612811918334230528) b 4612811918334230528 I H); [vm_compute; discriminate|constructor; split; vm_compute; congruence].
    + split; [split; vm_compute; congruence|]. split; [discriminate|]. split; [exact I|]. split; [(apply Ld; [first [left; reflexivity|right; left; reflexivity|right; right; left; reflexivity|right; right; right; reflexivity]|cbn; tauto|intros [F|F]; first [discriminate F|reflexivity]|intros F; first [reflexivity|contradiction F; reflexivity]])|]. apply N; [exact I|]. split; [reflexivity|right; discriminate].
    + split; [vm_compute; discriminate|]. split; [discriminate|]. split; [exact I|]. split; [(apply Ld; [first [left; reflexivity|right; left; reflexivity|right; right; left; reflexivity|right; right; right; reflexivity]|cbn; tauto|intros [F|F]; first [discriminate F|reflexivity]|intros F; first [reflexivity|contradiction F; reflexivity]]); intros [F|F]; discriminate F|]. intros (t & _ & D). apply D. reflexivity.
  - vm_compute. reflexivity.
Qed.
