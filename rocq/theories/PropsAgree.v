(** C91: the notations agree on the number. *)
From Coq Require Import QArith Qabs Qpower Lqa.
From Verif Require Import Base Digits UtilsM SeqM SeqSpec ContextM CompilerM GrammarSpec IntFormM FormatterM MathM DecimalM FPDecimalM DoubleM BigDecM RoundM TraitsM ImplM
  ReadSpec FmtSpec FmtP DirSpec DecSpec RoundP FloatSpec FPDecP FloatP DoubleP CastP NearP FloatQ FloatArgP IntP PropsInt PropsDouble PropsFloat BigSpec BigDecP BigGenP PropsBig WidthP
  ReadFSpec ReadFP ReadFP2 ReadFP3 PropsRead BigReadP PropsBigRead.
Open Scope Z_scope.

(** the last digit that the conversion keeps of [y] > 0 stands for 10^-k *)
Definition keeps_up_to (s : spec) (q : fspec) (y : Q) (k : Z) : Prop :=
  match s with
  | Sf | SF => k = prec_or 6 q
  | Se | SE => exists X, (10 ^ X <= y < 10 ^ (X + 1))%Q /\ k = prec_or 6 q - X
  | Sg | SG => exists X, (10 ^ X <= y < 10 ^ (X + 1))%Q /\ k = g_prec q - 1 - X
  | _ => False
  end.

(** the argument stands for the decimal [y] with a sign: a BigDecimal or BigInteger is one (so short that %f can write it out), a
    double is printed by way of its shortest decimal *)
Definition a_decimal (J : jdk) (s : spec) (v : value) (neg : bool) (y : Q) : Prop :=
  (exists b f e, is_double J v b /\ its_decimal b f e /\ neg = (b <? 0) /\ (y == dec f e)%Q) \/
  (exists u sc, is_decimal v u sc /\ fits s u sc /\ neg = (u <? 0) /\ (y == dec (Z.abs u) (- sc))%Q).

Lemma a_decimal_reads J src s q v neg y r x t : directive src s q -> decimal_spec s -> a_decimal J s v neg y -> rounded s q y x ->
  prints J src [traitsOf J v r] t -> reads_as t neg x.
Proof.
  intros Hd Hs [(b & f & e & Hv & Hi & -> & Ey)|(u & sc & Hv & Hf & -> & Ey)] Hx Ht.
  - apply (C55_text_is_the_rounded_number J src s q v b r f e x t); try assumption. apply (rounded_eq s q y); assumption.
  - apply (C64_text_is_the_rounded_number J src s q v u sc r x t); try assumption. apply (rounded_eq s q y); assumption.
Qed.
Lemma a_decimal_rounds J src s q v neg y : directive src s q -> decimal_spec s -> a_decimal J s v neg y -> exists x, rounded s q y x.
Proof.
  intros Hd Hs [(b & f & e & Hv & Hi & -> & Ey)|(u & sc & Hv & Hf & -> & Ey)].
  - destruct (rounded_exists s q f e Hs (its_nonneg _ _ _ Hi) (prec_nonneg _ _ _ Hd)) as (x & Hx). exists x. apply (rounded_eq s q (dec f e)); [symmetry|]; assumption.
  - destruct (rounded_exists s q (Z.abs u) (- sc) Hs ltac:(lia) (prec_nonneg _ _ _ Hd)) as (x & Hx). exists x. eapply rounded_eq; [symmetry; exact Ey|exact Hx].
Qed.
Lemma rounded_at s q y x k : (0 < y)%Q -> keeps_up_to s q y k -> rounded s q y x -> exists N, half_up_at y k N /\ (x == dec N (- k))%Q.
Proof.
  intros Hy Hk Hx.
  assert (G : forall P X, (10 ^ X <= y < 10 ^ (X + 1))%Q -> k = P - 1 - X -> sig_rounded y P x -> exists N, half_up_at y k N /\ (x == dec N (- k))%Q).
  { intros P X HX -> [[Z0 _]|(S & X' & (X0 & N & D & HN & E & _) & Ex)]; [lra|]. pose proof (decade_unique _ _ _ HX D) as <-.
    exists N. split; [exact HN|]. rewrite Ex, E. replace (- (P - 1 - X)) with (X - P + 1) by lia. reflexivity. }
  destruct s; cbn [keeps_up_to rounded] in *; try contradiction; try (subst k; exact Hx);
    destruct Hk as (X & HX & Hk); eapply G; try exact Hx; try exact HX; lia.
Qed.
Lemma rounded_zero s q y x : (y == 0)%Q -> rounded s q y x -> (x == 0)%Q.
Proof.
  intros Hy Hx.
  assert (G : forall P, sig_rounded y P x -> (x == 0)%Q).
  { intros P [[_ H]|(S & X' & (X0 & N & [D _] & _) & _)]; [exact H|]. rewrite Hy in D. pose proof (ten_pos X0). lra. }
  assert (F : (exists N, half_up_at y (prec_or 6 q) N /\ (x == dec N (- prec_or 6 q))%Q) -> (x == 0)%Q).
  { intros (N & HN & E). assert (Z0 : half_up_at y (prec_or 6 q) 0) by (unfold half_up_at; rewrite Hy; change (inject_Z 0) with 0%Q; lra).
    rewrite (half_up_unique _ _ _ _ HN Z0) in E. rewrite E. apply dec_zero. }
  destruct s; cbn [rounded] in Hx; try contradiction; first [exact (F Hx)|exact (G _ Hx)].
Qed.

(** C91: two directives out of %f, %e and %g that keep the same digits print numerals of the same number, whatever their flags and
    widths, and even if one argument is a double and the other a BigDecimal *)
Theorem C91_notations_agree : forall J src s q v src' s' q' v' neg y r r' t t',
  directive src s q -> decimal_spec s -> directive src' s' q' -> decimal_spec s' ->
  a_decimal J s v neg y -> a_decimal J s' v' neg y ->
  ((y == 0)%Q \/ (0 < y)%Q /\ exists k, keeps_up_to s q y k /\ keeps_up_to s' q' y k) ->
  prints J src [traitsOf J v r] t -> prints J src' [traitsOf J v' r'] t' ->
  exists x, reads_as t neg x /\ reads_as t' neg x.
Proof.
  intros J src s q v src' s' q' v' neg y r r' t t' Hd Hs Hd' Hs' Hv Hv' Hk Ht Ht'.
  destruct (a_decimal_rounds J src s q v neg y Hd Hs Hv) as (x & Hx). destruct (a_decimal_rounds J src' s' q' v' neg y Hd' Hs' Hv') as (x' & Hx').
  assert (E : (x' == x)%Q).
  { destruct Hk as [Z0|[Hy (k & K & K')]]; [rewrite (rounded_zero _ _ _ _ Z0 Hx), (rounded_zero _ _ _ _ Z0 Hx'); reflexivity|].
    destruct (rounded_at s q y x k Hy K Hx) as (N & HN & ->). destruct (rounded_at s' q' y x' k Hy K' Hx') as (N' & HN' & ->).
    rewrite (half_up_unique _ _ _ _ HN HN'). reflexivity. }
  exists x. split; [exact (a_decimal_reads J src s q v neg y r x t Hd Hs Hv Hx Ht)|].
  destruct (a_decimal_reads J src' s' q' v' neg y r' x' t' Hd' Hs' Hv' Hx' Ht') as (N & k & z & R & V).
  exists N, k, z. split; [exact R|]. rewrite <- E. exact V.
Qed.
Print Assumptions C91_notations_agree.

(** C91: %e with the precision p and %g with p + 1 always do *)
Theorem C91_e_and_g_agree : forall J src s q v src' s' q' neg y r r' t t',
  directive src s q -> s = Se \/ s = SE -> directive src' s' q' -> s' = Sg \/ s' = SG -> g_prec q' = prec_or 6 q + 1 ->
  a_decimal J s v neg y -> prints J src [traitsOf J v r] t -> prints J src' [traitsOf J v r'] t' ->
  exists x, reads_as t neg x /\ reads_as t' neg x.
Proof.
  intros J src s q v src' s' q' neg y r r' t t' Hd Hs Hd' Hs' Hp Hv Ht Ht'.
  assert (D : decimal_spec s) by (unfold decimal_spec; tauto). assert (D' : decimal_spec s') by (unfold decimal_spec; tauto).
  assert (Hv' : a_decimal J s' v neg y).
  { destruct Hv as [H|(u & sc & A & _ & B)]; [left; exact H|right]. exists u, sc. split; [exact A|]. split; [destruct Hs' as [-> | ->]; exact I|exact B]. }
  apply (C91_notations_agree J src s q v src' s' q' v neg y r r' t t'); try assumption.
  destruct (a_decimal_rounds J src s q v neg y Hd D Hv) as (x & Hx).
  assert (Hx' : sig_rounded y (prec_or 6 q + 1) x) by (destruct Hs as [-> | ->]; exact Hx).
  destruct Hx' as [[Z0 _]|(S & X' & (X0 & N & K & _) & _)]; [left; exact Z0|right].
  split; [pose proof (ten_pos X0); lra|]. exists (prec_or 6 q - X0).
  split; [destruct Hs as [-> | ->]; exists X0; split; [exact K|reflexivity | exact K|reflexivity]|].
  destruct Hs' as [-> | ->]; exists X0; (split; [exact K|lia]).
Qed.
Print Assumptions C91_e_and_g_agree.

(** 1234.5 as a double and as a BigDecimal: [%.2f], [%.5E] and [%#g] keep the hundredths *)
Example C91_example :
  let qf := mkSpec false false false false false 0 (Some 2) in let qe := mkSpec false false false false false 0 (Some 5) in
  keeps_up_to Sf qf (12345 # 10) 2 /\ keeps_up_to SE qe (12345 # 10) 2 /\ keeps_up_to Sg (mkSpec false false false true false 0 None) (12345 # 10) 2 /\
  a_decimal J0 Sf (VDouble 4653144203864309760) false (12345 # 10) /\ a_decimal J0 SE (VDec (mkBD 12345 1)) false (12345 # 10) /\
  prints J0 (txt "%.2f") [traitsOf J0 (VDouble 4653144203864309760) RPrimitive] (txt "1234.50") /\
  prints J0 (txt "%.5E") [traitsOf J0 (VDec (mkBD 12345 1)) RNull] (txt "1.23450E+03") /\
  (forall t t', prints J0 (txt "%.2f") [traitsOf J0 (VDouble 4653144203864309760) RPrimitive] t ->
    prints J0 (txt "%.5E") [traitsOf J0 (VDec (mkBD 12345 1)) RNull] t' -> exists x, reads_as t false x /\ reads_as t' false x) /\
  reads_as (txt "1234.50") false (12345 # 10) /\ reads_as (txt "1.23450E+03") false (12345 # 10).
Proof.
  cbv zeta. assert (X3 : (10 ^ 3 <= 12345 # 10 < 10 ^ (3 + 1))%Q) by (vm_compute; split; congruence).
  assert (Kf : keeps_up_to Sf (mkSpec false false false false false 0 (Some 2)) (12345 # 10) 2) by reflexivity.
  assert (Ke : keeps_up_to SE (mkSpec false false false false false 0 (Some 5)) (12345 # 10) 2) by (exists 3; split; [exact X3|reflexivity]).
  assert (Kg : keeps_up_to Sg (mkSpec false false false true false 0 None) (12345 # 10) 2) by (exists 3; split; [exact X3|reflexivity]).
  assert (R : 0 < magnitude 4653144203864309760 < inf_bits) by (vm_compute; split; reflexivity).
  destruct (printed_by 4653144203864309760 12345000000000000 (-13) R ltac:(vm_compute; reflexivity)) as [(Z0 & _)|[_ P]]; [discriminate|].
  assert (Ad : a_decimal J0 Sf (VDouble 4653144203864309760) false (12345 # 10)).
  { left. exists 4653144203864309760, 12345000000000000, (-13). split; [constructor; vm_compute; split; congruence|].
    split; [right; split; [exact R|apply (do_right _ _ _ P)]|]. split; reflexivity. }
  assert (Ab : a_decimal J0 SE (VDec (mkBD 12345 1)) false (12345 # 10)).
  { right. exists 12345, 1. split; [constructor; split; [reflexivity|lia]|]. split; [exact I|]. split; reflexivity. }
  do 5 (split; [assumption|]).
  assert (Df : directive (txt "%.2f") Sf (mkSpec false false false false false 0 (Some 2))).
  { change (txt "%.2f") with (pct :: [] ++ [] ++ txt ".2" ++ [ch "f"]). is_dir (dir_text [] (mkFlags false false false false false) [] UNSET (txt ".2") 2). }
  assert (De : directive (txt "%.5E") SE (mkSpec false false false false false 0 (Some 5))).
  { change (txt "%.5E") with (pct :: [] ++ [] ++ txt ".5" ++ [ch "E"]). is_dir (dir_text [] (mkFlags false false false false false) [] UNSET (txt ".5") 5). }
  split; [|split].
  { apply (C28_fixed_notation J0 _ Sf _ _ 4653144203864309760 _ 12345000000000000 (-13) 123450 Df); [auto|constructor; vm_compute; split; congruence| |].
    - right. split; [exact R|apply (do_right _ _ _ P)].
    - vm_compute. split; congruence. }
  { apply (C35_scientific_notation_partial J0 _ SE _ (VDec (mkBD 12345 1)) 12345 1 RNull 123450 3 De); [auto|constructor; split; [reflexivity|lia]|lia| |vm_compute; congruence|lia].
    exists 3, 123450. split; [exact X3|]. split; [vm_compute; split; congruence|]. split; [reflexivity|]. vm_compute. split; congruence. }
  split; [|split; [exists 123450, 2, 0; split; reflexivity|exists 123450, 5, 3; split; reflexivity]].
  intros t t' Ht Ht'.
  apply (C91_notations_agree J0 (txt "%.2f") Sf (mkSpec false false false false false 0 (Some 2)) (VDouble 4653144203864309760)
    (txt "%.5E") SE (mkSpec false false false false false 0 (Some 5)) (VDec (mkBD 12345 1)) false (12345 # 10) RPrimitive RNull t t'); try assumption.
  - unfold decimal_spec. tauto.
  - unfold decimal_spec. tauto.
  - right. split; [reflexivity|]. exists 2. split; assumption.
Qed.
