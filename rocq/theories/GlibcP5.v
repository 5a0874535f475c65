(** The library of GlibcM.v prints what C prints. *)
From Coq Require Import QArith Qabs Qpower Lqa Lia.
From Verif Require Import Base Digits SeqM SeqSpec ContextM CompilerM GrammarSpec CompilerP2 FormatterM MathM DecimalM DoubleM BigDecM TraitsM ImplM ImplP
  FmtSpec FmtP DecSpec FloatSpec BigSpec DirSpec LoopSpec LoopP ExactSpec ScaleSpec ValueSpec WholeSpec PortSpec PortP RepairM RepairSpec RepairP3 GlibcM GlibcSpec GlibcP2 GlibcP3 GlibcP4.
From Verif Require PortP3 PortP4 FloatArgP.
Open Scope Z_scope.

Definition prec_at_least_0 (q : fspec) : Prop := forall p, q_prec q = Some p -> 0 <= p.
Lemma prec6 q : prec_at_least_0 q -> 0 <= prec_or 6 q.
Proof. unfold prec_or. intros H. destruct (q_prec q) as [p|] eqn:E; [apply (H p E)|lia]. Qed.
Lemma gprec q : prec_at_least_0 q -> 1 <= g_prec q.
Proof. intros H. apply prec6 in H. unfold g_prec. cbv zeta. destruct (Z.eqb_spec (prec_or 6 q) 0); lia. Qed.

Lemma not_float_other J s d q g t : float_spec s = false -> meant J s d q g (Ok t) -> meantC J s d q g (Ok t).
Proof. intros E M. apply mc_other; [intros E'; congruence|exact M]. Qed.

(** the rounded first digit of %.0a *)
Lemma digit_layout b M : finite b -> hex_even (dval (magnitude b)) 0 M (snd (bin_parts (magnitude b))) ->
  hex_layout (magnitude b) 0 M (snd (bin_parts (magnitude b))).
Proof.
  intros Hf H. destruct (first_digit b M Hf H) as [E _]. split; [lia|]. change (16 ^ 0) with 1.
  destruct (bin_parts (magnitude b)) as [c x] eqn:Eb. cbn [snd]. pose proof (PortP3.mag_cases b Hf) as Hm.
  destruct (PortP4.normal_parts (magnitude b) c x ltac:(lia) Eb) as [_ Zx].
  split; [|split; [|exact Zx]].
  - rewrite E. destruct (dbl_bexp b =? 0); [destruct (2 ^ 51 <? dbl_frac b)|destruct (2 ^ 51 <=? dbl_frac b)]; lia.
  - intros Hn. rewrite E. destruct (Z.eqb_spec (dbl_bexp b) 0) as [Z0|Z0]; [|destruct (2 ^ 51 <=? dbl_frac b); lia]. exfalso.
    unfold dbl_bexp in Z0. change (dbl_mag b) with (magnitude b) in Z0. pose proof (Z.div_le_mono (2 ^ 52) (magnitude b) (2 ^ 52) ltac:(lia) Hn) as Q1.
    change (2 ^ 52 / 2 ^ 52) with 1 in Q1. lia.
Qed.

Lemma one_text J s d q g a : c_arg J s g a -> prec_at_least_0 q -> exists t, meantC J s d q g (Ok t) /\ c_text s q a t.
Proof.
  intros [v z r Hs H|v n r Hs H|v c r Hs H|v u r Hs Hq H Hl|u t r Hs H|v b r Hs H Hb|v r Hs H] Hp.
  - exists (c_d q z). split; [apply not_float_other; [rewrite Hs; reflexivity|apply mn_signed; assumption]|apply ct_d; exact Hs].
  - destruct s; try discriminate Hs.
    + exists (c_u q n). split; [apply not_float_other; [reflexivity|apply mn_unsigned; [reflexivity|exact H]]|apply ct_u; reflexivity].
    + exists (c_o q n). split; [apply not_float_other; [reflexivity|apply mn_octal; [reflexivity|exact H]]|apply ct_o; reflexivity].
    + exists (in_case Sx (c_x q n)). split; [apply not_float_other; [reflexivity|apply mn_hex; [left; reflexivity|exact H]]|apply ct_x; left; reflexivity].
    + exists (in_case SX (c_x q n)). split; [apply not_float_other; [reflexivity|apply mn_hex; [right; reflexivity|exact H]]|apply ct_x; right; reflexivity].
  - exists (c_c q c). split; [apply not_float_other; [rewrite Hs; reflexivity|apply mn_char; assumption]|apply ct_c; exact Hs].
  - exists (c_s q u). split; [apply not_float_other; [rewrite Hs; reflexivity|]|apply ct_s; exact Hs]. subst s. apply (mn_text J Ss d q v u r); [reflexivity|exact Hq|exact H|exact Hl].
  - exists (c_s q t). split; [apply not_float_other; [rewrite Hs; reflexivity|]|apply ct_s; exact Hs]. subst s. apply (mn_seq J Ss d q u t r); [reflexivity|exact H].
  - destruct (Z.eq_dec (magnitude b) inf_bits) as [Ei|Ei].
    { eexists. split; [apply (mc_infinite J s d q v b r); assumption|apply (ct_inf s q b (txt "inf")); auto]. }
    assert (Hf : finite b) by (unfold finite; lia).
    assert (C : fixed_conv s = true \/ exp_conv s = true \/ general_conv s = true \/ hex_conv s = true) by (destruct s; try discriminate Hs; auto).
    pose proof (prec6 q Hp) as P6. pose proof (gprec q Hp) as G1. destruct C as [C|[C|[C|C]]].
    + destruct (even_exists (dval (magnitude b)) (prec_or 6 q)) as [N HN]. eexists. split; [apply (mc_fixed J s d q v b N r); assumption|apply ct_f; assumption].
    + destruct (c_digits_exist b (prec_or 6 q + 1) Hf ltac:(lia)) as (S & X & HS). eexists. split; [apply (mc_exp J s d q v b S X r); assumption|apply ct_e; assumption].
    + destruct (c_digits_exist b (g_prec q) Hf G1) as (S & X & HS). assert (E : -4 <= X < g_prec q \/ ~ -4 <= X < g_prec q) by lia.
      destruct E as [E|E]; eexists; (split; [first [apply (mc_general_fixed J s d q v b S X r); assumption|apply (mc_general_exp J s d q v b S X r); assumption]|first [apply ct_g_fixed; assumption|apply ct_g_exp; assumption]]).
    + assert (D : q_prec q = Some 0 \/ q_prec q <> Some 0) by (destruct (q_prec q) as [p|]; [destruct (Z.eq_dec p 0); [left|right]; congruence|right; discriminate]). destruct D as [D|D].
      * destruct (hex_even_exists (dval (magnitude b)) (snd (bin_parts (magnitude b)))) as [M HM]. eexists.
        split; [apply (mc_hex_digit J s d q v b M r); assumption|]. apply (ct_a s q b 0 M); try assumption. apply digit_layout; assumption.
      * eexists. split; [apply (mc_hex J s d q v b r); assumption|]. apply (PortP4.a_port s q b C Hf Hp). cbn [departs]. intros [[F _]|[_ [[_ F]|[F _]]]]; [exact (Ei F)|exact (D F)|congruence].
  - exists (in_case s (justify q (sign_text q false ++ txt "nan"))). split; [apply (mc_nan J s d q v r); assumption|].
    pose proof (ct_nan s q [] Hs (or_introl eq_refl)) as T. rewrite app_nil_r in T. exact T.
Qed.

Lemma settled_text s q a t t' : prec_at_least_0 q -> settled s a -> c_text s q a t -> c_text s q a t' -> t = t'.
Proof.
  intros Hp Ha H H'. pose proof (prec6 q Hp) as H6. pose proof (gprec q Hp) as G1.
  assert (U : forall b P S X S' X', 1 <= P -> c_digits (dval (magnitude b)) P S X -> c_digits (dval (magnitude b)) P S' X' -> S = S' /\ X = X').
  { intros b P S X S' X' HP [(A & -> & ->)|A] [(B & -> & ->)|B]; [split; reflexivity|apply sig_even_pos in B; lra|apply sig_even_pos in A; lra|exact (sig_even_unique _ _ _ _ _ _ HP A B)]. }
  destruct H as [z Hs|n Hs|n Hs|n Hs|c Hs|u Hs|b N Hs Hf HN|b S X Hs Hf HS|b S X Hs Hf HS HX|b S X Hs Hf HS HX|b P M y Hs Hf|b P M y Hs Hf|b w Hs Hi|];
    inversion H' as [z' Hs'|n' Hs'|n' Hs'|n' Hs'|c' Hs'|u' Hs'|b' N' Hs' Hf' HN' Eb|b' S' X' Hs' Hf' HS' Eb|b' S' X' Hs' Hf' HS' HX' Eb|b' S' X' Hs' Hf' HS' HX' Eb|b' P' M' y' Hs' Hf'|b' P' M' y' Hs' Hf'|b' w' Hs' Hi'|]; subst; cbn [settled] in Ha;
    try reflexivity; try contradiction; try (exfalso; destruct Ha as [Ha Ha2]; unfold finite in Ha; solve [congruence|lia|destruct s; discriminate]); try (exfalso; solve [intuition discriminate|destruct s; discriminate]).
  - rewrite (even_unique _ _ _ _ HN HN'). reflexivity.
  - destruct (U b (prec_or 6 q + 1) _ _ _ _ ltac:(lia) HS HS') as [-> ->]. reflexivity.
  - destruct (U b _ _ _ _ _ G1 HS HS') as [-> ->]. reflexivity.
  - destruct (U b _ _ _ _ _ G1 HS HS') as [-> ->]. contradiction.
  - destruct (U b _ _ _ _ _ G1 HS HS') as [-> ->]. contradiction.
  - destruct (U b _ _ _ _ _ G1 HS HS') as [-> ->]. reflexivity.
Qed.

Lemma asked_prec0 J fl l w' p a1 p' rest : prec_meant J p a1 (Ok (p', rest)) -> prec_at_least_0 (asked fl l w' p').
Proof. intros H n. unfold asked. cbn [q_prec]. inversion H; subst; intros E; try discriminate E; injection E as <-; lia. Qed.

Lemma c_able_means J ds args : c_able J ds args -> exists t, meansC J ds args t None /\ c_call J any ds args t.
Proof.
  intros H. induction H as [args|t ds args H IH|s fl w p d args l w' a1 p' x rest a ds Hw Hp Ha H IH].
  - exists []. split; constructor.
  - destruct IH as (u & A & B). exists (t ++ u). split; [|constructor; exact B]. apply (mk_piece J (Fixed t) ds args t args u None); [constructor|exact A].
  - destruct IH as (u & A & B). destruct (one_text J s d (asked fl l w' p') x a Ha (asked_prec0 J fl l w' p a1 p' _ Hp)) as (t & M & T). exists (t ++ u). split.
    + apply (mk_piece J _ ds args t rest u None); [|exact A]. apply (pc_shown J s fl w p d args l w' a1 p' x rest t); assumption.
    + apply (cc_directive J any s fl w p d args l w' a1 p' x rest a t ds u); try assumption. exact I.
Qed.

Lemma settled_means J ds args t : c_call J settled ds args t -> meansC J ds args t None.
Proof.
  intros H. induction H as [args|t ds args u H IH|s fl w p d args l w' a1 p' x rest a t ds u Hw Hp Ha Hs Ht H IH].
  - constructor.
  - apply (mk_piece J (Fixed t) ds args t args u None); [constructor|exact IH].
  - pose proof (asked_prec0 J fl l w' p a1 p' _ Hp) as P0. destruct (one_text J s d (asked fl l w' p') x a Ha P0) as (t' & M & T).
    rewrite (settled_text s _ a t t' P0 Hs Ht T). apply (mk_piece J _ ds args t' rest u None); [|exact IH]. apply (pc_shown J s fl w p d args l w' a1 p' x rest t'); assumption.
Qed.
