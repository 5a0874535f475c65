(** Proofs for C99: one directive; whole calls. *)
From Coq Require Import QArith Qabs Qpower Lqa Lia.
From Verif Require Import PropsSame.
From Verif Require Import Base Digits SeqM SeqSpec ContextM CompilerM GrammarSpec FormatterM BigDecM TraitsM ImplM FmtSpec FmtP DecSpec RoundP FloatSpec BigSpec FPDecP DirSpec ScaleSpec ValueSpec WholeSpec
  ScaleP FloatQ CastP DoubleP HexP ReadSpec ReadP ReadFSpec ReadFP ReadFP2 ReadFP3 BigReadP SigP IntP ValueP WholeP LoopP CompilerP2 AgainP2 AgainP3 FloatArgP PropsFloat PropsRead PropsWhole ScanP3 PortSpec FloatP CompilerP PortP PortP2 PortP3 PortP4 JavaSpec JavaP JavaP2 JavaBigP.
Open Scope Z_scope.

(** ** Arguments *)

Lemma sized_unique v k z k' z' : sized v k z -> sized v k' z' -> k = k' /\ z = z'.
Proof. intros H H'. destruct H; inversion H'; subst; split; reflexivity. Qed.
Lemma sized_integral J v k z : java_value v -> sized v k z -> integral J v (Some k) z /\ in_range k z /\ 8 <= k <= 64.
Proof. intros Hv H. destruct H; cbn [java_value] in Hv; (split; [constructor; exact Hv|split; [exact Hv|lia]]). Qed.
Lemma sized_zero v k z : sized v k z -> (is_zero v <-> z = 0).
Proof. intros H. destruct H; reflexivity. Qed.
Lemma range_mod k z : 1 <= k -> in_range k z -> (z mod 2 ^ k = 0 <-> z = 0).
Proof.
  intros Hk R. unfold in_range in R. split; [|intros ->; apply Zmod_0_l]. intros E. assert (E2 : 2 ^ k = 2 * 2 ^ (k - 1)) by (replace k with (Z.succ (k - 1)) at 1 by lia; apply Z.pow_succ_r; lia). rewrite E2 in E.
  pose proof (Z.pow_pos_nonneg 2 (k - 1) ltac:(lia) ltac:(lia)) as P. pose proof (Z.div_mod z (2 * 2 ^ (k - 1)) ltac:(lia)) as D. rewrite E in D. generalize dependent (z / (2 * 2 ^ (k - 1))). intros d D. generalize dependent (2 ^ (k - 1)). intros p R _ _ P D. assert (d = 0) by nia. subst d. lia.
Qed.
Lemma int_args s v : In s [Sd; So; Sx; SX] -> takes s v -> (exists k z, sized v k z) \/ exists z, v = VBig z.
Proof.
  intros Hs H. assert (T : match v with VByte _ | VShort _ | VInt _ | VLong _ | VBig _ => True | _ => False end) by (destruct Hs as [<-|[<-|[<-|[<-|[]]]]]; exact H).
  destruct v; try contradiction; solve [left; eexists _, _; constructor|right; eexists; reflexivity].
Qed.
Lemma text_unique J v t t' : (forall u, v <> VSeq u) -> (forall o, v <> VObj o) -> is_text J v t -> is_text J v t' -> t = t'.
Proof. intros Nq No H H'. destruct H; inversion H'; subst; try reflexivity; exfalso; solve [eapply Nq; reflexivity|eapply No; reflexivity]. Qed.

Definition floating (v : value) : Prop := match v with VFloat _ | VDouble _ => True | _ => False end.
Lemma no_chars J v s : floating v -> ~ chars J v s.
Proof. intros H C. destruct C; exact H. Qed.
Lemma double_unique J v b b' : floating v -> is_double J v b -> is_double J v b' -> b = b'.
Proof.
  intros F H H'. destruct H; try contradiction F.
  - inversion H' as [| | | | | | | | |? ? ? C| | | |]; subst; [reflexivity|exfalso; exact (no_chars _ _ _ F C)].
  - inversion H' as [|? ? W|? E| | | | | | |? ? ? C| | | |]; subst; [exact (widened_unique _ _ _ H W)|destruct H as (L & _); lia|exfalso; exact (no_chars _ _ _ F C)].
  - inversion H' as [|? ? W|? E| | | | | | |? ? ? C| | | |]; subst; [destruct W as (L & _); lia|reflexivity|exfalso; exact (no_chars _ _ _ F C)].
  - exfalso. exact (no_chars _ _ _ F H).
Qed.
Lemma nan_double J v b : floating v -> is_nan J v -> is_double J v b -> inf_bits < magnitude b.
Proof.
  intros F H H'. destruct H; try contradiction F.
  - inversion H' as [| | | | | | | | |? ? ? C| | | |]; subst; [assumption|exfalso; exact (no_chars _ _ _ F C)].
  - exfalso. inversion H' as [|? ? W|? E| | | | | | |? ? ? C| | | |]; subst; [destruct W as (L & _); lia|lia|exact (no_chars _ _ _ F C)].
  - exfalso. exact (no_chars _ _ _ F H).
Qed.
Lemma float_args J v : floating v -> java_value v -> (exists b, is_double J v b /\ magnitude b <= inf_bits) \/ is_nan J v.
Proof.
  intros F Hv. destruct v as [|c|z|z|z|z|b|b|s|q|s|z|d|t|o]; try contradiction F; cbn [java_value] in Hv.
  - pose proof (Z.mod_pos_bound b (2 ^ 31) ltac:(lia)) as B. destruct (Z_lt_le_dec (b mod 2 ^ 31) (255 * 2 ^ 23)) as [L|L]; [|destruct (Z.eq_dec (b mod 2 ^ 31) (255 * 2 ^ 23)) as [E|E]].
    + left. pose proof (f2d_widens b L) as W. eexists. split; [apply id_float; exact W|]. destruct W as (_ & _ & Fi & _). unfold finite in Fi. lia.
    + left. eexists. split; [apply id_float_inf; exact E|]. destruct (b <? 0); vm_compute; discriminate.
    + right. apply in_float; [exact Hv|lia].
  - destruct (Z_lt_le_dec inf_bits (magnitude b)) as [L|L]; [right; apply in_double; assumption|left; exists b; split; [constructor; exact Hv|exact L]].
Qed.

(** ** What Java prints is determined *)

Section Java.
  Variable up : list Z -> list Z.
  Variable J : jdk.
  Notation value_text := (value_text up J).
  Notation value_differs := (value_differs up J).

  Lemma takes_floating s q v : float_spec s = true -> takes s v -> compared s q v -> java_value v ->
    floating v \/ exists u sc, v = VDec (mkBD u sc) /\ s <> Sa /\ s <> SA /\ java_decimal u sc /\ (s = Sf -> printable v /\ (u = 0 \/ sc - prec_or 6 q <= 646456992)) /\ (general_conv s = true -> u = 0 -> sc = 0).
  Proof.
    intros Hs Ht Hc Hv. assert (T : match v with VFloat _ | VDouble _ => True | VDec _ => s <> Sa /\ s <> SA | _ => False end) by (destruct s; try discriminate Hs; exact Ht).
    destruct v; try contradiction; [left; exact I|left; exact I|]. destruct d as [u sc]. cbn [compared] in Hc. destruct Hc as [Hc1 Hc2]. right. exists u, sc.
    split; [reflexivity|]. split; [apply T|]. split; [apply T|]. split; [exact Hv|]. split; [exact Hc1|exact Hc2].
  Qed.

  Lemma value_text_unique s q v t t' : 0 <= prec_or 6 q -> takes s v -> compared s q v -> value_text s q v t -> value_text s q v t' -> t = t'.
  Proof.
    intros H6 Ht Hc H H'. assert (G1 : 1 <= g_prec q) by (unfold g_prec; cbv zeta; destruct (Z.eqb_spec (prec_or 6 q) 0); lia).
    assert (Fl : forall b, is_double J v b -> float_spec s = true -> floating v).
    { intros b Hd Hs. assert (T : match v with VFloat _ | VDouble _ => True | VDec _ => s <> Sa /\ s <> SA | _ => False end) by (destruct s; try discriminate Hs; exact Ht).
      destruct v; try exact T. inversion Hd as [| | | | | | | | |? ? ? C| | | |]; inversion C. }
    assert (Fn : is_nan J v -> float_spec s = true -> floating v).
    { intros Hd Hs. assert (T : match v with VFloat _ | VDouble _ => True | VDec _ => s <> Sa /\ s <> SA | _ => False end) by (destruct s; try discriminate Hs; exact Ht).
      destruct v; try exact T. inversion Hd as [| |? ? ? C|]; inversion C. }
    assert (Nq : forall u, v <> VSeq u) by (intros u ->; exact Hc). assert (No : forall o, v <> VObj o) by (intros u ->; exact Hc).
    assert (Fs : exp_conv s = true \/ general_conv s = true \/ hex_conv s = true \/ s = Sf -> float_spec s = true) by (destruct s; cbn; intros [F|[F|[F|F]]]; first [reflexivity|discriminate]).
    assert (Du : forall b b', float_spec s = true -> is_double J v b -> is_double J v b' -> b = b') by (intros b b' Hs A B; exact (double_unique J v b b' (Fl b A Hs) A B)).
    assert (Ni : forall b f e, its_digits b f e -> magnitude b < inf_bits).
    { intros b f e Hi. destruct (digits_decimal _ _ _ Hi) as [[E _]|[E _]]; unfold inf_bits in *; lia. }
    assert (Nn : forall b, float_spec s = true -> is_double J v b -> is_nan J v -> inf_bits < magnitude b) by (intros b Hs A B; exact (nan_double J v b (Fl b A Hs) B A)).
    assert (Hfs : float_spec s = true \/ float_spec s = false) by (destruct (float_spec s); auto).
    destruct H as [v k z Hs Hz|z Hs|v k z Hs Hz|v k z Hs Hz|z Hs|z Hs|c Hs|v k z Hs Hz|v u Hs Hu|v u Hs Hu|v b f e N Hs Hd Hi HN|u sc N Hs HN|v b f e S X Hs Hd Hi HS|v b f e S X Hs Hd Hi HS HX|v b f e S X Hs Hd Hi HS HX|u sc S X Hs HS|u sc S X Hs HS HX|u sc S X Hs HS HX|v b M k x Hs Hp Hd Hf HM|v b Hs Hd Hi|v Hs Hn];
    inversion H' as [v' k' z' Hs' Hz'|z' Hs'|v' k' z' Hs' Hz'|v' k' z' Hs' Hz'|z' Hs'|z' Hs'|c' Hs'|v' k' z' Hs' Hz'|v' u' Hs' Hu'|v' u' Hs' Hu'|v' b' f' e' N' Hs' Hd' Hi' HN'|u' sc' N' Hs' HN'|v' b' f' e' S' X' Hs' Hd' Hi' HS'|v' b' f' e' S' X' Hs' Hd' Hi' HS' HX'|v' b' f' e' S' X' Hs' Hd' Hi' HS' HX'|u' sc' S' X' Hs' HS'|u' sc' S' X' Hs' HS' HX'|u' sc' S' X' Hs' HS' HX'|v' b' M' k' x' Hs' Hp' Hd' Hf' HM'|v' b' Hs' Hd' Hi'|v' Hs' Hn'];
    clear H'; try (exfalso; clear - Hs Hs'; solve [destruct Hs; congruence|destruct Hs'; congruence|congruence|destruct s; discriminate|destruct Hs as [-> | ->]; discriminate|destruct Hs' as [-> | ->]; discriminate]); subst; try reflexivity.
    all: try (match goal with H : sized ?v ?k ?z, H' : sized ?v ?k' ?z' |- _ => destruct (sized_unique _ _ _ _ _ H H') as [-> ->]; reflexivity end).
    all: try (match goal with H : sized (VBig _) _ _ |- _ => inversion H | H : sized (VChar _) _ _ |- _ => inversion H end).
    all: try (match goal with H : is_text J ?v ?t, H' : is_text J ?v ?t' |- _ => rewrite (text_unique J v t t' Nq No H H'); reflexivity end).
    all: try (match goal with H : is_double J (VDec _) _ |- _ => exfalso; exact (Fl _ H ltac:(first [reflexivity|apply Fs; tauto|assumption])) | H : is_nan J (VDec _) |- _ => exfalso; exact (Fn H ltac:(first [reflexivity|apply Fs; tauto|assumption])) end).
    all: destruct Hfs as [Hfs|Hfs]; [|exfalso; solve [discriminate Hfs|clear - Hs Hfs; destruct s; discriminate]].
    all: try (match goal with H : is_double J ?v ?b, H' : is_double J ?v ?b' |- _ => pose proof (Du _ _ Hfs H H'); subst b' end).
    all: try (match goal with H : is_nan J ?v, H' : is_double J ?v ?b |- _ => exfalso; pose proof (Nn b Hfs H' H); solve [lia|match goal with Hi : its_digits _ _ _ |- _ => pose proof (Ni _ _ _ Hi); lia end|unfold finite in *; lia] end).
    all: try (match goal with H : magnitude ?b = inf_bits, H' : its_digits ?b _ _ |- _ => exfalso; pose proof (Ni _ _ _ H'); lia | H : magnitude ?b = inf_bits, H' : finite ?b |- _ => exfalso; unfold finite in *; lia end).
    all: try reflexivity.
    all: try (match goal with H : its_digits ?b ?f ?e, H' : its_digits ?b ?f' ?e' |- _ => destruct (digits_unique _ _ _ _ _ H H') as [<- <-] end).
    all: try (match goal with H : half_up_at ?x ?p ?N, H' : half_up_at ?x ?p ?N' |- _ => rewrite (half_up_unique _ _ _ _ H H'); reflexivity end).
    - destruct (java_digits_unique _ (prec_or 6 q + 1) _ _ _ _ ltac:(lia) HS HS') as [-> ->]. reflexivity.
    - destruct (java_digits_unique _ _ _ _ _ _ G1 HS HS') as [-> ->]. reflexivity.
    - destruct (java_digits_unique _ _ _ _ _ _ G1 HS HS') as [-> ->]. contradiction.
    - destruct (java_digits_unique _ _ _ _ _ _ G1 HS HS') as [-> ->]. contradiction.
    - destruct (java_digits_unique _ _ _ _ _ _ G1 HS HS') as [-> ->]. reflexivity.
    - destruct (java_digits_unique _ (prec_or 6 q + 1) _ _ _ _ ltac:(lia) HS HS') as [-> ->]. reflexivity.
    - destruct (java_digits_unique _ _ _ _ _ _ G1 HS HS') as [-> ->]. reflexivity.
    - destruct (java_digits_unique _ _ _ _ _ _ G1 HS HS') as [-> ->]. contradiction.
    - destruct (java_digits_unique _ _ _ _ _ _ G1 HS HS') as [-> ->]. contradiction.
    - destruct (java_digits_unique _ _ _ _ _ _ G1 HS HS') as [-> ->]. reflexivity.
    - destruct (hex_string_unique _ _ _ _ _ _ _ (proj1 (magnitude_range b Hf)) HM HM') as (-> & -> & ->). reflexivity.
  Qed.

  (** ** What fast-printf shows, beside what Java prints *)

  Lemma no_sign q : q_plus q = false -> q_space q = false -> sign_text q false = [].
  Proof. intros E1 E2. unfold sign_text. rewrite E1, E2. reflexivity. Qed.
  Lemma no_sign_seen q k : q_plus q = false -> q_space q = false -> ~ sign_seen q k.
  Proof. intros E1 E2 [F|[F _]]; congruence. Qed.

  Definition beside s q v r := exists o U, shown J s None q (traitsOf J v r) o /\ value_text s q v U /\ (o = Ok U <-> ~ value_differs s q v).

  Lemma ok_eq (a b : list Z) : Ok a = Ok b <-> a = b.
  Proof. split; [intros E; injection E as E; exact E|intros ->; reflexivity]. Qed.

  Lemma beside_d q v r : java_value v -> takes Sd v -> legal Sd (is_big v) q -> beside Sd q v r.
  Proof.
    intros Hv Ht (_ & _ & _ & _ & Ep). destruct (int_args Sd v ltac:(cbn; tauto) Ht) as [(k & z & Hz)|[z ->]].
    - destruct (sized_integral J v k z Hv Hz) as (I1 & _ & _). eexists _, _. split; [apply (sh_signed J Sd None q v z r); [reflexivity|exists (Some k); exact I1]|].
      split; [apply (vt_d up J Sd q v k z); [reflexivity|exact Hz]|]. rewrite ok_eq, (d_java q z Ep). split; [intros _ []|reflexivity].
    - eexists _, _. split; [apply (sh_signed J Sd None q (VBig z) z r); [reflexivity|exists None; constructor; exact Hv]|].
      split; [apply (vt_d_big up J Sd q z); reflexivity|]. rewrite ok_eq, (d_java q z Ep). split; [intros _ []|reflexivity].
  Qed.

  Lemma beside_x s q v r : s = Sx \/ s = SX -> 0 <= q_width q -> java_value v -> takes s v -> legal s (is_big v) q -> beside s q v r.
  Proof.
    intros Hs Hw Hv Ht Hl. assert (L : (q_left q = true \/ q_zero q = true -> 0 < q_width q) /\ ~ (q_left q = true /\ q_zero q = true) /\ q_prec q = None /\ (is_big v = false -> q_plus q = false /\ q_space q = false)).
    { destruct Hs as [-> | ->]; destruct Hl as (L1 & L2 & _ & L4 & L5); auto. }
    destruct L as (L1 & L2 & Ep & Lb). assert (D : value_differs s q v <-> (q_alt q = true /\ is_zero v \/
       match v with VBig z => z < 0 \/ 0 <= z /\ sign_seen q (zlen (hex_prefix q) + zlen (numeral 16 z)) | _ => False end)).
    { destruct Hs as [-> | ->]; cbn [JavaSpec.value_differs]; unfold based_differs, same_blank; (split; [intros [_ D]; exact D|intros D; split; [intros [F _]; discriminate F|exact D]]). }
    assert (Hi : In s [Sd; So; Sx; SX]) by (destruct Hs as [-> | ->]; cbn; tauto). destruct (int_args s v Hi Ht) as [(k & z & Hz)|[z ->]].
    - destruct (sized_integral J v k z Hv Hz) as (I1 & I2 & I3). assert (Nb : is_big v = false) by (destruct Hz; reflexivity). destruct (Lb Nb) as [E1 E2].
      pose proof (Z.mod_pos_bound z (2 ^ k) ltac:(apply Z.pow_pos_nonneg; lia)) as B.
      eexists _, _. split; [apply (sh_hex J s None q v (z mod 2 ^ k) r); [exact Hs|exists (Some k), z; split; [exact I1|reflexivity]]|].
      split; [apply (vt_x up J s q v k z); [exact Hs|exact Hz]|]. rewrite ok_eq. pose proof (x_java s q (z mod 2 ^ k) Hw L2 Ep Hs ltac:(lia)) as X. rewrite (no_sign q E1 E2) in X. cbn [app] in X. rewrite X.
      rewrite D, (range_mod k z ltac:(lia) I2), (sized_zero v k z Hz). pose proof (no_sign_seen q (zlen (hex_prefix q) + zlen (numeral 16 (z mod 2 ^ k))) E1 E2) as Ns.
      assert (M : match v with VBig z => z < 0 \/ 0 <= z /\ sign_seen q (zlen (hex_prefix q) + zlen (numeral 16 z)) | _ => False end <-> False) by (destruct Hz; tauto). rewrite M. tauto.
    - cbn [java_value] in Hv. destruct (Z_lt_le_dec z 0) as [N|N].
      + exists (Err (Printf NegativeUnsigned)). eexists. split; [apply (sh_negative J s None q (VBig z) z r); [destruct Hs as [-> | ->]; reflexivity|constructor; exact Hv|exact N]|].
        split; [apply (vt_x_big up J s q z Hs)|]. rewrite D. split; [discriminate|]. intros F. exfalso. apply F. right. left. exact N.
      + eexists _, _. split; [apply (sh_hex J s None q (VBig z) z r); [exact Hs|exists None, z; split; [constructor; exact Hv|split; [exact N|reflexivity]]]|].
        split; [apply (vt_x_big up J s q z Hs)|]. rewrite ok_eq. replace (z <? 0) with false by (symmetry; apply Z.ltb_ge; exact N). rewrite Z.abs_eq by exact N.
        rewrite (x_java s q z Hw L2 Ep Hs N), D. cbn [is_zero]. split; intros F G; apply F; (destruct G as [G|G]; [left; exact G|]); [destruct G as [G|[_ G]]; [lia|right; exact G]|right; right; split; [exact N|exact G]].
  Qed.

  Lemma beside_o q v r : 0 <= q_width q -> java_value v -> takes So v -> legal So (is_big v) q -> beside So q v r.
  Proof.
    intros Hw Hv Ht (L1 & L2 & L3 & Ep & Lb). destruct (int_args So v ltac:(cbn; tauto) Ht) as [(k & z & Hz)|[z ->]].
    - destruct (sized_integral J v k z Hv Hz) as (I1 & I2 & I3). assert (Nb : is_big v = false) by (destruct Hz; reflexivity). destruct (Lb Nb) as [E1 E2].
      pose proof (Z.mod_pos_bound z (2 ^ k) ltac:(apply Z.pow_pos_nonneg; lia)) as B.
      eexists _, _. split; [apply (sh_octal J So None q v (z mod 2 ^ k) r); [reflexivity|exists (Some k), z; split; [exact I1|reflexivity]]|].
      split; [apply (vt_o up J So q v k z); [reflexivity|exact Hz]|]. rewrite ok_eq. pose proof (o_java q (z mod 2 ^ k) Hw L1 L2 L3 Ep ltac:(lia)) as X. rewrite (no_sign q E1 E2) in X. cbn [app] in X. rewrite X.
      cbn [JavaSpec.value_differs]. unfold based_differs, same_blank. rewrite (range_mod k z ltac:(lia) I2), (sized_zero v k z Hz), E2.
      pose proof (no_sign_seen q (zlen (octal_prefix q) + zlen (numeral 8 (z mod 2 ^ k))) E1 E2) as Ns.
      assert (M : match v with VBig z => z < 0 \/ 0 <= z /\ sign_seen q (zlen (octal_prefix q) + zlen (numeral 8 z)) | _ => False end <-> False) by (destruct Hz; tauto). rewrite M.
      assert (M2 : v = VBig 0 <-> False) by (destruct Hz; split; try discriminate; tauto). rewrite M2. intuition discriminate.
    - cbn [java_value] in Hv. unfold beside. cbn [JavaSpec.value_differs]. unfold based_differs, same_blank. cbn [is_zero]. destruct (Z_lt_le_dec z 0) as [N|N].
      + exists (Err (Printf NegativeUnsigned)). eexists. split; [apply (sh_negative J So None q (VBig z) z r); [reflexivity|constructor; exact Hv|exact N]|].
        split; [apply (vt_o_big up J So q z); reflexivity|]. split; [discriminate|]. intros F. exfalso. apply F. split; [intros (_ & G & _); injection G as G; lia|]. right. left. exact N.
      + eexists _, _. split; [apply (sh_octal J So None q (VBig z) z r); [reflexivity|exists None, z; split; [constructor; exact Hv|split; [exact N|reflexivity]]]|].
        split; [apply (vt_o_big up J So q z); reflexivity|]. rewrite ok_eq. replace (z <? 0) with false by (symmetry; apply Z.ltb_ge; exact N). rewrite Z.abs_eq by exact N.
        rewrite (o_java q z Hw L1 L2 L3 Ep N). assert (Q : VBig z = VBig 0 <-> z = 0) by (split; [intros E; injection E as E; exact E|intros ->; reflexivity]). rewrite Q.
        assert (P : (z < 0 \/ 0 <= z /\ sign_seen q (zlen (octal_prefix q) + zlen (numeral 8 z))) <-> sign_seen q (zlen (octal_prefix q) + zlen (numeral 8 z))) by (split; [intros [G|[_ G]]; [lia|exact G]|intros G; right; split; [exact N|exact G]]). rewrite P. tauto.
  Qed.

  Lemma beside_c q v r : java_value v -> takes Sc v -> beside Sc q v r.
  Proof.
    intros Hv Ht. cbn [takes] in Ht. assert (Nc : forall s, match v with VByte _ | VShort _ | VInt _ | VChar _ => True | _ => False end -> ~ chars J v s) by (intros s F C; destruct C; exact F).
    destruct v as [|c|z|z|z|z|b|b|s|u|s|z|d|t|o]; try contradiction; cbn [java_value] in Hv.
    - exists (Ok (justify q [c mod 2 ^ 16])), (justify q [c]). split; [apply (sh_char J Sc None q (VChar c) _ r); [reflexivity|apply ic_int; [intros s; apply Nc; exact I|discriminate|constructor; exact Hv]]|].
      split; [constructor; reflexivity|]. rewrite Z.mod_small by (change (2 ^ 16) with 65536; lia). cbn. tauto.
    - exists (Ok (justify q [z mod 2 ^ 16])), (justify q (utf16 z)). split; [apply (sh_char J Sc None q (VByte z) _ r); [reflexivity|apply ic_int; [intros s; apply Nc; exact I|discriminate|constructor; exact Hv]]|].
      split; [apply (vt_code up J Sc q (VByte z) 8 z); [reflexivity|constructor]|]. rewrite ok_eq, (c_java q z Ht). unfold in_range in Hv. change (2 ^ (8 - 1)) with 128 in Hv. cbn. split; [intros _ []|intros _; lia].
    - exists (Ok (justify q [z mod 2 ^ 16])), (justify q (utf16 z)). split; [apply (sh_char J Sc None q (VShort z) _ r); [reflexivity|apply ic_int; [intros s; apply Nc; exact I|discriminate|constructor; exact Hv]]|].
      split; [apply (vt_code up J Sc q (VShort z) 16 z); [reflexivity|constructor]|]. rewrite ok_eq, (c_java q z Ht). unfold in_range in Hv. change (2 ^ (16 - 1)) with 32768 in Hv. cbn. split; [intros _ []|intros _; lia].
    - exists (Ok (justify q [z mod 2 ^ 16])), (justify q (utf16 z)). split; [apply (sh_char J Sc None q (VInt z) _ r); [reflexivity|apply ic_int; [intros s; apply Nc; exact I|discriminate|constructor; exact Hv]]|].
      split; [apply (vt_code up J Sc q (VInt z) 32 z); [reflexivity|constructor]|]. rewrite ok_eq, (c_java q z Ht). cbn. tauto.
  Qed.

  Lemma beside_s s q v r : jdk_ok J -> text_conv s = true -> java_value v -> compared s q v -> beside s q v r.
  Proof.
    intros HJ Hs Hv Hc. assert (Nq : forall u, v <> VSeq u) by (intros u ->; exact Hc). assert (No : forall o, v <> VObj o) by (intros u ->; exact Hc).
    destruct (text_of J v HJ Hv Nq) as [(t & Ht & L)|(o & e & -> & _)]; [|exfalso; exact (No o eq_refl)].
    exists (Ok (in_case s (c_s q t))). assert (S : shown J s None q (traitsOf J v r) (Ok (in_case s (c_s q t)))) by (apply sh_text; assumption).
    destruct s; try discriminate Hs.
    - exists (justify q (cut q t)). split; [exact S|]. split; [apply vt_s; [reflexivity|exact Ht]|]. cbn. split; [intros _ []|reflexivity].
    - exists (justify q (up (cut q t))). split; [exact S|]. split; [apply vt_S; [reflexivity|exact Ht]|]. rewrite ok_eq. change (c_s q t) with (justify q (cut q t)). rewrite case_justify.
      change (in_case SS (cut q t)) with (map ascii_upper (cut q t)). cbn [JavaSpec.value_differs]. split.
      + intros E (t' & Ht' & F). rewrite (text_unique J v t' t Nq No Ht' Ht) in F. congruence.
      + intros F. destruct (list_eq_dec Z.eq_dec (justify q (up (cut q t))) (justify q (map ascii_upper (cut q t)))) as [E|E]; [symmetry; exact E|]. exfalso. apply F. exists t. split; [exact Ht|exact E].
  Qed.

  Lemma beside_decimal s q u sc r : float_spec s = true -> s <> SF -> s <> Sa -> s <> SA -> 0 <= q_width q -> 0 <= prec_or 6 q -> java_decimal u sc ->
    (s = Sf -> printable (VDec (mkBD u sc)) /\ (u = 0 \/ sc - prec_or 6 q <= 646456992)) -> (general_conv s = true -> u = 0 -> sc = 0) -> legal s false q -> beside s q (VDec (mkBD u sc)) r.
  Proof.
    intros Hs NF Na NA Hw H6 Hj Hc1 Hc2 Hl. assert (G1 : 1 <= g_prec q) by (unfold g_prec; cbv zeta; destruct (Z.eqb_spec (prec_or 6 q) 0); lia).
    assert (Hd : is_decimal (VDec (mkBD u sc)) u sc) by (constructor; exact Hj).
    assert (Hcase : s = Sf \/ exp_conv s = true \/ general_conv s = true) by (destruct s; try discriminate Hs; try contradiction; auto).
    destruct Hcase as [->|[E|E]].
    - destruct (Hc1 eq_refl) as [Hp Hsc]. pose proof (hup_half_up (Z.abs u) (- sc) (prec_or 6 q) (Z.abs_nonneg u)) as HN. set (N := hup _ _) in HN. exists (Ok (in_case Sf (b_f q u sc))). eexists. split; [apply (sh_big_fixed J Sf None q _ u sc r); [reflexivity|exact Hp|exact Hd|exact Hsc]|].
      split; [apply vt_f_dec; [reflexivity|exact HN]|]. rewrite ok_eq. destruct Hl as (_ & L2 & _). exact (dec_java q u sc N L2 Hw HN).
    - destruct (big_digits u sc (prec_or 6 q + 1) ltac:(lia)) as (S & X & HS & S0 & Hz & Hn).
      assert (D : value_differs s q (VDec (mkBD u sc)) <-> (u = 0 /\ sc <> 0 \/ u <> 0 /\ X = 9 /\ kept (Z.abs u) (prec_or 6 q + 1) = 10) \/ 2147483648 < last_exp (Z.abs u) (- sc) (prec_or 6 q + 1)).
      { assert (D : value_differs s q (VDec (mkBD u sc)) <-> big_exp_differs q u sc) by (destruct s; try discriminate E; reflexivity). rewrite D. unfold big_exp_differs, last_exp. rewrite abs_zero.
        destruct (Z.eqb_spec u 0) as [->|N].
        - destruct Hj as [_ Hj]. split.
          + intros [F|(S' & X' & F & _)]; [left; left; exact F|]. exfalso. apply sig_positive in F. assert (Z0 : (dec (Z.abs 0) (- sc) == 0)%Q) by apply dec_zero. lra.
          + intros [[F|[F _]]|F]; [left; exact F|contradiction|lia].
        - specialize (Hn N). rewrite Hn. pose proof (sig_right (Z.abs u) (- sc) (prec_or 6 q + 1) S X ltac:(lia) ltac:(lia) Hn) as HR. split.
          + intros [[F _]|(S' & X' & F & G)]; [contradiction|]. cbv zeta in *. destruct (sig_half_up_unique _ (prec_or 6 q + 1) _ _ _ _ ltac:(lia) F HR) as [-> ->]. destruct G as [G|G]; [left; right; split; [exact N|exact G]|right; exact G].
          + intros [[[F _]|(_ & F)]|F]; [contradiction| |]; right; exists S, X; cbv zeta; (split; [exact HR|]); [left|right]; exact F. }
      destruct (Z_le_gt_dec (last_exp (Z.abs u) (- sc) (prec_or 6 q + 1)) 2147483648) as [L|L].
      + exists (Ok (in_case s (b_e q (u <? 0) (Z.abs u) (- sc)))). eexists. split; [apply (sh_big_exp J s None q _ u sc r); assumption|]. split; [apply (vt_e_dec up J s q u sc S X); assumption|].
        rewrite ok_eq, (e_dec_java s q u sc S X H6 HS), D. split; [intros F [G|G]; [exact (F G)|lia]|intros F G; apply F; left; exact G].
      + exists (Err (OtherExn 1)). eexists. split; [apply (sh_big_exp_huge J s None q _ u sc r); try assumption; lia|]. split; [apply (vt_e_dec up J s q u sc S X); assumption|].
        split; [discriminate|]. intros F. exfalso. apply F, D. right. lia.
    - destruct (big_digits u sc (g_prec q) G1) as (S & X & HS & S0 & Hz & Hn). specialize (Hc2 E). assert (Ha : q_alt q = false) by (destruct s; try discriminate E; apply Hl).
      set (X0 := if u =? 0 then 0 else ndigits (Z.abs u) - sc - 1).
      assert (Lx : forall Y, leading (dec (Z.abs u) (- sc)) Y <-> Y = X0).
      { intros Y. unfold X0. destruct (Z.eqb_spec u 0) as [->|N]; [apply leading_zero|exact (leading_is u sc Y N)]. }
      assert (Bp : bg_positional (Z.abs u) (- sc) (g_prec q) = plain_style q X0).
      { unfold bg_positional, plain_style, X0. rewrite abs_zero. destruct (Z.eqb_spec u 0) as [->|N]; [rewrite (Hc2 eq_refl); symmetry; apply andb_true_intro; split; [reflexivity|apply Z.ltb_lt; lia]|]. do 2 f_equal; lia. }
      assert (Le : plain_style q X0 = false -> last_exp (Z.abs u) (- sc) (g_prec q) = X - kept (Z.abs u) (g_prec q) + 1).
      { intros P0. unfold last_exp. rewrite abs_zero. destruct (Z.eqb_spec u 0) as [->|N]; [|rewrite (Hn N); reflexivity]. exfalso. unfold X0 in P0. cbn [Z.eqb] in P0. apply plain_spec in P0. lia. }
      assert (D : value_differs s q (VDec (mkBD u sc)) <->
        (S mod 10 = 0 /\ (if plain_style q X then X + 1 < g_prec q else 1 < g_prec q) \/ plain_style q X0 <> plain_style q X \/
         g_prec q = 1 /\ X0 < X /\ -4 <= X < 0 /\ zlen (sign_text q (u <? 0)) + 1 < q_width q) \/
        plain_style q X0 = false /\ 2147483648 < X - kept (Z.abs u) (g_prec q) + 1).
      { assert (D : value_differs s q (VDec (mkBD u sc)) <-> big_general_differs q u sc) by (destruct s; try discriminate E; reflexivity). rewrite D. unfold big_general_differs. cbv zeta. split.
        - intros (S' & X' & Y & F1 & F2 & F3). destruct (java_digits_unique _ _ _ _ _ _ G1 F1 HS) as [-> ->]. apply Lx in F2. subst Y. destruct F3 as [F|[F|[F|F]]]; auto.
        - intros F. exists S, X, X0. split; [exact HS|]. split; [apply Lx; reflexivity|]. destruct F as [[F|[F|F]]|F]; auto. }
      assert (Vu : value_text s q (VDec (mkBD u sc)) (in_case s (g_java q (u <? 0) S X))).
      { unfold g_java. fold (plain_style q X). destruct (plain_style q X) eqn:Ex; apply plain_spec in Ex; [apply (vt_g_dec_fixed up J s q u sc S X)|apply (vt_g_dec_exp up J s q u sc S X)]; assumption. }
      destruct (plain_style q X0 || (X - kept (Z.abs u) (g_prec q) + 1 <=? 2147483648)) eqn:Or.
      + exists (Ok (in_case s (b_g q (u <? 0) (Z.abs u) (- sc)))). eexists. split; [apply (sh_big_general J s None q _ u sc r); [exact E|exact Hd|]|].
        { rewrite Bp. destruct (plain_style q X0) eqn:P0; [left; reflexivity|right]. rewrite (Le eq_refl). apply Z.leb_le. exact Or. }
        split; [exact Vu|]. rewrite ok_eq, (g_dec_java s q u sc S X Ha G1 HS Hc2), D. fold X0. split; [intros F [G|[G1' G2]]; [exact (F G)|rewrite G1' in Or; apply Z.leb_le in Or; lia]|intros F G; apply F; left; exact G].
      + apply orb_false_iff in Or as [P0 Or]. apply Z.leb_gt in Or. exists (Err (OtherExn 1)). eexists. split; [apply (sh_big_general_huge J s None q _ u sc r); [exact E|exact Hd|rewrite Bp; exact P0|rewrite (Le P0); exact Or]|].
        split; [exact Vu|]. split; [discriminate|]. intros F. exfalso. apply F, D. right. split; [exact P0|exact Or].
  Qed.

  Lemma beside_float s q v r : float_spec s = true -> s <> SF -> 0 <= q_width q -> 0 <= prec_or 6 q -> java_value v -> takes s v -> compared s q v -> legal s (is_big v) q -> beside s q v r.
  Proof.
    intros Hs NF Hw H6 Hv Ht Hc Hl. assert (G1 : 1 <= g_prec q) by (unfold g_prec; cbv zeta; destruct (Z.eqb_spec (prec_or 6 q) 0); lia).
    destruct (takes_floating s q v Hs Ht Hc Hv) as [F|(u & sc & -> & Na & NA & Hj & Hc1 & Hc2)]; [|apply beside_decimal; assumption].
    assert (Df : s = Sf \/ exp_conv s = true -> (value_differs s q v <-> infinity_differs J q v)) by (intros [->|E]; [|destruct s; try discriminate E]; destruct v; try contradiction F; reflexivity).
    assert (Dg : general_conv s = true -> (value_differs s q v <-> infinity_differs J q v \/ zeros_differ J q v)) by (intros E; destruct s; try discriminate E; destruct v; try contradiction F; reflexivity).
    assert (Dh : hex_conv s = true -> (value_differs s q v <-> infinity_differs J q v \/ exists b, is_double J v b /\ finite b /\ ((dval (magnitude b) == 0)%Q \/ (1 <= dval (magnitude b))%Q))) by (intros E; destruct s; try discriminate E; reflexivity).
    assert (Iu : forall b, is_double J v b -> (infinity_differs J q v <-> magnitude b = inf_bits /\ (b <? 0) = false /\ blank_sign q 8)).
    { intros b Hd. unfold infinity_differs. rewrite Z.ltb_ge. split; [intros (b' & Hd' & D); rewrite (double_unique J v b b' F Hd Hd'); exact D|intros D; exists b; split; [exact Hd|exact D]]. }
    assert (Hcase : s = Sf \/ exp_conv s = true \/ general_conv s = true \/ hex_conv s = true) by (destruct s; try discriminate Hs; try contradiction; auto).
    destruct (float_args J v F Hv) as [(b & Hd & Hm)|Hn].
    2:{ exists (Ok (in_case s (c_nan q))). eexists. split; [apply sh_nan; assumption|]. split; [apply vt_nan; assumption|]. split; [|reflexivity]. intros _ D.
        assert (NI : ~ infinity_differs J q v) by (intros (b & Hd & E & _); pose proof (nan_double J v b F Hn Hd); lia).
        destruct Hcase as [E|[E|[E|E]]]; [exact (NI (proj1 (Df (or_introl E)) D))|exact (NI (proj1 (Df (or_intror E)) D))|apply (Dg E) in D|apply (Dh E) in D]; (destruct D as [D|D]; [exact (NI D)|]).
        - destruct D as (b & f & e & S & X & Hd & Hi & _). pose proof (nan_double J v b F Hn Hd). pose proof (digits_decimal _ _ _ Hi) as [[E' _]|[E' _]]; unfold inf_bits in *; lia.
        - destruct D as (b & Hd & Hf & _). pose proof (nan_double J v b F Hn Hd). unfold finite in Hf. lia. }
    destruct (Z.eq_dec (magnitude b) inf_bits) as [Ei|Ei].
    - exists (Ok (in_case s (j_inf q (b <? 0)))). eexists. split; [apply (sh_infinite J s None q v b r); assumption|]. split; [apply (vt_inf up J s q v b); assumption|]. rewrite ok_eq, (inf_java s q (b <? 0) Hw).
      assert (D : value_differs s q v <-> infinity_differs J q v).
      { destruct Hcase as [E|[E|[E|E]]]; [exact (Df (or_introl E))|exact (Df (or_intror E))|rewrite (Dg E)|rewrite (Dh E)]; (split; [|intros D; left; exact D]; intros [D|D]; [exact D|exfalso]).
        - destruct D as (b' & f & e & S & X & Hd' & Hi & _). rewrite <- (double_unique J v b b' F Hd Hd') in Hi. pose proof (digits_decimal _ _ _ Hi) as [[E' _]|[E' _]]; unfold inf_bits in *; lia.
        - destruct D as (b' & Hd' & Hf & _). rewrite <- (double_unique J v b b' F Hd Hd') in Hf. unfold finite in Hf. lia. }
      rewrite D, (Iu b Hd). tauto.
    - assert (Hf : finite b) by (unfold finite; lia). destruct (digits_exist b Hf) as (f & e & Hi). pose proof (its_nonneg _ _ _ (digits_decimal _ _ _ Hi)) as F0.
      assert (NI : ~ infinity_differs J q v) by (rewrite (Iu b Hd); tauto). destruct Hcase as [E|[E|[E|E]]].
      + exists (Ok (in_case s (c_f q (b <? 0) f e))). eexists. split; [apply (sh_fixed J s None q v b f e r); [subst s; reflexivity|exact Hd|exact Hi]|].
        split; [apply (vt_f up J s q v b f e _ E Hd Hi (hup_half_up f e (prec_or 6 q) F0))|]. rewrite ok_eq, (f_java q b f e _ Hi (hup_half_up f e (prec_or 6 q) F0)). split; [intros _; rewrite (Df (or_introl E)); exact NI|intros _; subst s; reflexivity].
      + destruct (sig0 f e (prec_or 6 q + 1)) as [S X] eqn:Es. destruct (sig0_java b f e (prec_or 6 q + 1) S X ltac:(lia) Hi Es) as [HS _].
        exists (Ok (in_case s (c_e q (b <? 0) f e))). eexists. split; [apply (sh_exp J s None q v b f e r); assumption|]. split; [apply (vt_e up J s q v b f e S X); assumption|].
        rewrite ok_eq, (e_java q b f e S X H6 Hi HS). split; [intros _; rewrite (Df (or_intror E)); exact NI|reflexivity].
      + destruct (sig0 f e (g_prec q)) as [S X] eqn:Es. destruct (sig0_java b f e _ S X G1 Hi Es) as [HS _].
        assert (Ha : q_alt q = false) by (destruct s; try discriminate E; apply Hl).
        exists (Ok (in_case s (j_g q (b <? 0) f e))), (in_case s (g_java q (b <? 0) S X)). split; [apply (sh_general J s None q v b f e r); assumption|]. split.
        * unfold g_java. destruct ((-4 <=? X) && (X <? g_prec q)) eqn:Ex.
          -- apply (vt_g_fixed up J s q v b f e S X); try assumption. apply andb_prop in Ex as [E1 E2]. apply Z.leb_le in E1. apply Z.ltb_lt in E2. lia.
          -- apply (vt_g_exp up J s q v b f e S X); try assumption. intros [E1 E2]. apply andb_false_iff in Ex as [Ex|Ex]; [apply Z.leb_gt in Ex|apply Z.ltb_ge in Ex]; lia.
        * rewrite ok_eq, (j_g_java s q b f e S X Ha G1 Hi HS). assert (D : value_differs s q v <-> zeros_differ J q v) by (rewrite (Dg E); tauto).
          rewrite D. split.
          -- intros N (b' & f' & e' & S' & X' & Hd' & Hi' & HS' & Z1 & Z2). apply N. rewrite <- (double_unique J v b b' F Hd Hd') in Hi'. destruct (digits_unique _ _ _ _ _ Hi Hi') as [<- <-].
             destruct (java_digits_unique _ _ _ _ _ _ G1 HS HS') as [-> ->]. split; assumption.
          -- intros N [Z1 Z2]. apply N. exists b, f, e, S, X. auto 10.
      + assert (Ep : q_prec q = None) by (destruct v; try contradiction F; exact (Hc E)). pose proof (magnitude_range b Hf) as Mr.
        destruct (hex_string_exists (magnitude b) ltac:(lia)) as (M & k & x & HM & _ & _). exists (Ok (in_case s (j_a q (b <? 0) (magnitude b)))). eexists.
        split; [apply (sh_hexfloat J s None q v b r); assumption|]. split; [apply (vt_a up J s q v b M k x); assumption|]. rewrite ok_eq, (a_java s q b M k x E Ep Hf HM).
        assert (D : value_differs s q v <-> exists b, is_double J v b /\ finite b /\ ((dval (magnitude b) == 0)%Q \/ (1 <= dval (magnitude b))%Q)) by (rewrite (Dh E); tauto).
        rewrite D. split; [intros N (b' & Hd' & _ & G); rewrite <- (double_unique J v b b' F Hd Hd') in G; tauto|]. intros N G. apply N. exists b. auto.
  Qed.

  Theorem besides s q v r : jdk_ok J -> In s java_convs -> 0 <= q_width q -> 0 <= prec_or 6 q -> java_value v -> takes s v -> compared s q v -> legal s (is_big v) q -> beside s q v r.
  Proof.
    intros HJ Hs Hw H6 Hv Ht Hc Hl. cbn in Hs. destruct Hs as [<-|[<-|[<-|[<-|[<-|[<-|[<-|Hs]]]]]]].
    - apply beside_d; assumption.
    - apply beside_o; assumption.
    - apply beside_x; [left; reflexivity|assumption..].
    - apply beside_x; [right; reflexivity|assumption..].
    - apply beside_c; assumption.
    - apply beside_s; [assumption|reflexivity|assumption..].
    - apply beside_s; [assumption|reflexivity|assumption..].
    - apply beside_float; [destruct Hs as [<-|[<-|[<-|[<-|[<-|[<-|[<-|[]]]]]]]]; reflexivity|intros ->; intuition discriminate|assumption..].
  Qed.

  (** ** Syntax *)

  Lemma java_width_text W w : java_width W w -> width_text W w /\ w <> PRECEDING.
  Proof.
    intros [|d ds A B C]; [split; [constructor|discriminate]|]. split; [constructor; assumption|]. pose proof (CompilerP.dec_value_nonneg (d :: ds) B). unfold PRECEDING, int_min. lia.
  Qed.
  Lemma java_prec_text P p : java_prec P p -> prec_text P p /\ p <> PRECEDING.
  Proof.
    intros [|d ds B C]; [split; [constructor|discriminate]|]. split; [constructor; assumption|]. pose proof (CompilerP.dec_value_nonneg (d :: ds) B). unfold PRECEDING, int_min. lia.
  Qed.
  Lemma java_spec s : In s java_convs -> s <> St /\ s <> ST /\ s <> Spct.
  Proof. intros H. repeat split; intros ->; cbn in H; intuition discriminate. Qed.
  Lemma java_directive_is src s q : java_directive src s q -> directive src s q /\ In s java_convs.
  Proof.
    intros [F fl W w P p s' HF HW HP Hs]. split; [|exact Hs]. destruct (java_width_text W w HW) as [HW' NW]. destruct (java_prec_text P p HP) as [HP' NP].
    apply (dir_text F fl W w P p (letter s') s' HF HW' NW HP' NP (conv_self s')). intros _ E. destruct (java_spec s' Hs) as (_ & _ & N). destruct s'; try discriminate E. contradiction.
  Qed.
  Lemma java_format_is dtf src ds : java_format src ds -> GrammarSpec.format dtf src ds.
  Proof.
    intros H. induction H as [|t r ds A B C H IH|r ds H IH|F fl W w P p s r ds HF HW HP Hs H IH].
    - constructor.
    - apply fmt_lit; assumption.
    - apply fmt_pct; exact IH.
    - destruct (java_width_text W w HW) as [HW' _]. destruct (java_prec_text P p HP) as [HP' _]. destruct (java_spec s Hs) as (N1 & N2 & N3).
      apply (fmt_dir dtf F fl W w P p (letter s) s [] None r ds HF HW' HP' (conv_self s)); [apply D_other; assumption| |exact IH]. intros _ E. destruct s; try discriminate E. contradiction.
  Qed.

  (** ** One directive *)

  (** a conversion that refuses its argument prints nothing *)
  Lemma shown_silent src s q x e t : jdk_ok J -> directive src s q -> s <> St -> s <> ST -> shown J s None q x (Err e) -> ~ prints J src [x] t.
  Proof.
    intros HJ Hd N1 N2 H Hp. destruct Hd as [F fl W w P p c s HF HW NW HP NP Hc Hn]. specialize (Hp (fun _ => true)).
    assert (G : GrammarSpec.format (fun _ => true) (pct :: F ++ W ++ P ++ c :: [] ++ []) [Default s (mkCtx fl w p None)]).
    { apply fmt_dir; try assumption; [apply D_other; assumption|constructor]. }
    assert (S : says J [Default s (mkCtx fl w p None)] [x] [] (Some e)).
    { apply (sy_stop J _ [] [x] e).
      apply (pc_refused J s fl w p None [x] (f_left fl) (if w =? UNSET then 0 else w) [x] (if p =? UNSET then None else Some p) x []);
        [apply (no_star_width J W); assumption|apply (no_star_prec J P); assumption|exact H]. }
    destruct (C74_calls_follow_the_reference J _ _ _ [x] [] (Some e) HJ G S) as (C & A & _). cbn [app] in C. destruct Hp as (ds & C' & A' & _). rewrite C in C'. injection C' as <-. rewrite A in A'. discriminate A'.
  Qed.

  Theorem one_directive_java src s q v r : jdk_ok J -> java_directive src s q -> java_value v -> takes s v -> compared s q v -> legal s (is_big v) q ->
    ((exists t, prints J src [traitsOf J v r] t /\ java_text up J s q (Some v) t) <-> ~ value_differs s q v).
  Proof.
    intros HJ Hj Hv Ht Hc Hl. destruct (java_directive_is src s q Hj) as [Hd Hs]. destruct (directive_bounds _ _ _ Hd) as [Bw B6]. destruct (java_spec s Hs) as (N1 & N2 & _).
    destruct (besides s q v r HJ Hs (proj1 Bw) (proj1 B6) Hv Ht Hc Hl) as (o & U & So & Vu & D). rewrite <- D. split.
    - intros (t & Hp & Hx). inversion Hx as [|v' t' _ _ Vt]; subst. rewrite (value_text_unique s q v U t (proj1 B6) Ht Hc Vu Vt).
      destruct o as [t'|e]; [|exfalso; exact (shown_silent src s q _ e t HJ Hd N1 N2 So Hp)]. f_equal. exact (prints_unique _ _ _ _ _ (shown_prints J src s q _ t' HJ Hd N1 N2 So) Hp).
    - intros ->. exists U. split; [exact (shown_prints J src s q _ U HJ Hd N1 N2 So)|]. apply jt_value; assumption.
  Qed.

  (** ** Whole calls *)

  Lemma alike_shown s q x a : jdk_ok J -> In s java_convs -> 0 <= q_width q -> 0 <= prec_or 6 q -> alike up J s q x -> wraps J x a -> exists t, shown J s None q a (Ok t) /\ java_text up J s q x t.
  Proof.
    intros HJ Hs Hw H6 Ha Hx. destruct Hx as [|v r]; cbn [alike] in Ha.
    - destruct Ha as [Ht Hl]. eexists. split; [apply sh_null_text; exact Ht|]. unfold c_s. apply jt_null. exact Hl.
    - destruct Ha as (Hv & Hc & Ht & Hl & Nd). destruct (besides s q v r HJ Hs Hw H6 Hv Ht Hc Hl) as (o & U & So & Vu & D). apply D in Nd. subst o. exists U. split; [exact So|]. apply jt_value; assumption.
  Qed.

  Lemma alike_says src ds vals args : jdk_ok J -> java_format src ds -> alike_calls up J ds vals -> Forall2 (wraps J) vals args -> exists t, says J ds args t None /\ java_line up J ds vals t.
  Proof.
    intros HJ H. revert vals args. induction H as [|t r ds A B C H IH|r ds H IH|F fl W w P p s r ds HF HW HP Hs H IH]; intros vals args Ha Hx.
    - exists []. split; constructor.
    - inversion Ha; subst. destruct (IH vals args ltac:(assumption) Hx) as (u & S & L). exists (t ++ u). split; [|constructor; exact L]. apply (sy_piece J (Fixed t) ds args t args u None); [constructor|exact S].
    - inversion Ha; subst. destruct (IH vals args ltac:(assumption) Hx) as (u & S & L). exists ([pct] ++ u). split; [|constructor; exact L]. apply (sy_piece J (Fixed [pct]) ds args [pct] args u None); [constructor|exact S].
    - inversion Ha as [| |s' fl' w' p' x vals' ds' Hal Hrest]; subst. inversion Hx as [|x' a vals'' args' Hxa Hxr]; subst. destruct (IH vals' args' Hrest Hxr) as (u & S & L).
      assert (Hd : directive (pct :: F ++ W ++ P ++ [letter s]) s (given fl w p)) by (apply java_directive_is; constructor; assumption). destruct (directive_bounds _ _ _ Hd) as [Bw B6].
      destruct (alike_shown s (given fl w p) x a HJ Hs (proj1 Bw) (proj1 B6) Hal Hxa) as (t & T & V). exists (t ++ u). split; [|constructor; assumption].
      destruct (java_width_text W w HW) as [HW' NW]. destruct (java_prec_text P p HP) as [HP' NP].
      apply (sy_piece J _ ds (a :: args') t args' u None); [|exact S].
      apply (pc_shown J s fl w p None (a :: args') (f_left fl) (if w =? UNSET then 0 else w) (a :: args') (if p =? UNSET then None else Some p) a args');
        [apply (no_star_width J W); assumption|apply (no_star_prec J P); assumption|exact T].
  Qed.
End Java.
