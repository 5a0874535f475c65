(** Proofs for C109. *)
From Coq Require Import QArith.
From Verif Require Import Base Digits UtilsM SeqM SeqSpec SeqP ContextM CompilerM GrammarSpec CompilerP2 IntFormM FormatterM MathM DecimalM FPDecimalM
  DoubleM BigDecM RoundM TraitsM ImplM ImplP FmtSpec FmtP DecSpec FloatSpec BigSpec DirSpec LoopSpec LoopP IntP ExactSpec ScaleSpec ValueSpec ValueP WholeSpec WholeP
  CharSpec CharP UtfFixM UtfFixSpec.
Open Scope Z_scope.

Lemma isHigh_iff c : isHigh c = true <-> high c.
Proof. unfold isHigh, high. rewrite andb_true_iff, !Z.leb_le. tauto. Qed.
Lemma isLow_iff c : isLow c = true <-> low c.
Proof. unfold isLow, low. rewrite andb_true_iff, !Z.leb_le. tauto. Qed.
Lemma isSurrogate_iff c : isSurrogate c = true <-> surrogate c.
Proof. unfold isSurrogate, surrogate. rewrite andb_true_iff, !Z.leb_le. tauto. Qed.

Lemma den_one s t t' : den s t -> den s t' -> t = t'.
Proof.
  intros A B. apply den_wden in A, B. pose proof (wden_emits emitSB s t [] (or_introl eq_refl) A) as E.
  rewrite (wden_emits emitSB s t' [] (or_introl eq_refl) B) in E. injection E as E. congruence.
Qed.

Lemma has_text_seq J v t r : has_text J v t -> exists s, t_asSeq (traitsOf J v r) = Ok s /\ den s t.
Proof.
  intros [(_ & A & B)|(u & -> & D)].
  - destruct (text_seq J v t r A B) as (a & E & D). exists (Leaf a). split; [exact E|constructor; exact D].
  - exists u. split; [reflexivity|exact D].
Qed.
Lemma has_text_one J v t r v' t' r' : traitsOf J v r = traitsOf J v' r' -> has_text J v t -> has_text J v' t' -> t = t'.
Proof.
  intros E A B. destruct (has_text_seq J v t r A) as (s & Es & D). destruct (has_text_seq J v' t' r' B) as (s' & Es' & D').
  rewrite E, Es' in Es. injection Es as ->. exact (den_one _ _ _ D D').
Qed.

(** ** Where a pair is separated *)

Lemma splits_at t p : splits_pair t p <-> exists h l, znth t (p - 1) = Some h /\ znth t p = Some l /\ high h /\ low l.
Proof.
  split.
  - intros (a & h & l & b & -> & L & Hh & Hl). exists h, l. pose proof (zlen_nonneg a).
    split; [|split; [|split; assumption]].
    + rewrite Base.znth_app_r by lia. replace (p - 1 - zlen a) with 0 by lia. reflexivity.
    + rewrite Base.znth_app_r by lia. replace (p - zlen a) with 1 by lia. reflexivity.
  - intros (h & l & A & B & Hh & Hl). pose proof (znth_range _ _ _ A) as R.
    exists (firstn (Z.to_nat (p - 1)) t), h, l, (skipn (Z.to_nat (p + 1)) t).
    unfold znth in A, B. destruct (p - 1 <? 0) eqn:E1; [discriminate A|]. destruct (p <? 0) eqn:E2; [discriminate B|]. bools.
    split; [|split; [|split; assumption]].
    + apply nth_error_split in A as (a1 & r1 & Ea & La). replace (Z.to_nat p) with (S (Z.to_nat (p - 1))) in B by lia.
      replace (Z.to_nat (p + 1)) with (S (S (Z.to_nat (p - 1)))) by lia. rewrite <- La in *. rewrite Ea in *.
      rewrite nth_error_app2 in B by lia. replace (S (length a1) - length a1)%nat with 1%nat in B by lia. destruct r1 as [|l' r1]; [discriminate B|].
      injection B as ->. rewrite firstn_app, Nat.sub_diag, firstn_all. cbn [firstn]. rewrite app_nil_r.
      rewrite skipn_app, skipn_all2 by lia. replace (S (S (length a1)) - length a1)%nat with 2%nat by lia. reflexivity.
    + unfold zlen in *. rewrite firstn_length. lia.
Qed.
Definition splitsb (t : list Z) (p : Z) : bool :=
  match znth t (p - 1), znth t p with Some a, Some b => isHigh a && isLow b | _, _ => false end.
Lemma splitsb_iff t p : splitsb t p = true <-> splits_pair t p.
Proof.
  rewrite splits_at. unfold splitsb. destruct (znth t (p - 1)) as [a|]; [destruct (znth t p) as [b|]|].
  - rewrite andb_true_iff, isHigh_iff, isLow_iff. split; [intros []; eauto 6|]. intros (h & l & A & B & C & D). injection A as ->. injection B as ->. auto.
  - split; [discriminate|]. intros (h & l & _ & A & _). discriminate A.
  - split; [discriminate|]. intros (h & l & A & _). discriminate A.
Qed.
Lemma splits_once t p : splits_pair t p -> ~ splits_pair t (p - 1).
Proof.
  rewrite !splits_at. intros (h & l & A & B & C & D) (h' & l' & A' & B' & C' & D'). rewrite A in B'. injection B' as ->. unfold high, low in *. lia.
Qed.
Lemma splits_range t p : splits_pair t p -> 0 < p < zlen t.
Proof. rewrite splits_at. intros (h & l & A & B & _). apply znth_range in A, B. lia. Qed.

(** ** The functions *)

Definition moved (c : ctx) (t : list Z) : ctx :=
  mkCtx (c_flags c) (c_width c) (if splitsb t (c_prec c) then c_prec c - 1 else c_prec c) (c_dtf c).

Lemma cutAt_is s t p : den s t -> 0 <= p < zlen t -> cutAt s p = Ok (if splitsb t p then p - 1 else p).
Proof.
  intros D H. unfold cutAt, splitsb. destruct (0 <? p) eqn:E; bools.
  - destruct (znth_some t (p - 1) ltac:(lia)) as [a A]. destruct (znth_some t p ltac:(lia)) as [b B].
    rewrite A, B, (s_charAt_ok s t (p - 1) a D A), (s_charAt_ok s t p b D B). reflexivity.
  - assert (znth t (p - 1) = None) as -> by (unfold znth; replace (p - 1 <? 0) with true by (symmetry; apply Z.ltb_lt; lia); reflexivity). reflexivity.
Qed.

Lemma u_s_is c s t : rt_ok c -> den s t -> u_s c s = fmt_s (moved c t) s.
Proof.
  intros [_ Hp] D. unfold u_s, fmt_s. change (spaceJustify (moved c t)) with (spaceJustify c). unfold isPrecisionSet. cbn [moved c_prec].
  destruct Hp as [Hp|Hp].
  - rewrite Hp. cbn [Z.eqb UNSET negb andb].
    assert (splitsb t UNSET = false) as -> by (destruct (splitsb t UNSET) eqn:E; [|reflexivity]; apply splitsb_iff, splits_range in E; unfold UNSET in E; lia).
    reflexivity.
  - replace (c_prec c =? UNSET) with false by (symmetry; apply Z.eqb_neq; unfold UNSET; lia). cbn [negb andb]. rewrite (den_len _ _ D).
    destruct (splitsb t (c_prec c)) eqn:E.
    + pose proof (proj1 (splitsb_iff _ _) E) as R. apply splits_range in R.
      replace (c_prec c - 1 =? UNSET) with false by (symmetry; apply Z.eqb_neq; unfold UNSET; lia).
      replace (c_prec c <? zlen t) with true by (symmetry; apply Z.ltb_lt; lia). replace (c_prec c - 1 <? zlen t) with true by (symmetry; apply Z.ltb_lt; lia).
      rewrite (cutAt_is s t) by (assumption || lia). rewrite E. reflexivity.
    + replace (c_prec c =? UNSET) with false by (symmetry; apply Z.eqb_neq; unfold UNSET; lia).
      destruct (c_prec c <? zlen t) eqn:L; [|reflexivity]. bools. rewrite (cutAt_is s t) by (assumption || lia). rewrite E. reflexivity.
Qed.

Lemma moved_ok c t : rt_ok c -> rt_ok (moved c t).
Proof.
  intros [A B]. split; [exact A|]. cbn [moved c_prec]. destruct (splitsb t (c_prec c)) eqn:E; [|exact B]. apply splitsb_iff, splits_range in E. unfold UNSET in *. lia.
Qed.
Lemma moved_same c t : ~ splits_pair t (c_prec c) -> moved c t = c.
Proof. intros N. unfold moved. destruct (splitsb t (c_prec c)) eqn:E; [apply splitsb_iff in E; contradiction|]. destruct c; reflexivity. Qed.
Lemma moved_q c t p : q_prec (q_of c) = Some p -> splits_pair t p -> q_of (moved c t) = with_prec (q_of c) (p - 1).
Proof.
  unfold q_of, with_prec. cbn [q_prec]. destruct (c_prec c <? 0) eqn:E; [discriminate|]. intros X S. injection X as <-. pose proof (splits_range _ _ S).
  cbn [moved c_flags c_width c_prec]. rewrite (proj2 (splitsb_iff _ _) S). replace (c_prec c - 1 <? 0) with false by (symmetry; apply Z.ltb_ge; lia). reflexivity.
Qed.

Definition givesU (J : jdk) (s : spec) (c : ctx) (x : traits) (o : res (list Z)) : Prop :=
  match o with Ok t => exists u, formatterForU J s c x = Ok u /\ wden u t | Err e => formatterForU J s c x = Err e end.

Lemma text_same J s c x u t : rt_ok c -> text_conv s = true -> t_asSeq x = Ok u -> den u t -> formatterForU J s c x = formatterFor J s (moved c t) x.
Proof. intros Hc Hs E D. destruct s; try discriminate Hs; cbn [formatterForU formatterFor]; rewrite E; cbn [bind]; rewrite (u_s_is c u t Hc D); reflexivity. Qed.
Lemma text_err J s c x e : text_conv s = true -> t_asSeq x = Err e -> formatterForU J s c x = formatterFor J s c x.
Proof. intros Hs E. destruct s; try discriminate Hs; cbn [formatterForU formatterFor]; rewrite E; reflexivity. Qed.
Lemma char_same J c x : (forall v, t_asChar x = Ok v -> ~ surrogate v) -> formatterForU J Sc c x = formatterFor J Sc c x.
Proof.
  intros N. cbn [formatterForU formatterFor]. unfold u_c. destruct (t_asChar x) as [v|e]; [|reflexivity]. cbn [bind].
  destruct (isSurrogate v) eqn:E; [|reflexivity]. apply isSurrogate_iff in E. destruct (N v eq_refl E).
Qed.

Lemma unbroken_same J s c x o pat q : rt_ok c -> shown J s pat q x o -> q_of c = q -> unbroken J s q x -> formatterForU J s c x = formatterFor J s c x.
Proof.
  intros Hc H Q [U1 U2].
  assert (K : forall v t r, text_conv s = true -> x = traitsOf J v r -> has_text J v t -> formatterForU J s c x = formatterFor J s c x).
  { intros v t r Hs -> Ht. destruct (has_text_seq J v t r Ht) as (u & E & D). rewrite (text_same J s c _ u t Hc Hs E D), moved_same; [reflexivity|].
    intros S. pose proof (splits_range _ _ S). apply (U1 Hs v t r (c_prec c) eq_refl Ht); [|exact S]. rewrite <- Q. unfold q_of. cbn [q_prec].
    replace (c_prec c <? 0) with false by (symmetry; apply Z.ltb_ge; lia). reflexivity. }
  destruct H; try (destruct s; try discriminate; try reflexivity; fail).
  all: try (subst s; reflexivity).
  - destruct H as [-> | ->]; reflexivity.
  - subst s. apply char_same. intros w E. rewrite (char_of J v c0 r H0) in E. injection E as <-. exact (U2 eq_refl v c0 r eq_refl H0).
  - subst s. apply char_same. intros w E. rewrite (not_char_fails J v r H0 H1) in E. discriminate E.
  - subst s. apply char_same. intros w E. rewrite (proj2 (fails_int_is J o e r H0)) in E. discriminate E.
  - apply (K v t r H eq_refl). left. auto.
  - apply (K (VSeq u) t r H eq_refl). right. eauto.
  - apply (text_err J s c _ e H). apply obj_fails. assumption.
  - assert (D : den (wrapS (txt "null")) (txt "null")) by (apply wrapS_den; vm_compute; discriminate).
    rewrite (text_same J s c nullTraits (wrapS (txt "null")) (txt "null") Hc H eq_refl D), moved_same; [reflexivity|].
    intros S. apply splits_at in S as (h & l & A & _ & Hh & _). unfold znth in A. destruct (_ <? 0); [discriminate A|]. apply nth_error_In in A.
    cbn in A. unfold high in Hh. destruct A as [A|[A|[A|[A|[]]]]]; subst; cbn in Hh; lia.
  - destruct H as [H| ->]; [destruct s; try discriminate H; reflexivity|]. apply char_same. discriminate.
Qed.

(** ** One conversion *)

Lemma wholeChar_pair v s h l t : den s (h :: l :: t) -> v = h -> high h -> low l -> wholeChar v (Ok s) = [h; l].
Proof.
  intros D -> Hh Hl. unfold wholeChar. rewrite (den_len _ _ D), !zlen_cons. pose proof (zlen_nonneg t).
  replace (2 <=? 1 + (1 + zlen t)) with true by (symmetry; apply Z.leb_le; lia). rewrite (s_charAt_ok s _ 0 h D), (s_charAt_ok s _ 1 l D) by reflexivity.
  rewrite Z.eqb_refl, (proj2 (isHigh_iff h) Hh), (proj2 (isLow_iff l) Hl). reflexivity.
Qed.
Lemma wholeChar_lone v s t : den s t -> (forall l r, t = v :: l :: r -> high v -> ~ low l) -> wholeChar v (Ok s) = [65533].
Proof.
  intros D N. unfold wholeChar. rewrite (den_len _ _ D). destruct (2 <=? zlen t) eqn:L; [|reflexivity]. bools.
  destruct t as [|a [|b r]]; [cbn in L; lia|cbn in L; lia|]. rewrite (s_charAt_ok s _ 0 a D), (s_charAt_ok s _ 1 b D) by reflexivity.
  destruct (a =? v) eqn:E; [|reflexivity]. apply Z.eqb_eq in E. subst a. cbn [andb]. destruct (isHigh v && isLow b) eqn:E; [|reflexivity].
  apply andb_prop in E as [A B]. apply isHigh_iff in A. apply isLow_iff in B. destruct (N b r eq_refl A B).
Qed.

Lemma value_seq J v r : jdk_ok J -> java_value v -> (exists e, t_asSeq (traitsOf J v r) = Err e) \/ exists t s, has_text J v t /\ t_asSeq (traitsOf J v r) = Ok s /\ den s t.
Proof.
  intros HJ Hv. assert (X : (exists u, v = VSeq u) \/ forall u, v <> VSeq u) by (destruct v; try (right; discriminate); left; eauto). destruct X as [[u ->]|X].
  - destruct Hv as [t D]. right. exists t, u. split; [right; eauto|]. split; [reflexivity|exact D].
  - destruct (text_of J v HJ Hv X) as [(t & T & M)|(o & e & -> & E & _)]; [|left; exists e; apply obj_fails; exact E].
    right. assert (H : has_text J v t) by (left; auto). destruct (has_text_seq J v t r H) as (s & E & D). eauto.
Qed.

(** the function does what the reference says *)
Lemma whole_gives J s d q x o c : jdk_ok J -> shown_whole J s d q x o -> rt_ok c -> q_of c = q -> c_dtf c = d -> givesU J s c x o.
Proof.
  intros HJ H Hc Q D. destruct H as [x o U H|v t r p o Hs Ht Hp Sp H|v h l t r -> Hh Ht Hi Lo|v k r -> Hv Hk Su N].
  - pose proof (shown_gives J s d q x o c HJ H Hc Q D) as G. unfold givesU, gives in *. rewrite (unbroken_same J s c x o d q Hc H Q U). exact G.
  - destruct (has_text_seq J v t r Ht) as (u & E & Du). rewrite <- Q in Hp, H.
    assert (D' : c_dtf (moved c t) = d) by exact D.
    pose proof (shown_gives J s d _ _ o (moved c t) HJ H (moved_ok c t Hc) (moved_q c t p Hp Sp) D') as G.
    unfold givesU, gives in *. rewrite (text_same J s c _ u t Hc Hs E Du). exact G.
  - destruct (has_text_seq J v _ r Ht) as (u & E & Du). unfold givesU. cbn [formatterForU]. unfold u_c. rewrite (char_of J v h r Hh). cbn [bind].
    assert (Sg : surrogate h) by (unfold surrogate, high in *; lia). rewrite (proj2 (isSurrogate_iff h) Sg), E, (wholeChar_pair h u h l t Du eq_refl Hi Lo), <- Q.
    apply den_gives, spaceJustify_den; [exact Hc|]. apply wrapS_den. vm_compute. discriminate.
  - unfold givesU. cbn [formatterForU]. unfold u_c. rewrite (char_of J v k r Hk). cbn [bind]. rewrite (proj2 (isSurrogate_iff k) Su).
    assert (wholeChar k (t_asSeq (traitsOf J v r)) = [65533]) as ->.
    { destruct (value_seq J v r HJ Hv) as [[e E]|(t & s & Ht & E & Du)]; rewrite E; [reflexivity|]. apply (wholeChar_lone k s t Du). intros l w -> Hi Lo. exact (N l w Ht Hi Lo). }
    rewrite <- Q. apply den_gives, spaceJustify_den; [exact Hc|]. apply wrapS_den. vm_compute. discriminate.
Qed.

(** the reference says something for every argument *)
Lemma unbroken_text J s q x u t : text_conv s = true -> t_asSeq x = Ok u -> den u t -> (forall p, q_prec q = Some p -> ~ splits_pair t p) -> unbroken J s q x.
Proof.
  intros Hs E D N. split; [|intros ->; discriminate Hs]. intros _ v t' r p -> Ht Hp. destruct (has_text_seq J v t' r Ht) as (u' & E' & D').
  rewrite E in E'. injection E' as <-. rewrite <- (den_one _ _ _ D D'). exact (N p Hp).
Qed.
Lemma unbroken_other J s q x : text_conv s = false -> s <> Sc -> unbroken J s q x.
Proof. intros A B. split; [congruence|]. intros ->. contradiction. Qed.
Lemma null_text : den (wrapS (txt "null")) (txt "null").
Proof. apply wrapS_den. vm_compute. discriminate. Qed.
Lemma null_unsplit p : ~ splits_pair (txt "null") p.
Proof.
  intros S. apply splits_at in S as (h & l & A & _ & Hh & _). unfold znth in A. destruct (_ <? 0); [discriminate A|]. apply nth_error_In in A.
  cbn in A. unfold high in Hh. destruct A as [A|[A|[A|[A|[]]]]]; subst; cbn in Hh; lia.
Qed.

Lemma whole_total J x s d q : jdk_ok J -> argument J x -> exists o, shown_whole J s d q x o.
Proof.
  intros HJ Hx. destruct (text_conv s) eqn:Hs.
  - destruct Hx as [|v r Hv Hp Hr].
    + destruct (shown_total J nullTraits s d q HJ (arg_null J)) as [o S]. exists o. apply sw_same; [|exact S].
      apply (unbroken_text J s q nullTraits _ _ Hs eq_refl null_text). intros p _. apply null_unsplit.
    + assert (Ha : argument J (traitsOf J v r)) by (apply arg_value; assumption).
      destruct (value_seq J v r HJ Hv) as [[e E]|(t & u & Ht & E & D)].
      * destruct (shown_total J _ s d q HJ Ha) as [o S]. exists o. apply sw_same; [|exact S]. split; [|intros ->; discriminate Hs].
        intros _ v' t' r' p Ex Ht. destruct (has_text_seq J v' t' r' Ht) as (u' & E' & _). rewrite <- Ex, E in E'. discriminate E'.
      * destruct (q_prec q) as [p|] eqn:Ep.
        -- destruct (splitsb t p) eqn:B.
           ++ apply splitsb_iff in B. destruct (shown_total J _ s d (with_prec q (p - 1)) HJ Ha) as [o S]. exists o. apply (sw_cut J s d q v t r p); assumption.
           ++ destruct (shown_total J _ s d q HJ Ha) as [o S]. exists o. apply sw_same; [|exact S]. apply (unbroken_text J s q _ u t Hs E D).
              intros p' Hp'. rewrite Ep in Hp'. injection Hp' as <-. rewrite <- splitsb_iff, B. discriminate.
        -- destruct (shown_total J _ s d q HJ Ha) as [o S]. exists o. apply sw_same; [|exact S]. apply (unbroken_text J s q _ u t Hs E D).
           intros p' Hp'. rewrite Ep in Hp'. discriminate Hp'.
  - destruct (spec_eq s Sc) as [->|Ns].
    + destruct (shown_total J x Sc d q HJ Hx) as [o S].
      assert (K : (forall c, t_asChar x = Ok c -> ~ surrogate c) -> exists o, shown_whole J Sc d q x o).
      { intros N. exists o. apply sw_same; [|exact S]. split; [discriminate|]. intros _ v c r -> Hc. apply N, char_of, Hc. }
      destruct Hx as [|v r Hv Hp Hr]; [apply K; discriminate|].
      destruct (char_or_not J v Hv) as [(c & C)|[N|(w & e & -> & N)]].
      * destruct (isSurrogate c) eqn:Sg; [apply isSurrogate_iff in Sg|].
        -- destruct (value_seq J v r HJ Hv) as [[e E]|(t & u & Ht & E & D)].
           ++ eexists. apply (sw_lone J Sc d q v c r eq_refl Hv C Sg). intros l t Ht. exfalso.
              destruct (has_text_seq J v _ r Ht) as (u' & E' & _). rewrite E in E'. discriminate E'.
           ++ assert (O : forall l w, has_text J v (c :: l :: w) -> t = c :: l :: w) by (intros l w H; exact (has_text_one J v t r v _ r eq_refl Ht H)).
              destruct t as [|a [|b t]].
              ** eexists. apply (sw_lone J Sc d q v c r eq_refl Hv C Sg). intros l w H. apply O in H. discriminate H.
              ** eexists. apply (sw_lone J Sc d q v c r eq_refl Hv C Sg). intros l w H. apply O in H. discriminate H.
              ** destruct ((a =? c) && (isHigh a && isLow b)) eqn:B.
                 --- apply andb_prop in B as [B1 B2]. apply andb_prop in B2 as [B2 B3]. apply Z.eqb_eq in B1. subst a. apply isHigh_iff in B2. apply isLow_iff in B3.
                     eexists. apply (sw_pair J Sc d q v c b t r); auto.
                 --- eexists. apply (sw_lone J Sc d q v c r eq_refl Hv C Sg). intros l w H Hi Lo. apply O in H. injection H as -> -> ->.
                     rewrite Z.eqb_refl, (proj2 (isHigh_iff c) Hi), (proj2 (isLow_iff l) Lo) in B. discriminate B.
        -- apply K. intros c' E. rewrite (char_of J v c r C) in E. injection E as <-. intros X. apply isSurrogate_iff in X. congruence.
      * apply K. intros c E. rewrite (not_char_fails J v r Hv N) in E. discriminate E.
      * apply K. intros c E. rewrite (proj2 (fails_int_is J w e r N)) in E. discriminate E.
    + destruct (shown_total J x s d q HJ Hx) as [o S]. exists o. apply sw_same; [apply unbroken_other; assumption|exact S].
Qed.

(** ** Pieces and calls *)

Lemma piece_whole_appends J a args o : jdk_ok J -> sane a -> piece_whole J a args o ->
  match o with
  | Err e => appendOneU J a args = Err e
  | Ok (t, rest) => exists u, appendOneU J a args = Ok (u, rest) /\ forall emit, emits emit -> forall sb, emit u sb = (sb ++ t, None)
  end.
Proof.
  intros HJ Hs H. destruct H as [t args|s fl w p d args e W|s fl w p d args l w' a1 e W P|s fl w p d args l w' a1 p' W P|s fl w p d args l w' a1 p' x rest o W P S];
    cbn [appendOneU sane] in *.
  - exists (wrapS t). split; [reflexivity|]. intros emit He sb. apply wrapS_emits, He.
  - rewrite resolve_halves, (width_resolves J fl w p d args _ (proj1 Hs) W). reflexivity.
  - rewrite (resolves J fl w p d args l w' a1 _ Hs W P). reflexivity.
  - destruct (resolves J fl w p d args l w' a1 _ Hs W P) as (c & -> & _). reflexivity.
  - destruct (resolves J fl w p d args l w' a1 _ Hs W P) as (c & -> & Hc & Q & D). cbn [bind].
    pose proof (whole_gives J s d _ x _ c HJ S Hc Q D) as G. destruct o as [t|e]; cbn [givesU] in G.
    + destruct G as (u & -> & Wu). cbn [bind]. exists u. split; [reflexivity|]. intros emit He sb. apply wden_emits; assumption.
    + rewrite G. reflexivity.
Qed.

Lemma whole_runs J ds args t o : jdk_ok J -> Forall sane ds -> says_whole J ds args t o ->
  forall emit, emits emit -> forall sb, runU J emit ds args sb = (sb ++ t, o).
Proof.
  intros HJ Hs H emit He. induction H as [args|d ds args t rest u o P S IH|d ds args e P]; intros sb; cbn [runU].
  - rewrite app_nil_r. reflexivity.
  - inversion Hs as [|? ? Hd Hr]; subst. destruct (piece_whole_appends J d args _ HJ Hd P) as (s & -> & E). rewrite (E emit He), (IH Hr), app_assoc. reflexivity.
  - inversion Hs as [|? ? Hd Hr]; subst. rewrite (piece_whole_appends J d args _ HJ Hd P), app_nil_r. reflexivity.
Qed.

Lemma piece_whole_total J a args : jdk_ok J -> sane a -> Forall (argument J) args ->
  exists o, piece_whole J a args o /\ match o with Ok (_, rest) => Forall (argument J) rest | Err _ => True end.
Proof.
  intros HJ Hs Ha. destruct a as [t|s [fl w p d]]; [eexists; split; [apply pw_literal|exact Ha]|].
  destruct Hs as [Bw Bp]. cbn [c_width c_prec] in Bw, Bp.
  destruct (width_total J (f_left fl) w args HJ Bw Ha) as ([[[l w'] a1]|e] & W & Ha1); [|eexists; split; [apply pw_width_fails, W|exact I]].
  destruct (prec_total J p a1 HJ Bp Ha1) as ([[p' a2]|e] & P & Ha2); [|eexists; split; [eapply pw_prec_fails; eassumption|exact I]].
  destruct Ha2 as [|x rest Hx Hr]; [eexists; split; [eapply pw_missing; eassumption|exact I]|].
  destruct (whole_total J x s d (asked fl l w' p') HJ Hx) as [o S]. eexists. split; [eapply pw_shown; eassumption|]. destruct o; [exact Hr|exact I].
Qed.
Lemma whole_says_total J ds : jdk_ok J -> Forall sane ds -> forall args, Forall (argument J) args -> exists t o, says_whole J ds args t o.
Proof.
  intros HJ Hs. induction Hs as [|d r Hd Hr IH]; intros args Ha; [exists [], None; apply yw_end|].
  destruct (piece_whole_total J d args HJ Hd Ha) as ([[t rest]|e] & P & Hrest).
  - destruct (IH rest Hrest) as (u & o & S). exists (t ++ u), o. eapply yw_piece; eassumption.
  - exists [], (Some e). apply yw_stop, P.
Qed.

(** ** Well-formed output *)

Lemma unbroken_utf16 J s pat q x t : shown J s pat q x (Ok t) -> unbroken J s q x -> well_formed J s pat x -> (forall p, q_prec q = Some p -> 0 <= p) -> utf16 t.
Proof.
  intros H [U1 U2] [W1 W2 W3] Hp. set (k := mkCtx noFlags 0 (match q_prec q with Some p => p | None => UNSET end) pat).
  assert (C : forall v t0 r, x = traitsOf J v r -> text_conv s = true -> has_text J v t0 -> forall n, may_cut (c_prec k) n -> ~ splits_pair t0 n).
  { intros v t0 r Ex Hs Ht n [Hn|[Hn _]] Sp.
    - cbn [k c_prec] in Hn. destruct (q_prec q) as [p|] eqn:Eq; [subst n; exact (U1 Hs v t0 r p Ex Ht eq_refl Sp)|].
      apply splits_range in Sp. subst n. unfold UNSET in Sp. lia.
    - cbn [k c_prec] in Hn. destruct (q_prec q) as [p|] eqn:Eq; [specialize (Hp p eq_refl); unfold PRECEDING, int_min in Hn; lia|discriminate Hn]. }
  apply (shown_utf16 J s k q x t [Default s k] H); [left; reflexivity| |].
  - split.
    + intros s' k' v t0 r Ex [E|[]] Hs Hv Ht Hl. injection E as <- <-. assert (X : has_text J v t0) by (left; auto). split; [exact (W1 v t0 r Ex Hs X)|exact (C v t0 r Ex Hs X)].
    + intros s' k' u t0 r Ex [E|[]] Hs Ht. injection E as <- <-. assert (X : has_text J (VSeq u) t0) by (right; eauto). split; [exact (W1 _ t0 r Ex Hs X)|exact (C _ t0 r Ex Hs X)].
    + intros k' v c r Ex [E|[]] Hc. injection E as E _. exact (U2 E v c r Ex Hc).
    + intros s' k' v t0 d r Ex [E|[]] Hs Ht Hd. injection E as <- <-. exact (W2 v t0 d r Ex Hs Ht Hd).
    + intros k' v name hash Ex [E|[]]. injection E as E _. exact (W3 v name hash Ex E).
  - intros p Eq. split; [exact (Hp p Eq)|]. left. cbn [k c_prec]. rewrite Eq. reflexivity.
Qed.

Lemma whole_utf16 J s pat q x t : shown_whole J s pat q x (Ok t) -> well_formed J s pat x -> (forall p, q_prec q = Some p -> 0 <= p) -> utf16 t.
Proof.
  intros H W Hp. remember (Ok t) as o eqn:Eo. destruct H as [x o U H|v t0 r p o Hs Ht Eq Sp H|v h l t0 r -> Hh Ht Hi Lo|v k r -> Hv Hk Su N]; subst.
  - exact (unbroken_utf16 J s pat q x t H U W Hp).
  - destruct (has_text_seq J v t0 r Ht) as (u & E & D).
    apply (unbroken_utf16 J s pat _ _ t H); [|exact W|cbn [with_prec q_prec]; intros p' E'; injection E' as <-; apply splits_range in Sp; lia].
    apply (unbroken_text J s _ _ u t0 Hs E D). cbn [with_prec q_prec]. intros p' E'. injection E' as <-. apply splits_once, Sp.
  - injection Eo as <-. apply utf16_justify. apply uf_pair; [assumption|assumption|constructor].
  - injection Eo as <-. apply utf16_justify. constructor; [unfold surrogate; lia|constructor].
Qed.

Lemma piece_whole_utf16 J d args t rest : piece_whole J d args (Ok (t, rest)) -> (forall u, d = Fixed u -> utf16 u) ->
  (forall s k x, d = Default s k -> In x args -> well_formed J s (c_dtf k) x) -> utf16 t /\ incl rest args.
Proof.
  intros H Hf Hx. remember (Ok (t, rest)) as o eqn:E.
  destruct H as [u a| | | |s fl w p d a l w' a1 p' x rest' o Hw Hp Hs]; try discriminate E.
  - injection E as <- <-. split; [apply Hf; reflexivity|apply incl_refl].
  - destruct o as [u|]; [|discriminate E]. injection E as -> ->. pose proof (width_incl _ _ _ _ _ _ _ Hw) as I1. pose proof (prec_incl _ _ _ _ _ Hp) as I2. split.
    + apply (whole_utf16 J s d _ x t Hs).
      * apply (Hx s (mkCtx fl w p d) x eq_refl). apply I1, I2. left. reflexivity.
      * cbn [asked q_prec]. intros n Hn. apply (prec_may_cut J p a1 p' _ n Hp Hn).
    + intros y Hy. apply I1, I2. right. exact Hy.
Qed.
Lemma says_whole_utf16 J ds args t o : says_whole J ds args t o -> (forall u, In (Fixed u) ds -> utf16 u) ->
  (forall s k x, In (Default s k) ds -> In x args -> well_formed J s (c_dtf k) x) -> utf16 t.
Proof.
  induction 1 as [args|d ds args t rest u o P S IH|d ds args e P]; intros Hf Hx; [constructor| |constructor].
  destruct (piece_whole_utf16 J d args t rest P) as [A I1].
  - intros v ->. apply Hf. left. reflexivity.
  - intros s k x -> Hi. apply Hx; [left; reflexivity|exact Hi].
  - apply utf16_app; [exact A|]. apply IH; [intros v Hv; apply Hf; right; exact Hv|]. intros s k x Hd Hi. apply Hx; [right; exact Hd|apply I1, Hi].
Qed.

(** ** Where nothing changes *)

Lemma sound_unbroken J ds s k q x : sound_for J ds x -> In (Default s k) ds -> (forall p, q_prec q = Some p -> may_cut (c_prec k) p) -> unbroken J s q x.
Proof.
  intros [S1 S2 S3 _ _] Hd Hq. split.
  - intros Hs v t r p Ex [(A & B & C)|(u & -> & D)] Hp; [exact (proj2 (S1 s k v t r Ex Hd Hs A B C) p (Hq p Hp))|exact (proj2 (S2 s k u t r Ex Hd Hs D) p (Hq p Hp))].
  - intros -> v c r Ex Hc. exact (S3 k v c r Ex Hd Hc).
Qed.
Lemma piece_is_whole J ds d args o : piece J d args o -> In d ds -> (forall x, In x args -> sound_for J ds x) -> piece_whole J d args o.
Proof.
  intros H Hd Hx. destruct H as [t args|s fl w p d args e W|s fl w p d args l w' a1 e W P|s fl w p d args l w' a1 p' W P|s fl w p d args l w' a1 p' x rest e W P S|s fl w p d args l w' a1 p' x rest t W P S].
  - apply pw_literal.
  - apply pw_width_fails, W.
  - eapply pw_prec_fails; eassumption.
  - eapply pw_missing; eassumption.
  - apply (pw_shown J s fl w p d args l w' a1 p' x rest (Err e) W P). apply sw_same; [|exact S].
    apply (sound_unbroken J ds s (mkCtx fl w p d)); [|exact Hd|].
    + apply Hx. apply (width_incl _ _ _ _ _ _ _ W), (prec_incl _ _ _ _ _ P). left. reflexivity.
    + intros n Hn. exact (proj2 (prec_may_cut J p a1 p' _ n P Hn)).
  - apply (pw_shown J s fl w p d args l w' a1 p' x rest (Ok t) W P). apply sw_same; [|exact S].
    apply (sound_unbroken J ds s (mkCtx fl w p d)); [|exact Hd|].
    + apply Hx. apply (width_incl _ _ _ _ _ _ _ W), (prec_incl _ _ _ _ _ P). left. reflexivity.
    + intros n Hn. exact (proj2 (prec_may_cut J p a1 p' _ n P Hn)).
Qed.
Lemma says_is_whole J ds0 ds args t o : says J ds args t o -> incl ds ds0 -> (forall x, In x args -> sound_for J ds0 x) -> says_whole J ds args t o.
Proof.
  induction 1 as [args|d ds args t rest u o P S IH|d ds args e P]; intros I0 Hx; [constructor| |].
  - pose proof (I0 d (or_introl eq_refl)) as Hd. destruct (piece_from J d args t rest ds0 P Hd) as [I1 _]. eapply yw_piece; [exact (piece_is_whole J ds0 d args _ P Hd Hx)|].
    apply IH; [intros y Hy; apply I0; right; exact Hy|intros y Hy; apply Hx, I1, Hy].
  - apply yw_stop. exact (piece_is_whole J ds0 d args _ P (I0 d (or_introl eq_refl)) Hx).
Qed.

(** ** What changes *)

Lemma utf16_case_iff s t : utf16 (in_case s t) <-> utf16 t.
Proof.
  split; [|apply utf16_case]. unfold in_case. destruct (is_upper s); [|auto]. intros H. remember (map ascii_upper t) as u eqn:E. revert t E.
  induction H as [|c u Hc H IH|h l u Hh Hl H IH]; intros t E.
  - destruct t; [constructor|discriminate E].
  - destruct t as [|x t]; [discriminate E|]. injection E as -> ->. constructor; [rewrite <- upper_surrogate; exact Hc|apply IH; reflexivity].
  - destruct t as [|x [|y t]]; try discriminate E. injection E as E1 E2 ->.
    assert (A : surrogate x) by (rewrite <- upper_surrogate, <- E1; unfold surrogate, high in *; lia).
    assert (B : surrogate y) by (rewrite <- upper_surrogate, <- E2; unfold surrogate, low in *; lia).
    rewrite upper_same in E1, E2 by assumption. subst. apply uf_pair; [assumption|assumption|apply IH; reflexivity].
Qed.

(** a broken text or character is ill-formed *)
Lemma broken_text J s pat q v t r p o : text_conv s = true -> has_text J v t -> q_prec q = Some p -> splits_pair t p -> utf16 t ->
  shown J s pat q (traitsOf J v r) (Ok o) -> ~ utf16 o.
Proof.
  intros Hs Ht Hp Sp U H. pose proof (splits_range _ _ Sp) as R. remember (traitsOf J v r) as x eqn:Ex. remember (Ok o) as w eqn:Ew.
  assert (F : ~ utf16 (firstn (Z.to_nat p) t)) by (rewrite (utf16_firstn_iff t p U) by lia; tauto).
  destruct H; try discriminate Ew; try (destruct s; discriminate); try (subst s; discriminate Hs); try (destruct H; subst s; discriminate Hs); injection Ew as <-.
  - assert (t0 = t) as -> by (apply (has_text_one J v0 t0 r0 v t r Ex); [left; auto|exact Ht]).
    rewrite utf16_case_iff. unfold c_s. rewrite Hp, utf16_justify_iff. exact F.
  - assert (t0 = t) as -> by (apply (has_text_one J (VSeq u) t0 r0 v t r Ex); [right; eauto|exact Ht]).
    rewrite utf16_case_iff. unfold seq_text. rewrite Hp. replace (p <? zlen t) with true by (symmetry; apply Z.ltb_lt; lia). rewrite utf16_justify_iff. exact F.
  - exfalso. destruct (has_text_seq J v t r Ht) as (u & E & D). rewrite <- Ex in E. injection E as <-.
    rewrite <- (den_one _ _ _ null_text D) in Sp. exact (null_unsplit p Sp).
Qed.
Lemma broken_char J pat q v c r o : is_char J v c -> surrogate c -> shown J Sc pat q (traitsOf J v r) (Ok o) -> ~ utf16 o.
Proof.
  intros Hc Su H. remember (traitsOf J v r) as x eqn:Ex. remember (Ok o) as w eqn:Ew. pose proof (char_of J v c r Hc) as C. rewrite <- Ex in C.
  destruct H; try discriminate Ew; try discriminate; try (destruct H; discriminate); injection Ew as <-.
  rewrite (char_of J v0 c0 r0) in C by assumption. injection C as ->. rewrite utf16_justify_iff. intros U. inversion U. contradiction.
Qed.

(** ** The same exceptions *)

Lemma text_ok J s pat q v t r o : text_conv s = true -> has_text J v t -> shown J s pat q (traitsOf J v r) o -> exists u, o = Ok u.
Proof.
  intros Hs Ht H. destruct (has_text_seq J v t r Ht) as (u & E & _). remember (traitsOf J v r) as x eqn:Ex.
  destruct H; try (eexists; reflexivity); try (destruct s; discriminate); try (subst s; discriminate Hs).
  - exfalso. rewrite (obj_fails J o r0 e) in E by assumption. discriminate E.
  - destruct H as [H| ->]; [destruct s; discriminate|discriminate Hs].
Qed.
Lemma char_ok J pat q v c r o : is_char J v c -> shown J Sc pat q (traitsOf J v r) o -> exists u, o = Ok u.
Proof.
  intros Hc H. pose proof (char_of J v c r Hc) as C. remember (traitsOf J v r) as x eqn:Ex.
  destruct H; try (eexists; reflexivity); try discriminate.
  - rewrite (not_char_fails J v0 r0) in C by assumption. discriminate C.
  - rewrite (proj2 (fails_int_is J o e r0 H0)) in C. discriminate C.
Qed.

Definition alike {A} (o o' : res A) : Prop := match o, o' with Ok _, Ok _ => True | Err e, Err e' => e = e' | _, _ => False end.
Lemma shown_pair J s d q x o : jdk_ok J -> argument J x -> shown J s d q x o -> exists o', shown_whole J s d q x o' /\ alike o o'.
Proof.
  intros HJ Hx H. destruct (whole_total J x s d q HJ Hx) as [o' W]. destruct W as [x o' U _|v t r p o' Hs Ht Hp Sp H'|v h l t r -> Hh Ht Hi Lo|v k r -> Hv Hk Su N].
  - exists o. split; [apply sw_same; assumption|]. destruct o; cbn; auto.
  - exists o'. split; [eapply sw_cut; eassumption|]. destruct (text_ok J s d q v t r o Hs Ht H) as [u ->]. destruct (text_ok J s d _ v t r o' Hs Ht H') as [u' ->]. exact I.
  - eexists. split; [eapply sw_pair; eauto|]. destruct (char_ok J d q v h r o Hh H) as [u ->]. exact I.
  - eexists. split; [eapply sw_lone; eauto|]. destruct (char_ok J d q v k r o Hk H) as [u ->]. exact I.
Qed.
Lemma says_pair J ds args t o : jdk_ok J -> Forall (argument J) args -> says J ds args t o -> exists t', says_whole J ds args t' o.
Proof.
  intros HJ Ha H. induction H as [args|d ds args t rest u o P S IH|d ds args e P].
  - exists []. constructor.
  - remember (Ok (t, rest)) as w eqn:E. destruct P as [t0 a| | | | |s fl w p d a l w' a1 p' x rest' t0 Hw Hp Hs]; try discriminate E; injection E as -> ->.
    + destruct (IH Ha) as [t' W]. exists (t ++ t'). eapply yw_piece; [apply pw_literal|exact W].
    + assert (A1 : Forall (argument J) (x :: rest)).
      { apply Forall_forall. intros y Hy. rewrite Forall_forall in Ha. apply Ha, (width_incl _ _ _ _ _ _ _ Hw), (prec_incl _ _ _ _ _ Hp), Hy. }
      inversion A1 as [|? ? Hx Hr]; subst. destruct (IH Hr) as [t' W]. destruct (shown_pair J s d _ x _ HJ Hx Hs) as ([t1|e] & S1 & X); [|destruct X].
      exists (t1 ++ t'). eapply yw_piece; [|exact W]. exact (pw_shown J s fl w p d a l w' a1 p' x rest (Ok t1) Hw Hp S1).
  - exists []. apply yw_stop. remember (Err e) as w eqn:E.
    destruct P as [t args|s fl w p d args e' W|s fl w p d args l w' a1 e' W P|s fl w p d args l w' a1 p' W P|s fl w p d args l w' a1 p' x rest e' W P S|s fl w p d args l w' a1 p' x rest t W P S];
      try discriminate E; injection E as <-.
    + apply pw_width_fails, W.
    + eapply pw_prec_fails; eassumption.
    + eapply pw_missing; eassumption.
    + assert (Hx : argument J x).
      { rewrite Forall_forall in Ha. apply Ha, (width_incl _ _ _ _ _ _ _ W), (prec_incl _ _ _ _ _ P). left. reflexivity. }
      destruct (shown_pair J s d _ x _ HJ Hx S) as ([t1|e1] & S1 & X); [destruct X|]. cbn in X. subst e1.
      exact (pw_shown J s fl w p d args l w' a1 p' x rest (Err e') W P S1).
Qed.
