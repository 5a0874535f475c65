(** Proofs about arguments whose class implements CharSequence. *)
From Verif Require Import Base Digits UtilsM SeqM SeqSpec SeqP SeqSubP ContextM CompilerM GrammarSpec CompilerP2 IntFormM FormatterM FmtSpec FmtP MathM
  DecimalM FPDecimalM DoubleM BigDecM RoundM TraitsM ImplM ImplP DirSpec IntP LoopSpec LoopP ValueSpec ValueP CastP CsM CsSpec.

Lemma readChars_is at_ t i k : 0 <= i -> (forall j c, znth t j = Some c -> at_ (i + j) = Ok c) -> k = length t ->
  readChars at_ i k = Ok t.
Proof.
  revert i k. induction t as [|x t IH]; intros i k Hi H ->; [reflexivity|]. cbn [length readChars].
  rewrite <- (Z.add_0_r i) at 1. rewrite (H 0 x eq_refl). cbn [bind]. rewrite (IH (i + 1) (length t)); try reflexivity; try lia.
  intros j c Hj. replace (i + 1 + j) with (i + (1 + j)) by lia. apply H. unfold znth in *.
  destruct (j <? 0) eqn:E; [discriminate|]. apply Z.ltb_ge in E. replace (1 + j <? 0) with false by (symmetry; apply Z.ltb_ge; lia).
  replace (Z.to_nat (1 + j)) with (S (Z.to_nat j)) by lia. exact Hj.
Qed.

Lemma append_reads o t sb : reads o t -> appendCs o sb = Ok (sb ++ t).
Proof.
  intros (L & _ & A). unfold appendCs. rewrite L. cbn [bind]. pose proof (zlen_nonneg t).
  replace (zlen t <? 0) with false by (symmetry; apply Z.ltb_ge; lia).
  rewrite (readChars_is (cs_charAt o) t 0); [reflexivity|lia|exact A|unfold zlen; lia].
Qed.

Lemma seq_reads o t : reads o t -> exists a, csSeq o = Ok (Leaf a) /\ den_atom a t.
Proof.
  intros H. pose proof H as (L & M & _). destruct (s_lazy_den t (appendCs o) M (fun sb => append_reads o t sb H)) as (a & Ea & Da).
  exists a. split; [|exact Da]. unfold csSeq. rewrite L. cbn [bind]. rewrite Ea. reflexivity.
Qed.

Lemma char_reads o t J r : reads o t -> csChar o = t_asChar (traitsOf J (VStr t) r).
Proof.
  intros (L & M & A). unfold csChar. rewrite L. cbn [traitsOf charSeqTraits t_asChar bind]. destruct t as [|z t]; [reflexivity|].
  rewrite zlen_cons. pose proof (zlen_nonneg t). replace (1 <=? 1 + zlen t) with true by (symmetry; apply Z.leb_le; lia).
  rewrite (A 0 z eq_refl). cbn [s_charAt wrapS]. symmetry. apply (a_charAt_ok _ (z :: t)); [|reflexivity]. apply s_wrap_den. exact M.
Qed.

(** ** Two arguments no directive tells apart *)
Section Alike.
  Variable J : jdk.

  Definition same_result (x y : res seq) : Prop :=
    match x, y with
    | Ok s, Ok s' => forall b sb, (if b : bool then emitSB else emitApp) s sb = (if b then emitSB else emitApp) s' sb
    | Err e, Err e' => e = e'
    | _, _ => False
    end.

  Lemma same_refl x : same_result x x.
  Proof. destruct x; [intros b sb|]; reflexivity. Qed.

  Definition alike (x y : traits) : Prop :=
    t_asInt x = t_asInt y /\ forall sp c, rt_ok c -> same_result (formatterFor J sp c x) (formatterFor J sp c y).

  Lemma alike_refl x : alike x x.
  Proof. split; [reflexivity|]. intros. apply same_refl. Qed.

  Lemma alike_resolve c it xs : Forall2 alike it xs ->
    match resolveCtx c xs with
    | Ok (c', xs') => exists it', resolveCtx c it = Ok (c', it') /\ Forall2 alike it' xs'
    | Err e => resolveCtx c it = Err e
    end.
  Proof.
    intros F.
    assert (N : forall it xs, Forall2 alike it xs -> match nextInt xs with
      | Ok (w, xs') => exists it', nextInt it = Ok (w, it') /\ Forall2 alike it' xs'
      | Err e => nextInt it = Err e end).
    { intros i l [|a x i' l' Hx Hr]; cbn [nextInt]; [reflexivity|]. rewrite (proj1 Hx).
      destruct (t_asInt x) as [w|e]; cbn [bind]; [|reflexivity]. exists i'. split; [reflexivity|exact Hr]. }
    unfold resolveCtx.
    assert (P : forall c1 it xs, Forall2 alike it xs ->
      match (if isPrecedingPrecision c1 then let* (p, it) := nextInt xs in let* c := setPrecision c1 (if 0 <=? p then p else UNSET) in Ok (c, it) else Ok (c1, xs)) with
      | Ok (c', xs') => exists it', (if isPrecedingPrecision c1 then let* (p, it) := nextInt it in let* c := setPrecision c1 (if 0 <=? p then p else UNSET) in Ok (c, it) else Ok (c1, it)) = Ok (c', it') /\ Forall2 alike it' xs'
      | Err e => (if isPrecedingPrecision c1 then let* (p, it) := nextInt it in let* c := setPrecision c1 (if 0 <=? p then p else UNSET) in Ok (c, it) else Ok (c1, it)) = Err e end).
    { intros c1 i l Fl. destruct (isPrecedingPrecision c1); [|exists i; auto]. specialize (N i l Fl). destruct (nextInt l) as [[p l']|e]; cbn [bind].
      - destruct N as (i' & Ei & Fi). rewrite Ei. cbn [bind]. destruct (setPrecision c1 (if 0 <=? p then p else UNSET)); cbn [bind]; [exists i'; auto|reflexivity].
      - rewrite N. reflexivity. }
    destruct (isPrecedingWidth c); cbn [bind]; [|apply P; exact F].
    pose proof (N it xs F) as N1. destruct (nextInt xs) as [[w xs']|e]; cbn [bind]; [|rewrite N1; reflexivity].
    destruct N1 as (i' & Ei & Fi). rewrite Ei. cbn [bind].
    destruct (if 0 <=? w then setWidth c w else setWidth (addFlag c LEFT_JUSTIFY) (wrap32 (- w))) as [c1|e]; cbn [bind]; [|reflexivity]. apply P. exact Fi.
  Qed.

  Definition small_int (x : traits) : Prop := forall w, t_asInt x = Ok w -> is_int w.

  Lemma rest_small c xs c' xs' : Forall small_int xs -> resolveCtx c xs = Ok (c', xs') -> Forall small_int xs'.
  Proof.
    assert (N : forall l w l', Forall small_int l -> nextInt l = Ok (w, l') -> Forall small_int l').
    { intros [|x l] w l' F E; cbn [nextInt] in E; [discriminate|]. destruct (t_asInt x); cbn [bind] in E; [|discriminate]. injection E as _ <-.
      inversion F; assumption. }
    unfold resolveCtx. intros F E.
    assert (P : forall c1 l, Forall small_int l ->
      (if isPrecedingPrecision c1 then let* (p, it) := nextInt l in let* c := setPrecision c1 (if 0 <=? p then p else UNSET) in Ok (c, it) else Ok (c1, l)) = Ok (c', xs') ->
      Forall small_int xs').
    { intros c1 l Fl El. destruct (isPrecedingPrecision c1); [|injection El as _ <-; exact Fl].
      destruct (nextInt l) as [[p l']|e] eqn:El1; cbn [bind] in El; [|discriminate].
      destruct (setPrecision c1 (if 0 <=? p then p else UNSET)); cbn [bind] in El; [|discriminate]. injection El as _ <-. exact (N _ _ _ Fl El1). }
    destruct (isPrecedingWidth c); cbn [bind] in E; [|exact (P _ _ F E)].
    destruct (nextInt xs) as [[w l']|e] eqn:El; cbn [bind] in E; [|discriminate].
    destruct (if 0 <=? w then setWidth c w else setWidth (addFlag c LEFT_JUSTIFY) (wrap32 (- w))) as [c1|e]; cbn [bind] in E; [|discriminate].
    exact (P _ _ (N _ _ _ F El) E).
  Qed.

  Lemma alike_run b ds : Forall sane ds -> forall it xs sb, Forall2 alike it xs -> Forall small_int xs ->
    run J (if b : bool then emitSB else emitApp) ds it sb = run J (if b then emitSB else emitApp) ds xs sb.
  Proof.
    intros Hs. induction Hs as [|d ds Hd Hs IH]; intros it xs sb F G; cbn [run]; [reflexivity|].
    destruct d as [t|sp c]; cbn [appendOne].
    - destruct ((if b then emitSB else emitApp) (wrapS t) sb) as [sb' [e|]]; [reflexivity|]. apply IH; assumption.
    - pose proof (alike_resolve c it xs F) as Q. pose proof (rest_small c xs) as G'. destruct (resolveCtx c xs) as [[c' xs']|e] eqn:Er; cbn [bind]; [|rewrite Q; reflexivity].
      destruct Q as (it' & Ei & Fi). rewrite Ei. cbn [bind].
      assert (Hc : rt_ok c') by (apply (resolved_ok _ _ _ _ Hd Er); exact G).
      specialize (G' c' xs' G eq_refl).
      destruct Fi as [|a x l l' Hx Hr]; [reflexivity|]. pose proof (proj2 Hx sp c' Hc) as Q.
      destruct (formatterFor J sp c' x) as [s|e], (formatterFor J sp c' a) as [s'|e']; cbn [same_result bind] in *; try contradiction; [|congruence].
      rewrite Q. destruct ((if b then emitSB else emitApp) s sb) as [sb' [e|]]; [reflexivity|]. apply IH; [exact Hr|]. inversion G'; assumption.
  Qed.
End Alike.

(** ** The conversions of a CharSequence *)
Section Conv.
  Variable J : jdk.

  Lemma text_like o t r r' sp c : sp = Ss \/ sp = SS -> rt_ok c -> reads o t ->
    same_result (formatterFor J sp c (csTraits J o r)) (formatterFor J sp c (traitsOf J (VStr t) r')).
  Proof.
    intros Hs Hc H. pose proof H as (_ & M & _). destruct (seq_reads o t H) as (a & Ea & Da).
    destruct (fmt_s_den c a t Hc Da) as (s & Es & Ds). destruct (fmt_s_den c (s_wrap t) t Hc (s_wrap_den t M)) as (s' & Es' & Ds').
    destruct Hs as [-> | ->]; cbn [formatterFor csTraits traitsOf charSeqTraits t_asSeq]; rewrite Ea; cbn [bind]; change (wrapS t) with (Leaf (s_wrap t)); rewrite Es, Es'.
    - intros b sb. rewrite !(wden_emits _ _ (c_s (q_of c) t)); auto using emits_if, den_wden.
    - unfold upperOf. cbn [bind]. destruct (s_upper_den s _ Ds) as (v & Ev & Dv). destruct (s_upper_den s' _ Ds') as (v' & Ev' & Dv'). rewrite Ev, Ev'.
      intros b sb. rewrite !(wden_emits _ _ (map ascii_upper (c_s (q_of c) t))); auto using emits_if, den_wden.
  Qed.
End Conv.

(** ** Objects whose charAt() throws *)
Section Breaks.
  Variable J : jdk.

  Lemma read_breaks at_ e : forall k i m, 0 <= m -> m < Z.of_nat k -> at_ (i + m) = Err e ->
    (forall j, 0 <= j < m -> exists c, at_ (i + j) = Ok c) -> readChars at_ i k = Err e.
  Proof.
    induction k as [|k IH]; intros i m Hm Hk E A; [lia|]. cbn [readChars]. destruct (Z.eqb_spec m 0) as [-> |N].
    - rewrite Z.add_0_r in E. rewrite E. reflexivity.
    - destruct (A 0 ltac:(lia)) as [c Ec]. rewrite Z.add_0_r in Ec. rewrite Ec. cbn [bind].
      rewrite (IH (i + 1) (m - 1)); [reflexivity|lia|lia|replace (i + 1 + (m - 1)) with (i + m) by lia; exact E|].
      intros j Hj. replace (i + 1 + j) with (i + (1 + j)) by lia. apply A. lia.
  Qed.

  Lemma append_breaks o n e sb : breaks o n e -> appendCs o sb = Err e.
  Proof.
    intros (L & B & i & Hi & E & A). unfold appendCs. rewrite L. cbn [bind]. replace (n <? 0) with false by (symmetry; apply Z.ltb_ge; lia).
    rewrite (read_breaks (cs_charAt o) e (Z.to_nat n) 0 i); [reflexivity|lia|lia|exact E|exact A].
  Qed.

  Lemma seq_breaks o n e : breaks o n e -> csSeq o = if n =? 1 then Err e else Ok (Leaf (ALazy (appendCs o) n)).
  Proof.
    intros H. pose proof H as (L & B & _). unfold csSeq. rewrite L. cbn [bind]. unfold s_lazy, checkArgument.
    replace (0 <=? n) with true by (symmetry; apply Z.leb_le; lia). replace (n =? 0) with false by (symmetry; apply Z.eqb_neq; lia). cbn [bind].
    destruct (n =? 1); [|reflexivity]. unfold buildEagerly. rewrite (append_breaks _ _ _ _ H). reflexivity.
  Qed.

  Definition cut_by (q : fspec) (n : Z) : bool := match q_prec q with Some p => p <? n | None => false end.

  Lemma breaks_formatter o n e c r : rt_ok c -> breaks o n e ->
    formatterFor J SS c (csTraits J o r) = Err e /\
    (if (n =? 1) || cut_by (q_of c) n then formatterFor J Ss c (csTraits J o r) = Err e
     else exists s, formatterFor J Ss c (csTraits J o r) = Ok s /\
       forall b sb, (if b : bool then emitSB else emitApp) s sb = (sb ++ (if q_left (q_of c) then [] else spaces (q_width (q_of c) - n)), Some e)).
  Proof.
    intros Hc H. pose proof H as (_ & B & _). cbn [formatterFor csTraits t_asSeq]. rewrite (seq_breaks _ _ _ H).
    destruct (Z.eqb_spec n 1) as [E1|E1]; cbn [orb bind]; [split; reflexivity|].
    assert (Ecut : (isPrecisionSet c && (c_prec c <? n) = cut_by (q_of c) n) /\ (cut_by (q_of c) n = true -> 0 <= c_prec c <= n)).
    { unfold cut_by. destruct (prec_cases c Hc) as [(P1 & P2 & P3)|(P1 & P2 & P3)]; rewrite P1, P3; cbn [andb].
      - split; [reflexivity|discriminate].
      - split; [reflexivity|]. intros E. apply Z.ltb_lt in E. lia. }
    destruct Ecut as [Ecut Epr]. unfold fmt_s. cbn [s_len a_len]. rewrite Ecut.
    destruct (cut_by (q_of c) n) eqn:Eb.
    - specialize (Epr eq_refl). cbn [s_sub a_sub]. unfold checkPositionIndexes.
      replace (0 <? 0) with false by reflexivity.
      replace (c_prec c <? 0) with false by (symmetry; apply Z.ltb_ge; lia). replace (n <? c_prec c) with false by (symmetry; apply Z.ltb_ge; lia).
      cbn [orb bind]. unfold getCachedString, buildEagerly. rewrite (append_breaks _ _ _ _ H). split; reflexivity.
    - cbn [bind].
      assert (Ql : forall b sb, (if b : bool then a_toSB else a_toApp) (ALazy (appendCs o) n) sb = Err e).
      { intros [|] sb; cbn [a_toSB a_toApp]; unfold getCachedString, buildEagerly; rewrite (append_breaks _ _ _ _ H); reflexivity. }
      assert (Qu : a_upper (ALazy (appendCs o) n) = Err e).
      { cbn [a_upper]. unfold getCachedString, buildEagerly. rewrite (append_breaks _ _ _ _ H). reflexivity. }
      set (a := ALazy (appendCs o) n) in *. assert (Na : a <> AEmpty) by discriminate. assert (La : s_len (Leaf a) = n) by reflexivity. clearbody a.
      destruct (width_val c Hc) as (W1 & W2 & W3 & W4). unfold spaceJustify. rewrite La.
      destruct (Z.ltb_spec n (width c)) as [L|L].
      + assert (Ew : width c = q_width (q_of c)) by (apply W2; unfold int_min; lia). rewrite Ew in *.
        rewrite FmtP.wrap32_small by (unfold int_max in *; lia).
        unfold repeated. destruct (s_repeated_den (ch " ") (q_width (q_of c) - n)) as (p & Ep & Dp); [rewrite int_max_val; lia|].
        rewrite Ep. cbn [bind]. change (hasFlag c LEFT_JUSTIFY) with (q_left (q_of c)).
        assert (Np : s_isEmpty (Leaf p) = false).
        { unfold s_isEmpty. cbn [s_len]. rewrite (den_atom_len _ _ Dp), zlen_rep by lia. apply Z.eqb_neq. lia. }
        assert (Ap : s_append (Leaf a) (Leaf p) = concat0 (Leaf a) (Leaf p) /\ s_prepend (Leaf a) (Leaf p) = concat0 (Leaf p) (Leaf a))
          by (unfold s_append, s_prepend; rewrite Np; destruct a; try congruence; split; reflexivity).
        destruct Ap as [-> ->].
        assert (I2 : forall x y, s_iter (concat0 (Leaf x) (Leaf y)) = Ok [x; y]) by reflexivity.
        assert (U2 : forall x y, s_upper (concat0 (Leaf x) (Leaf y)) = (let* ups := mapM a_upper [x; y] in Ok (Arr ups (s_len (concat0 (Leaf x) (Leaf y)))))) by reflexivity.
        assert (O2 : forall (b : bool) x y sb, (if b then emitSB else emitApp) (concat0 (Leaf x) (Leaf y)) sb = emitAtoms (if b then a_toSB else a_toApp) [x; y] sb)
          by (intros [|] x y sb; reflexivity).
        destruct (s_upper_den (Leaf p) _ (den_leaf _ _ Dp)) as (p' & Ep' & _). cbn [s_upper] in Ep'. destruct (a_upper p) as [p1|] eqn:Eup; [|discriminate].
        destruct (q_left (q_of c)).
        * split; [unfold upperOf; cbn [bind]; rewrite U2; cbn [mapM]; rewrite Qu; reflexivity|].
          eexists. split; [reflexivity|]. intros b sb. rewrite O2. cbn [emitAtoms]. rewrite Ql, app_nil_r. reflexivity.
        * split; [unfold upperOf; cbn [bind]; rewrite U2; cbn [mapM]; rewrite Eup, Qu; reflexivity|].
          eexists. split; [reflexivity|]. intros b sb. rewrite O2. cbn [emitAtoms].
          replace ((if b then a_toSB else a_toApp) p sb) with (Ok (sb ++ rep (ch " ") (q_width (q_of c) - n)))
            by (destruct b; symmetry; [apply a_toSB_den|apply a_toApp_den]; exact Dp).
          rewrite Ql. reflexivity.
      + split; [unfold upperOf; cbn [bind s_upper]; rewrite Qu; reflexivity|]. eexists. split; [reflexivity|]. intros b sb.
        replace ((if b then emitSB else emitApp) (Leaf a) sb) with (emitAtoms (if b then a_toSB else a_toApp) [a] sb) by (destruct b; reflexivity).
        cbn [emitAtoms]. rewrite Ql. destruct (q_left (q_of c)); [rewrite app_nil_r; reflexivity|].
        destruct (Z.leb_spec (q_width (q_of c)) n) as [L2|L2]; [unfold spaces; rewrite rep_nonpos, app_nil_r by lia; reflexivity|].
        exfalso. destruct (Z.eq_dec (width c) int_min) as [E|E]; [|specialize (W2 E); lia]. rewrite E in W1. unfold int_min in W1. lia.
  Qed.
End Breaks.
