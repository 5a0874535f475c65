(** Proofs about sequences of classes outside the library. *)
From Verif Require Import Base Digits UtilsM SeqM SeqSpec SeqP SeqSubP ContextM CompilerM GrammarSpec CompilerP2 IntFormM FormatterM FmtSpec FmtP MathM
  DecimalM FPDecimalM DoubleM BigDecM RoundM TraitsM ImplM ImplP DirSpec IntP LoopSpec LoopP ValueSpec ValueP CastP UserM UserSpec.

(** ** Default methods *)
Section Defaults.
  Variable t : list Z.
  Variable at_ : Z -> res Z.
  Hypothesis Hat : forall i c, znth t i = Some c -> at_ i = Ok c.

  Lemma d_append_is sb : d_append (zlen t) at_ sb = Ok (sb ++ t).
  Proof.
    unfold d_append. destruct (zlen t =? 0) eqn:E; bools.
    - apply zlen_0_nil in E. rewrite E, app_nil_r. reflexivity.
    - pose proof (zlen_nonneg t). rewrite (appendLoop_spec at_ t); try lia; [rewrite slice_full; reflexivity|].
      intros j x _ Hx. apply Hat. exact Hx.
  Qed.

  Lemma d_indexOf_is c : d_indexOf (zlen t) at_ c = Ok (index_of c t).
  Proof.
    unfold d_indexOf.
    assert (G : forall r p, t = p ++ r -> indexLoop (List.length r) at_ (zlen p) (zlen t) c = Ok (if index_of c r =? -1 then -1 else zlen p + index_of c r)).
    { induction r as [|x r IH]; intros p E; cbn [List.length indexLoop index_of].
      - reflexivity.
      - assert (Hx : znth t (zlen p) = Some x) by (rewrite E, Base.znth_app_r by lia; rewrite Z.sub_diag; reflexivity).
        pose proof (znth_range _ _ _ Hx). replace (zlen p <? zlen t) with true by (symmetry; apply Z.ltb_lt; lia).
        rewrite (Hat _ _ Hx). cbn [bind]. destruct (x =? c).
        + cbn. f_equal. lia.
        + replace (zlen p + 1) with (zlen (p ++ [x])) by (rewrite zlen_app; reflexivity). rewrite (IH (p ++ [x])) by (rewrite E, <- app_assoc; reflexivity).
          rewrite zlen_app. change (zlen [x]) with 1.
          assert (B : -1 <= index_of c r).
          { clear. induction r as [|y r IH]; cbn [index_of]; [lia|]. destruct (y =? c); [lia|]. destruct (index_of c r =? -1); lia. }
          destruct (index_of c r =? -1) eqn:D; [reflexivity|]. bools. destruct (Z.eqb_spec (index_of c r + 1) (-1)); [lia|]. f_equal. lia. }
    specialize (G t [] eq_refl). change (zlen []) with 0 in G. unfold zlen at 1. rewrite Nat2Z.id. rewrite G. f_equal.
    destruct (Z.eqb_spec (index_of c t) (-1)); lia.
  Qed.

  Lemma d_startsWith_is c : d_startsWith (zlen t) at_ c = Ok (match t with x :: _ => x =? c | [] => false end).
  Proof.
    unfold d_startsWith. destruct t as [|x r]; [reflexivity|]. pose proof (zlen_nonneg r). rewrite zlen_cons.
    replace (0 <? 1 + zlen r) with true by (symmetry; apply Z.ltb_lt; lia). rewrite (Hat 0 x) by reflexivity. reflexivity.
  Qed.
End Defaults.

Section Class.
  Context {S : Type}.
  Variable K : cls S.
  Variable R : S -> list Z -> Prop.
  Hypothesis HK : acts_like_text K R.

  Notation node := (node S).
  Notation txt_of := (has_text R).

  Lemma text_max (x : node) t : txt_of x t -> zlen t <= int_max.
  Proof. destruct x; cbn [has_text]; [intros [H _]; exact H|apply (al_size _ _ HK)]. Qed.
  Lemma text_len (x : node) t : txt_of x t -> n_len K x = zlen t.
  Proof. destruct x; cbn [has_text n_len]; [apply den_atom_len|apply (al_len _ _ HK)]. Qed.
  Lemma text_sub (x : node) t i j : txt_of x t -> 0 <= i -> i <= j -> j <= zlen t -> exists y, n_sub K x i j = Ok y /\ txt_of y (slice t i j).
  Proof.
    destruct x; cbn [has_text n_sub]; intros H A B C; [|apply (al_sub _ _ HK); assumption].
    destruct (a_sub_den a t i j H A B C) as (b & E & D). rewrite E. cbn [bind]. exists (Lib b). split; [reflexivity|exact D].
  Qed.
  Lemma text_up (x : node) t : txt_of x t -> exists y, n_up K x = Ok y /\ txt_of y (map ascii_upper t).
  Proof.
    destruct x; cbn [has_text n_up]; intros H; [|apply (al_up _ _ HK); assumption].
    destruct (a_upper_den a t H) as (b & E & D). rewrite E. cbn [bind]. exists (Lib b). split; [reflexivity|exact D].
  Qed.
  Lemma text_out (b : bool) (x : node) t sb : txt_of x t -> (if b then n_sb K else n_app K) x sb = Ok (sb ++ t).
  Proof.
    destruct x, b; cbn [has_text n_sb n_app]; intros H;
      [apply a_toSB_den|apply a_toApp_den|apply (al_sb _ _ HK)|apply (al_app _ _ HK)]; assumption.
  Qed.

  (** *** what a conversion of an object hands over: at most one padding and one sequence *)
  Lemma cut_is c (x : node) t : rt_ok c -> txt_of x t ->
    exists y, (if isPrecisionSet c && (c_prec c <? n_len K x) then n_sub K x 0 (c_prec c) else Ok x) = Ok y /\ txt_of y (left_by (q_of c) t).
  Proof.
    intros Hc Hx. rewrite (text_len _ _ Hx). unfold left_by.
    destruct (prec_cases c Hc) as [(P1 & P2 & P3)|(P1 & P2 & P3)]; rewrite P1, P3; cbn [andb].
    - exists x. auto.
    - destruct (c_prec c <? zlen t) eqn:E; bools.
      + destruct (text_sub x t 0 (c_prec c) Hx) as (y & Ey & Dy); try lia. exists y. split; [exact Ey|].
        unfold slice in Dy. rewrite Z.sub_0_r in Dy. exact Dy.
      + exists x. split; [reflexivity|]. rewrite firstn_all2 by (unfold zlen in E; lia). exact Hx.
  Qed.

  Definition whole (l r : gseq (S:=S)) : gseq := g_concat0 K l r.

  (** the padded sequence *)
  Lemma justify_is c (x : node) t : rt_ok c -> txt_of x t ->
    let n := q_width (q_of c) - zlen t in
    exists g, g_spaceJustify K c (GLeaf x) = Ok g /\
      if 0 <? n then
        exists pad, den_atom pad (spaces n) /\
          (g = (if q_left (q_of c) then g_concat0 K (GLeaf x) (GLeaf (Lib pad)) else g_concat0 K (GLeaf (Lib pad)) (GLeaf x)) \/
           (x = Lib AEmpty /\ g = GLeaf (Lib pad)))
      else g = GLeaf x.
  Proof.
    intros Hc Hx n. unfold g_spaceJustify. cbn [g_len]. rewrite (text_len _ _ Hx). destruct (width_val c Hc) as (W1 & W2 & W3 & W4).
    pose proof (zlen_nonneg t) as Hn. destruct (zlen t <? width c) eqn:E; bools.
    - assert (width c = q_width (q_of c)) as Ew by (apply W2; unfold int_min; lia). rewrite Ew in *. fold n. rewrite wrap32_small by lia.
      destruct (s_repeated_den (ch " ") n) as (pad & Ep & Dp); [rewrite int_max_val; lia|]. rewrite Ep. cbn [bind]. eexists. split; [reflexivity|].
      replace (0 <? n) with true by (symmetry; apply Z.ltb_lt; lia). exists pad. split; [exact Dp|].
      change (hasFlag c LEFT_JUSTIFY) with (q_left (q_of c)).
      assert (L : a_len pad = n) by (rewrite (den_atom_len _ _ Dp), zlen_rep; lia).
      unfold g_append, g_prepend. cbn [g_len n_len]. rewrite L. replace (n =? 0) with false by (symmetry; apply Z.eqb_neq; lia).
      destruct x as [[]|]; try (left; destruct (q_left (q_of c)); reflexivity). right. split; [reflexivity|]. destruct (q_left (q_of c)); reflexivity.
    - eexists. split; [reflexivity|]. destruct (Z.ltb_spec 0 n); [|reflexivity]. exfalso.
      destruct (Z.eq_dec (width c) int_min) as [D|D].
      + unfold n in *. revert Hx. destruct Hc as [[Hw|[Hw|[Hw Hl]]] _]; unfold q_of in *; cbn [q_width] in *; unfold int_min in *; lia.
      + specialize (W2 D). unfold n in *. lia.
  Qed.

  (** *** everything atomic *)
  Hypothesis atomic : forall u t, R u t -> u_atomic K u = true.

  Lemma cast_is (x : node) t : txt_of x t -> as_atomic K x = Ok x.
  Proof. destruct x; cbn [as_atomic has_text]; [reflexivity|]. intros H. rewrite (atomic _ _ H). reflexivity. Qed.

  Lemma each_is (b cast : bool) xs : forall ts sb, Forall2 txt_of xs ts ->
    g_each K (if b then n_sb K else n_app K) cast xs sb = (sb ++ concat ts, None).
  Proof.
    induction xs as [|x r IH]; intros ts sb H; inversion H as [|? t ? ts' Hx Hr]; subst; cbn [g_each concat]; [rewrite app_nil_r; reflexivity|].
    replace (if cast then as_atomic K x else Ok x) with (Ok x) by (destruct cast; [symmetry; eapply cast_is; exact Hx|reflexivity]).
    rewrite (text_out b x t sb Hx). rewrite (IH ts' _ Hr), app_assoc. reflexivity.
  Qed.
  Lemma up_is xs : forall ts, Forall2 txt_of xs ts -> exists ys, up_all K xs = Ok ys /\ Forall2 txt_of ys (map (map ascii_upper) ts).
  Proof.
    induction xs as [|x r IH]; intros ts H; inversion H as [|? t ? ts' Hx Hr]; subst; cbn [up_all map]; [eexists; split; [reflexivity|constructor]|].
    rewrite (cast_is _ _ Hx). cbn [bind]. destruct (text_up x t Hx) as (y & Ey & Dy). rewrite Ey. cbn [bind].
    destruct (IH _ Hr) as (ys & Es & Ds). rewrite Es. cbn [bind]. eexists. split; [reflexivity|]. constructor; assumption.
  Qed.

  Definition writes (g : gseq (S:=S)) (t : list Z) : Prop :=
    (exists ts, Forall2 txt_of (g_leaves g) ts /\ concat ts = t) /\ match g with GCat _ _ _ k => 0 <= k | _ => True end.

  Lemma writes_emits (b : bool) g t sb : writes g t -> g_emit K (if b then n_sb K else n_app K) g sb = (sb ++ t, None).
  Proof.
    intros [(ts & F & <-) _]. destruct g; cbn [g_emit]; apply each_is; exact F.
  Qed.
  Lemma writes_upper g t : writes g t -> exists h, g_upper K g = Ok h /\ writes h (map ascii_upper t).
  Proof.
    intros [(ts & F & <-) Hk]. destruct g as [x|l r n k|ps n].
    - cbn [g_leaves] in F. inversion F as [|? t ? ts' Hx Hr]; subst. inversion Hr; subst. cbn [concat]. rewrite app_nil_r.
      destruct (text_up x t Hx) as (y & Ey & Dy). cbn [g_upper]. rewrite Ey. cbn [bind]. eexists. split; [reflexivity|].
      split; [|exact I]. exists [map ascii_upper t]. split; [constructor; [exact Dy|constructor]|cbn [concat]; apply app_nil_r].
    - cbn [g_upper]. apply Z.leb_le in Hk. rewrite Hk. cbn [checkArgument bind].
      destruct (up_is _ _ F) as (ys & Ey & Dy). rewrite Ey. cbn [bind]. eexists. split; [reflexivity|]. split; [|exact I].
      exists (map (map ascii_upper) ts). split; [exact Dy|]. rewrite <- concat_map. reflexivity.
    - cbn [g_upper g_leaves] in F |- *. destruct (up_is _ _ F) as (ys & Ey & Dy). rewrite Ey. cbn [bind]. eexists. split; [reflexivity|].
      split; [|exact I]. exists (map (map ascii_upper) ts). split; [exact Dy|]. rewrite <- concat_map. reflexivity.
  Qed.

  Lemma pair_count (x : node) t a : txt_of x t -> 0 <= wrap32 (g_count K (GLeaf x) + g_count K (GLeaf (Lib a))) /\
    0 <= wrap32 (g_count K (GLeaf (Lib a)) + g_count K (GLeaf x)).
  Proof.
    intros H. assert (B : 0 <= g_count K (GLeaf x) < int_max) by (destruct x as [b|u]; [cbn; unfold int_max; lia|exact (al_count _ _ HK _ _ H)]).
    rewrite !FmtP.wrap32_small; cbn [g_count] in *; unfold int_max in *; lia.
  Qed.

  Lemma one (x : node) t : txt_of x t -> Forall2 txt_of [x] [t].
  Proof. intros. constructor; [assumption|constructor]. Qed.
  Lemma two (x y : node) t t' : txt_of x t -> txt_of y t' -> Forall2 txt_of [x; y] [t; t'].
  Proof. intros. constructor; [assumption|]. apply one. assumption. Qed.

  Lemma fmt_s_is c (x : node) t : rt_ok c -> txt_of x t -> exists g, g_fmt_s K c x = Ok g /\ writes g (c_s (q_of c) t).
  Proof.
    intros Hc Hx. unfold g_fmt_s. destruct (cut_is c x t Hc Hx) as (y & Ey & Dy). rewrite Ey. cbn [bind].
    unfold c_s. fold (left_by (q_of c) t). set (t' := left_by (q_of c) t) in *.
    destruct (justify_is c y t' Hc Dy) as (g & Eg & Dg). exists g. split; [exact Eg|]. unfold justify.
    destruct (Z.ltb_spec 0 (q_width (q_of c) - zlen t')) as [L|L].
    - destruct Dg as (pad & Dp & [-> |[-> ->]]).
      + destruct (q_left (q_of c)); cbn [g_concat0].
        * split; [|exact (proj1 (pair_count y t' pad Dy))]. exists [t'; spaces (q_width (q_of c) - zlen t')]. split; [apply two; assumption|cbn [concat]; rewrite app_nil_r; reflexivity].
        * split; [|exact (proj2 (pair_count y t' pad Dy))]. exists [spaces (q_width (q_of c) - zlen t'); t']. split; [apply two; assumption|cbn [concat]; rewrite app_nil_r; reflexivity].
      + destruct Dy as [_ Z0]. rewrite Z0 in *. split; [|exact I]. exists [spaces (q_width (q_of c) - zlen ([] : list Z))]. split; [apply one; assumption|].
        cbn [concat]. destruct (q_left (q_of c)); rewrite ?app_nil_r; reflexivity.
    - subst g. unfold spaces. rewrite rep_nonpos by lia. split; [|exact I]. exists [t']. split; [apply one; assumption|]. cbn [concat].
      destruct (q_left (q_of c)); rewrite ?app_nil_r; reflexivity.
  Qed.

  (** *** the format loop *)
  Variable J : jdk.
  Hypothesis HJ : jdk_ok J.

  Notation like := (with_string R J).

  Lemma like_asInt a x : like a x -> t_asInt (plain K J a) = t_asInt x.
  Proof. intros [y _|u t r H]; [reflexivity|]. cbn. rewrite (al_str _ _ HK _ _ H). reflexivity. Qed.

  Lemma like_int a x w : like a x -> t_asInt x = Ok w -> is_int w.
  Proof.
    intros [y Hy|u t r H] E; [destruct (argument_int J y HJ Hy) as [(v & Ev & Iv)|(e & Ev & _)]; congruence|]. cbn in E.
    destruct (parseJava (j_digit J) 32 t) as [v|] eqn:P; [|discriminate]. cbn in E. injection E as <-. apply parseJava_is in P as [_ P].
    unfold in_range in P. unfold is_int, int_min, int_max. change (2 ^ (32 - 1)) with 2147483648 in P. lia.
  Qed.

  Lemma like_formatter sp c a x : rt_ok c -> like a x ->
    match formatterFor J sp c x with
    | Ok s => exists p, u_formatterFor K J sp c a = Ok p /\ (forall b sb, u_emit K b p sb = (if b then emitSB else emitApp) s sb)
    | Err e => u_formatterFor K J sp c a = Err e
    end.
  Proof.
    intros Hc [y Hy|u t r H].
    - cbn [u_formatterFor plain]. destruct (formatterFor J sp c y) as [s|e]; cbn [bind]; [|reflexivity]. exists (PLib s). split; reflexivity.
    - assert (Gs : exists s, fmt_s c (wrapS t) = Ok s /\ den s (c_s (q_of c) t)) by (apply fmt_s_den; [exact Hc|apply s_wrap_den, (al_size _ _ HK _ _ H)]).
      destruct Gs as (s & Es & Ds). destruct (fmt_s_is c (Own u) t Hc H) as (g & Eg & Dg).
      assert (Ch : t_asChar (plain K J (Own1 u r)) = t_asChar (traitsOf J (VStr t) r)).
      { cbn [plain u_traits t_asChar traitsOf charSeqTraits bind]. rewrite (al_len _ _ HK _ _ H). destruct t as [|z t]; [reflexivity|].
        rewrite zlen_cons. pose proof (zlen_nonneg t). replace (1 <=? 1 + zlen t) with true by (symmetry; apply Z.leb_le; lia).
        rewrite (al_at _ _ HK _ _ 0 z H) by reflexivity. cbn [s_charAt wrapS]. symmetry. apply (a_charAt_ok _ (z :: t)); [|reflexivity].
        apply s_wrap_den. exact (al_size _ _ HK _ _ H). }
      assert (Same : formatterFor J sp c (plain K J (Own1 u r)) = formatterFor J sp c (traitsOf J (VStr t) r) \/ sp = Ss \/ sp = SS).
      { destruct sp; auto; left; cbn [formatterFor]; rewrite ?Ch; try reflexivity; unfold withInt, withFloat, upperOf, fmt_t;
          cbn [plain u_traits traitsOf charSeqTraits t_asIntForm t_asFloatForm t_asTemporal t_ref]; rewrite ?(al_str _ _ HK _ _ H); reflexivity. }
      destruct Same as [Same|Same].
      + assert (U : sp = Ss \/ sp = SS \/ u_formatterFor K J sp c (Own1 u r) = (let* s := formatterFor J sp c (plain K J (Own1 u r)) in Ok (PLib s)))
          by (destruct sp; auto).
        destruct U as [U|[U|U]]; [subst sp|subst sp|].
        * cbn [u_formatterFor formatterFor traitsOf charSeqTraits t_asSeq bind]. rewrite Es, Eg. cbn [bind]. exists (POwn g). split; [reflexivity|].
          intros b sb. cbn [u_emit]. rewrite (writes_emits b g _ sb Dg). symmetry. apply wden_emits; [apply emits_if|apply den_wden; exact Ds].
        * cbn [u_formatterFor formatterFor traitsOf charSeqTraits t_asSeq bind upperOf]. rewrite Es, Eg. cbn [bind].
          destruct (s_upper_den s _ Ds) as (s' & Es' & Ds'). destruct (writes_upper g _ Dg) as (g' & Eg' & Dg'). unfold upperOf. cbn [bind]. rewrite Es', Eg'. cbn [bind].
          exists (POwn g'). split; [reflexivity|].
          intros b sb. cbn [u_emit]. rewrite (writes_emits b g' _ sb Dg'). symmetry. apply wden_emits; [apply emits_if|apply den_wden; exact Ds'].
        * rewrite U, Same. destruct (formatterFor J sp c (traitsOf J (VStr t) r)) as [s1|e]; cbn [bind]; [|reflexivity]. exists (PLib s1). split; reflexivity.
      + destruct Same as [-> | ->].
        * cbn [u_formatterFor formatterFor traitsOf charSeqTraits t_asSeq bind]. rewrite Es, Eg. cbn [bind]. exists (POwn g). split; [reflexivity|].
          intros b sb. cbn [u_emit]. rewrite (writes_emits b g _ sb Dg). symmetry. apply wden_emits; [apply emits_if|apply den_wden; exact Ds].
        * cbn [u_formatterFor formatterFor traitsOf charSeqTraits t_asSeq bind]. rewrite Es, Eg. cbn [bind].
          destruct (s_upper_den s _ Ds) as (s' & Es' & Ds'). destruct (writes_upper g _ Dg) as (g' & Eg' & Dg'). unfold upperOf. cbn [bind]. rewrite Es', Eg'. cbn [bind].
          exists (POwn g'). split; [reflexivity|].
          intros b sb. cbn [u_emit]. rewrite (writes_emits b g' _ sb Dg'). symmetry. apply wden_emits; [apply emits_if|apply den_wden; exact Ds'].
  Qed.

  Lemma like_resolve c it xs : Forall2 like it xs ->
    match resolveCtx c xs with
    | Ok (c', xs') => exists it', u_resolveCtx K J c it = Ok (c', it') /\ Forall2 like it' xs'
    | Err e => u_resolveCtx K J c it = Err e
    end.
  Proof.
    intros F.
    assert (N : forall it xs, Forall2 like it xs -> match nextInt xs with
      | Ok (w, xs') => exists it', u_nextInt K J it = Ok (w, it') /\ Forall2 like it' xs'
      | Err e => u_nextInt K J it = Err e end).
    { intros i l [|a x i' l' Hx Hr]; cbn [nextInt u_nextInt]; [reflexivity|]. rewrite (like_asInt _ _ Hx).
      destruct (t_asInt x) as [w|e]; cbn [bind]; [|reflexivity]. exists i'. split; [reflexivity|exact Hr]. }
    unfold resolveCtx, u_resolveCtx.
    assert (P : forall c1 it xs, Forall2 like it xs ->
      match (if isPrecedingPrecision c1 then let* (p, it) := nextInt xs in let* c := setPrecision c1 (if 0 <=? p then p else UNSET) in Ok (c, it) else Ok (c1, xs)) with
      | Ok (c', xs') => exists it', (if isPrecedingPrecision c1 then let* (p, it) := u_nextInt K J it in let* c := setPrecision c1 (if 0 <=? p then p else UNSET) in Ok (c, it) else Ok (c1, it)) = Ok (c', it') /\ Forall2 like it' xs'
      | Err e => (if isPrecedingPrecision c1 then let* (p, it) := u_nextInt K J it in let* c := setPrecision c1 (if 0 <=? p then p else UNSET) in Ok (c, it) else Ok (c1, it)) = Err e end).
    { intros c1 i l Fl. destruct (isPrecedingPrecision c1); [|exists i; auto]. specialize (N i l Fl). destruct (nextInt l) as [[p l']|e]; cbn [bind].
      - destruct N as (i' & Ei & Fi). rewrite Ei. cbn [bind]. destruct (setPrecision c1 (if 0 <=? p then p else UNSET)); cbn [bind]; [exists i'; auto|reflexivity].
      - rewrite N. reflexivity. }
    destruct (isPrecedingWidth c); cbn [bind]; [|apply P; exact F].
    pose proof (N it xs F) as N1. destruct (nextInt xs) as [[w xs']|e]; cbn [bind]; [|rewrite N1; reflexivity].
    destruct N1 as (i' & Ei & Fi). rewrite Ei. cbn [bind].
    destruct (if 0 <=? w then setWidth c w else setWidth (addFlag c LEFT_JUSTIFY) (wrap32 (- w))) as [c1|e]; cbn [bind]; [|reflexivity]. apply P. exact Fi.
  Qed.

  Lemma like_run b ds : Forall sane ds -> forall it xs sb, Forall2 like it xs ->
    u_run K J b ds it sb = run J (if b then emitSB else emitApp) ds xs sb.
  Proof.
    intros Hs. induction Hs as [|d ds Hd Hs IH]; intros it xs sb F; cbn [u_run run]; [reflexivity|].
    destruct d as [t|sp c]; cbn [u_appendOne appendOne].
    - cbn [u_emit]. destruct ((if b then emitSB else emitApp) (wrapS t) sb) as [sb' [e|]]; [reflexivity|]. apply IH. exact F.
    - pose proof (like_resolve c it xs F) as Q. destruct (resolveCtx c xs) as [[c' xs']|e] eqn:Er; cbn [bind]; [|rewrite Q; reflexivity].
      destruct Q as (it' & Ei & Fi). rewrite Ei. cbn [bind].
      assert (Hc : rt_ok c').
      { apply (resolved_ok _ _ _ _ Hd Er). clear - F HJ. induction F as [|a x l l' Hx _ IHf]; constructor; [|exact IHf]. intros w. exact (like_int _ _ _ Hx). }
      destruct Fi as [|a x l l' Hx Hr]; [reflexivity|]. pose proof (like_formatter sp c' a x Hc Hx) as Q.
      destruct (formatterFor J sp c' x) as [s|e]; cbn [bind]; [|rewrite Q; reflexivity]. destruct Q as (p & Ep & Dp). rewrite Ep. cbn [bind]. rewrite Dp.
      destruct ((if b then emitSB else emitApp) s sb) as [sb' [e|]]; [reflexivity|]. apply IH. exact Hr.
  Qed.
End Class.

(** ** Lengths and numbers of leaves of concatenations *)
Section Measured.
  Context {S : Type}.
  Variable K : cls S.
  Variable R : S -> list Z -> Prop.
  Hypothesis HK : acts_like_text K R.
  Hypothesis H1 : forall u, u_count K u = 1.
  Notation gseq := (gseq (S:=S)).

  Lemma chars_app xs : forall ys, chars K (xs ++ ys) = chars K xs + chars K ys.
  Proof. induction xs as [|[a|u] xs IH]; intros ys; cbn [app chars]; [reflexivity| |]; rewrite IH; lia. Qed.
  Lemma chars_text xs ts : Forall2 (has_text R) xs ts -> chars K xs = zlen (concat ts).
  Proof.
    induction 1 as [|x t xs ts Hx _ IH]; [reflexivity|]. cbn [concat]. rewrite zlen_app, <- IH. pose proof (text_len K R HK x t Hx) as E.
    destruct x; cbn [chars n_len] in *; lia.
  Qed.
  Lemma measured_len g : measured K g -> g_len K g = chars K (g_leaves g).
  Proof.
    destruct g as [[a|u]|l r n k|ps n]; cbn [measured g_len n_len g_leaves chars]; intros M; try lia.
    destruct M as (_ & _ & -> & _). rewrite chars_app. reflexivity.
  Qed.
  Lemma measured_count g : measured K g -> g_count K g = zlen (g_leaves g).
  Proof.
    destruct g as [[a|u]|l r n k|ps n]; cbn [measured g_count g_leaves]; intros M; [reflexivity|rewrite H1; reflexivity| |reflexivity].
    destruct M as (_ & _ & _ & ->). rewrite zlen_app. reflexivity.
  Qed.

  Lemma text_chars g t : text_is R g t -> chars K (g_leaves g) = zlen t.
  Proof. intros (ts & F & ->). apply chars_text. exact F. Qed.
  Lemma text_nonneg g t : text_is R g t -> 0 <= chars K (g_leaves g).
  Proof. intros H. rewrite (text_chars g t H). apply zlen_nonneg. Qed.
  Lemma text_cat l r n k t t' : text_is R l t -> text_is R r t' -> text_is R (GCat l r n k) (t ++ t').
  Proof.
    intros (ts & F & ->) (ts' & F' & ->). exists (ts ++ ts'). split; [apply Forall2_app; assumption|]. rewrite concat_app. reflexivity.
  Qed.

  Lemma concat0_measured l r t t' : measured K l -> measured K r -> text_is R l t -> text_is R r t' ->
    zlen (t ++ t') <= int_max -> zlen (g_leaves l ++ g_leaves r) <= int_max ->
    measured K (g_concat0 K l r) /\ text_is R (g_concat0 K l r) (t ++ t').
  Proof.
    intros Ml Mr Tl Tr Hl Hk. rewrite zlen_app in Hl. rewrite zlen_app in Hk. pose proof (zlen_nonneg t). pose proof (zlen_nonneg t').
    pose proof (zlen_nonneg (g_leaves l)). pose proof (zlen_nonneg (g_leaves r)). split; [|apply text_cat; assumption].
    cbn [g_concat0 measured]. rewrite (measured_len l Ml), (measured_len r Mr), (measured_count l Ml), (measured_count r Mr).
    rewrite (text_chars l t Tl), (text_chars r t' Tr). rewrite int_max_val in *. rewrite !FmtP.wrap32_small by lia. auto.
  Qed.

  Lemma concat_measured l r t t' : measured K l -> measured K r -> text_is R l t -> text_is R r t' ->
    zlen (t ++ t') <= int_max -> zlen (g_leaves l ++ g_leaves r) <= int_max ->
    measured K (g_concat K l r) /\ text_is R (g_concat K l r) (t ++ t').
  Proof.
    intros Ml Mr Tl Tr Hl Hk. destruct l as [x|ll lr n k|ps n]; try (apply concat0_measured; assumption). cbn [g_concat].
    destruct Ml as (Mll & Mlr & _ & _). destruct Tl as (ts & F & ->). cbn [g_leaves] in F. apply Forall2_app_inv_l in F as (t1 & t2 & F1 & F2 & ->).
    cbn [g_leaves] in Hk. rewrite concat_app in *. rewrite <- app_assoc in Hl |- *. rewrite <- app_assoc in Hk.
    pose proof (zlen_nonneg (concat t1)). pose proof (zlen_nonneg (g_leaves ll)).
    destruct (concat0_measured lr r (concat t2) t') as [M T]; try assumption; [exists t2; auto|rewrite zlen_app in Hl; lia|rewrite zlen_app in Hk; lia|].
    apply concat0_measured; try assumption. exists t1. auto.
  Qed.

  Lemma empty_text t : text_is R (GLeaf (Lib AEmpty)) t -> t = [].
  Proof. intros H. apply text_chars in H. cbn in H. symmetry in H. apply zlen_0_nil in H. exact H. Qed.

  Lemma facts g t : measured K g -> text_is R g t -> g_len K g = zlen t /\ g_count K g = zlen (g_leaves g).
  Proof. intros M T. rewrite (measured_len g M), (measured_count g M), (text_chars g t T). auto. Qed.

  Lemma append_measured s x t t' : measured K s -> measured K x -> text_is R s t -> text_is R x t' ->
    zlen (t ++ t') <= int_max -> zlen (g_leaves s ++ g_leaves x) <= int_max ->
    measured K (g_append K s x) /\ text_is R (g_append K s x) (t ++ t') /\
    g_len K (g_append K s x) = zlen t + zlen t' /\ g_count K (g_append K s x) = zlen (g_leaves (g_append K s x)).
  Proof.
    intros Ms Mx Ts Tx Hl Hk.
    assert (G : measured K (g_append K s x) /\ text_is R (g_append K s x) (t ++ t')).
    { assert (E : s = GLeaf (Lib AEmpty) \/ g_append K s x = if g_len K x =? 0 then s else g_concat K s x)
        by (destruct s as [[[]|u]| |]; auto).
      destruct E as [-> |E].
      - rewrite (empty_text t Ts). split; [exact Mx|exact Tx].
      - rewrite E. destruct (Z.eqb_spec (g_len K x) 0) as [Z0|_]; [|apply concat_measured; assumption].
        rewrite (proj1 (facts x t' Mx Tx)) in Z0. apply zlen_0_nil in Z0. rewrite Z0, app_nil_r. auto. }
    destruct G as [M T]. destruct (facts _ _ M T) as [F1 F2]. rewrite zlen_app in F1. auto.
  Qed.

  Lemma prepend_measured s x t t' : measured K s -> measured K x -> text_is R s t -> text_is R x t' ->
    zlen (t' ++ t) <= int_max -> zlen (g_leaves x ++ g_leaves s) <= int_max ->
    measured K (g_prepend K s x) /\ text_is R (g_prepend K s x) (t' ++ t) /\
    g_len K (g_prepend K s x) = zlen t' + zlen t /\ g_count K (g_prepend K s x) = zlen (g_leaves (g_prepend K s x)).
  Proof.
    intros Ms Mx Ts Tx Hl Hk.
    assert (G : measured K (g_prepend K s x) /\ text_is R (g_prepend K s x) (t' ++ t)).
    { assert (E : s = GLeaf (Lib AEmpty) \/ g_prepend K s x = if g_len K x =? 0 then s else g_concat K x s)
        by (destruct s as [[[]|u]| |]; auto).
      destruct E as [-> |E].
      - rewrite (empty_text t Ts), app_nil_r. split; [exact Mx|exact Tx].
      - rewrite E. destruct (Z.eqb_spec (g_len K x) 0) as [Z0|_]; [|apply concat_measured; assumption].
        rewrite (proj1 (facts x t' Mx Tx)) in Z0. apply zlen_0_nil in Z0. rewrite Z0. auto. }
    destruct G as [M T]. destruct (facts _ _ M T) as [F1 F2]. rewrite zlen_app in F1. auto.
  Qed.
End Measured.

(** ** Objects that implement [Seq] only *)
Section Plain.
  Context {S : Type}.
  Variable K : cls S.
  Variable R : S -> list Z -> Prop.
  Hypothesis HK : acts_like_text K R.
  Hypothesis plain_class : forall u t, R u t -> u_atomic K u = false.
  Hypothesis own_sub : forall u t i j x, R u t -> u_sub K u i j = Ok x -> exists v, x = Own v.
  Variable J : jdk.

  Lemma own_cut c u t : rt_ok c -> R u t ->
    exists v, (if isPrecisionSet c && (c_prec c <? n_len K (Own u)) then n_sub K (Own u) 0 (c_prec c) else Ok (Own u)) = Ok (Own v) /\ R v (left_by (q_of c) t).
  Proof.
    intros Hc Hu. destruct (cut_is K R HK c (Own u) t Hc Hu) as (y & Ey & Dy).
    assert (exists v, y = Own v) as [v ->]; [|exists v; split; [exact Ey|exact Dy]].
    destruct (isPrecisionSet c && (c_prec c <? n_len K (Own u))).
    - cbn [n_sub] in Ey. exact (own_sub _ _ _ _ _ Hu Ey).
    - injection Ey as <-. eauto.
  Qed.

  Lemma plain_run dtf src s q u t r : directive src s q -> s = Ss \/ s = SS -> R u t ->
    exists ds, compile dtf src = Ok ds /\
      forall b target, u_run K J b ds [Own1 u r] target =
        if q_width q <=? zlen (left_by q t) then (target ++ (if capital s then map ascii_upper (left_by q t) else left_by q t), None)
        else (target ++ (if capital s || q_left q then [] else spaces (q_width q - zlen (left_by q t))), Some ClassCast).
  Proof.
    intros Hd Hs Hu. destruct (directive_compile dtf _ _ _ Hd) as (c & Ec & Hr & Hq & A & B & D). subst q.
    exists [Default s c]. split; [exact Ec|]. intros b target. cbn [u_run u_appendOne]. unfold u_resolveCtx. rewrite A. cbn [bind]. rewrite B. cbn [bind].
    destruct (own_cut c u t Hr Hu) as (v & Ev & Rv). set (t' := left_by (q_of c) t) in *.
    destruct (justify_is K R HK c (Own v) t' Hr Rv) as (g & Eg & Dg).
    assert (Ef : g_fmt_s K c (Own u) = Ok g) by (unfold g_fmt_s; rewrite Ev; exact Eg).
    destruct (Z.leb_spec (q_width (q_of c)) (zlen t')) as [L|L].
    - replace (0 <? q_width (q_of c) - zlen t') with false in Dg by (symmetry; apply Z.ltb_ge; lia). subst g.
      destruct Hs as [-> | ->]; cbn [u_formatterFor capital]; rewrite Ef; cbn [bind].
      + cbn [u_emit g_emit g_each]. rewrite (text_out K R HK b (Own v) t' target Rv). reflexivity.
      + cbn [g_upper]. destruct (text_up K R HK (Own v) t' Rv) as (y & Ey & Dy). rewrite Ey. cbn [bind u_emit g_emit g_each].
        rewrite (text_out K R HK b y _ target Dy). reflexivity.
    - replace (0 <? q_width (q_of c) - zlen t') with true in Dg by (symmetry; apply Z.ltb_lt; lia).
      destruct Dg as (pad & Dp & [-> |[? _]]); [|discriminate].
      pose proof (plain_class _ _ Rv) as Hv.
      destruct Hs as [-> | ->]; cbn [u_formatterFor capital orb]; rewrite Ef; cbn [bind].
      + cbn [u_emit]. destruct (q_left (q_of c)); cbn [g_concat0 g_emit g_leaves app g_each as_atomic].
        * rewrite Hv. cbn. rewrite app_nil_r. reflexivity.
        * rewrite (text_out K R HK b (Lib pad) _ target Dp). rewrite Hv. reflexivity.
      + destruct (pair_count K R HK (Own v) t' pad Rv) as [P1 P2]. apply Z.leb_le in P1, P2.
        destruct (q_left (q_of c)); cbn [g_concat0 g_upper g_leaves app up_all as_atomic bind]; rewrite ?P1, ?P2; cbn [checkArgument bind].
        * rewrite Hv. cbn [bind]. rewrite app_nil_r. reflexivity.
        * destruct (text_up K R HK (Lib pad) _ Dp) as (y & Ey & _). rewrite Ey. cbn [bind]. rewrite Hv. cbn [bind]. rewrite app_nil_r. reflexivity.
  Qed.
End Plain.
