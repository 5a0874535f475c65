(** Proofs about AliasM.v. *)
From Verif Require Import Base Digits UtilsM SeqM SeqSpec SeqP ContextM CompilerM GrammarSpec IntFormM FormatterM MathM DecimalM FPDecimalM DoubleM
  BigDecM RoundM TraitsM ImplM FmtSpec FmtP DirSpec IntP LoopSpec LoopP AliasM AliasSpec.

(** ** Taking arguments off an iterator, whatever they are *)
Section Taking.
  Context {A : Type}.
  Definition take_int (h : A -> res Z) (it : list A) : res (Z * list A) :=
    match it with [] => Err (Printf MissingArg) | x :: rest => let* v := h x in Ok (v, rest) end.
  Definition take_stars (h : A -> res Z) (c : ctx) (it : list A) : res (ctx * list A) :=
    let* (c, it) :=
      (if isPrecedingWidth c then
         let* (w, it) := take_int h it in
         let* c := (if 0 <=? w then setWidth c w else setWidth (addFlag c LEFT_JUSTIFY) (wrap32 (- w))) in
         Ok (c, it)
       else Ok (c, it)) in
    if isPrecedingPrecision c then
      let* (p, it) := take_int h it in
      let* c := setPrecision c (if 0 <=? p then p else UNSET) in
      Ok (c, it)
    else Ok (c, it).

  Lemma take_int_map (f : A -> traits) it :
    nextInt (map f it) = let* (v, r) := take_int (fun x => t_asInt (f x)) it in Ok (v, map f r).
  Proof. destruct it as [|x it]; [reflexivity|]. cbn. destruct (t_asInt (f x)); reflexivity. Qed.

  Lemma take_stars_map (f : A -> traits) c it :
    resolveCtx c (map f it) = let* (c', r) := take_stars (fun x => t_asInt (f x)) c it in Ok (c', map f r).
  Proof.
    unfold resolveCtx, take_stars.
    assert (X : forall c it, (if isPrecedingPrecision c then let* (p, it) := nextInt (map f it) in let* c := setPrecision c (if 0 <=? p then p else UNSET) in Ok (c, it) else Ok (c, map f it))
      = let* (c', r) := (if isPrecedingPrecision c then let* (p, it) := take_int (fun x => t_asInt (f x)) it in let* c := setPrecision c (if 0 <=? p then p else UNSET) in Ok (c, it) else Ok (c, it)) in Ok (c', map f r)).
    { intros c0 it0. destruct (isPrecedingPrecision c0); [|reflexivity]. rewrite take_int_map. destruct (take_int _ it0) as [[p r]|e]; cbn [bind]; [|reflexivity].
      destruct (setPrecision _ _); reflexivity. }
    destruct (isPrecedingWidth c); [|apply X]. rewrite take_int_map. destruct (take_int _ it) as [[w r]|e]; cbn [bind]; [|reflexivity].
    destruct (if 0 <=? w then _ else _) as [c1|e]; cbn [bind]; [apply X|reflexivity].
  Qed.

  Lemma take_stars_ext (h g : A -> res Z) c it : (forall x, h x = g x) -> take_stars h c it = take_stars g c it.
  Proof.
    intros E. assert (T : forall l, take_int h l = take_int g l) by (intros [|x l]; cbn; [reflexivity|rewrite E; reflexivity]).
    unfold take_stars. rewrite T. destruct (if isPrecedingWidth c then _ else _) as [[c1 it1]|e]; cbn [bind]; [|reflexivity]. rewrite T. reflexivity.
  Qed.

  Definition stars (c : ctx) : Z := (if c_width c =? PRECEDING then 1 else 0) + (if c_prec c =? PRECEDING then 1 else 0).

  Lemma take_int_skip (h : A -> res Z) it v r : take_int h it = Ok (v, r) -> it <> [] /\ r = skipn 1 it.
  Proof. destruct it as [|x it]; [discriminate|]. cbn. destruct (h x); [|discriminate]. intros E. inversion E. subst. split; [discriminate|reflexivity]. Qed.

  Lemma take_stars_skip (h : A -> res Z) c it c' r : take_stars h c it = Ok (c', r) ->
    r = skipn (Z.to_nat (stars c)) it /\ stars c <= zlen it /\ (stays_left c -> stays_left c').
  Proof.
    unfold take_stars, stars, stays_left.
    assert (X : forall c0 it0 c1 r1, (if isPrecedingPrecision c0 then let* (p, it) := take_int h it0 in let* c := setPrecision c0 (if 0 <=? p then p else UNSET) in Ok (c, it) else Ok (c0, it0)) = Ok (c1, r1) ->
      r1 = skipn (if c_prec c0 =? PRECEDING then 1 else 0) it0 /\ (if c_prec c0 =? PRECEDING then 1 else 0) <= zlen it0 /\ c_width c1 = c_width c0 /\ c_flags c1 = c_flags c0).
    { intros c0 it0 c1 r1. unfold isPrecedingPrecision. destruct (c_prec c0 =? PRECEDING).
      - destruct (take_int h it0) as [[p l]|] eqn:T; cbn [bind]; [|discriminate]. unfold setPrecision. destruct (checkValue PrecisionRange _); cbn [bind]; [|discriminate].
        intros E. inversion E. subst. destruct (take_int_skip _ _ _ _ T) as [N ->]. split; [reflexivity|]. split; [|split; reflexivity]. destruct it0; [contradiction|]. rewrite zlen_cons. pose proof (zlen_nonneg it0). lia.
      - intros E. inversion E. subst. split; [reflexivity|]. split; [apply zlen_nonneg|split; reflexivity]. }
    unfold isPrecedingWidth. destruct (Z.eqb_spec (c_width c) PRECEDING) as [W|W].
    - destruct (take_int h it) as [[w l]|] eqn:T; cbn [bind]; [|discriminate].
      destruct (if 0 <=? w then _ else _) as [c1|] eqn:E1; cbn [bind]; [|discriminate]. intros E. apply X in E as (-> & L & Ew & Ef).
      destruct (take_int_skip _ _ _ _ T) as [N ->]. destruct it as [|x it]; [contradiction|]. cbn [skipn] in *.
      assert (P : c_prec c1 = c_prec c /\ (f_left (c_flags c) = true -> f_left (c_flags c1) = true)).
      { unfold setWidth in E1. destruct (0 <=? w); destruct (checkValue WidthRange _); cbn [bind] in E1; try discriminate; inversion E1; subst c1; cbn; split; auto. }
      destruct P as [P F]. rewrite P in *. split; [|split].
      + destruct (c_prec c =? PRECEDING); reflexivity.
      + rewrite zlen_cons. lia.
      + intros [H|H]; [rewrite H in W; discriminate|]. right. rewrite Ef. auto.
    - intros E. cbn [bind] in E. apply X in E as (-> & L & Ew & Ef). split; [|split].
      + destruct (c_prec c =? PRECEDING); reflexivity.
      + lia.
      + rewrite Ew, Ef. auto.
  Qed.
End Taking.

(** ** One directive *)

Lemma now_int J sb x : t_asInt (now J sb x) = t_asInt (frozen J sb x).
Proof. destruct x; reflexivity. Qed.

Lemma wrapS_cases sb : (wrapS sb = Leaf AEmpty /\ sb = []) \/ (exists c, sb = [c] /\ wrapS sb = Leaf (s_ch c)) \/ (2 <= zlen sb /\ wrapS sb = Leaf (AStr sb 0 (zlen sb) false)).
Proof.
  destruct sb as [|a [|b l]]; [left; split; reflexivity|right; left; exists a; split; reflexivity|right; right].
  assert (2 <= zlen (a :: b :: l)) by (rewrite !zlen_cons; pose proof (zlen_nonneg l); lia). split; [assumption|].
  unfold wrapS, s_wrap. replace (0 <? zlen (a :: b :: l)) with true by lia. reflexivity.
Qed.

Lemma lazy_cases sb : (zlen sb < 2 /\ lazySeq sb (zlen sb) = Ok (wrapS sb)) \/
  (2 <= zlen sb /\ lazySeq sb (zlen sb) = Ok (Leaf (ALazy (fun x => Ok (x ++ sb)) (zlen sb)))).
Proof.
  destruct sb as [|a [|b l]]; [left; split; reflexivity|left; split; reflexivity|right].
  assert (2 <= zlen (a :: b :: l)) by (rewrite !zlen_cons; pose proof (zlen_nonneg l); lia). split; [assumption|].
  unfold lazySeq, s_lazy, checkArgument. set (n := zlen (a :: b :: l)) in *. clearbody n. replace (0 <=? n) with true by lia. cbn [bind]. replace (n =? 0) with false by lia. replace (n =? 1) with false by lia. reflexivity.
Qed.

(** what %s is before it is justified: the text cut, or deferred *)
Lemma cut_same sb p : 2 <= zlen sb -> 0 <= p < zlen sb -> a_sub (ALazy (fun x => Ok (x ++ sb)) (zlen sb)) 0 p = a_sub (AStr sb 0 (zlen sb) false) 0 p.
Proof.
  intros H Hp. unfold a_sub, getCachedString, buildEagerly, s_wrap3. cbn [bind app]. rewrite Z.eqb_refl. cbn [bind].
  destruct (checkPositionIndexes 0 p (zlen sb)); cbn [bind]; [|reflexivity]. destruct (0 =? p); [reflexivity|]. rewrite Z.add_0_l. destruct (p =? 0 + 1); reflexivity.
Qed.

(** justifying one atom of a given length: what comes around it does not depend on the atom *)
Definition around (k : option (bool * atom)) (a : atom) : list atom :=
  match k with None => [a] | Some (true, p) => [a; p] | Some (false, p) => [p; a] end.

Definition padding (c : ctx) (n : Z) : res (option (bool * atom)) :=
  if n <? width c then let* p := s_repeated (ch " ") (wrap32 (width c - n)) in Ok (Some (hasFlag c LEFT_JUSTIFY, p)) else Ok None.

Definition built (k : option (bool * atom)) (a : atom) : seq :=
  match k with None => Leaf a | Some (true, p) => concat0 (Leaf a) (Leaf p) | Some (false, p) => concat0 (Leaf p) (Leaf a) end.

Lemma repeated_pad x n p : s_repeated x n = Ok p -> p = ARep x n /\ 1 <= n.
Proof.
  unfold s_repeated, checkArgument, s_ch. destruct (Z.leb_spec 1 n); cbn [bind]; [|discriminate]. destruct (Z.eqb_spec n 1) as [->|]; intros E; inversion E; split; auto; lia.
Qed.

Lemma justify_leaf c a : a <> AEmpty -> spaceJustify c (Leaf a) = let* k := padding c (a_len a) in Ok (built k a).
Proof.
  intros H. unfold spaceJustify, padding, repeated. cbn [s_len]. destruct (a_len a <? width c); [|reflexivity].
  destruct (s_repeated _ _) as [p|e] eqn:E; cbn [bind]; [|reflexivity]. apply repeated_pad in E as [-> L].
  assert (Ne : s_isEmpty (Leaf (ARep (ch " ") (wrap32 (width c - a_len a)))) = false) by (unfold s_isEmpty; cbn [s_len a_len]; lia).
  destruct (hasFlag c LEFT_JUSTIFY); unfold s_append, s_prepend, s_concat; rewrite Ne; destruct a; try reflexivity; contradiction.
Qed.

Lemma emit_built f k a sb : emitWith f (built k a) sb = emitAtoms f (around k a) sb.
Proof. destruct k as [[[] p]|]; reflexivity. Qed.

Lemma upper_built k a a' : a_len a = a_len a' -> a_upper a = a_upper a' -> s_upper (built k a) = s_upper (built k a').
Proof. intros L U. destruct k as [[[] p]|]; cbn; rewrite ?L, U; reflexivity. Qed.

(** ** %s of the target *)
Section Target.
  Variable J : jdk.
  Variable sb : list Z.
  Hypothesis Hsb : 2 <= zlen sb.
  Let lz := ALazy (fun x => Ok (x ++ sb)) (zlen sb).
  Let st := AStr sb 0 (zlen sb) false.

  Definition cuts (c : ctx) : bool := isPrecisionSet c && (c_prec c <? zlen sb).

  Lemma lazy_is r : t_asSeq (traitsOf J (VChars sb) r) = Ok (Leaf lz).
  Proof. cbn [traitsOf charSeqTraits t_asSeq]. destruct (lazy_cases sb) as [[H _]|[_ H]]; [lia|exact H]. Qed.
  Lemma str_is r : t_asSeq (traitsOf J (VStr sb) r) = Ok (Leaf st).
  Proof. cbn [traitsOf charSeqTraits t_asSeq]. destruct (wrapS_cases sb) as [[_ E]|[(x & E & _)|[_ H]]]; [subst sb; cbn in Hsb; lia|rewrite E in Hsb; cbn in Hsb; lia|rewrite H; reflexivity]. Qed.

  Lemma s_lazy_fmt c r : (let* s := t_asSeq (traitsOf J (VChars sb) r) in fmt_s c s) =
    if cuts c then (let* s := t_asSeq (traitsOf J (VStr sb) r) in fmt_s c s) else let* k := padding c (zlen sb) in Ok (built k lz).
  Proof.
    rewrite lazy_is, str_is. cbn [bind]. unfold fmt_s. cbn [s_len lz st a_len]. fold (cuts c). unfold cuts. destruct (isPrecisionSet c && (c_prec c <? zlen sb)) eqn:C.
    - cbn [s_sub]. fold lz st. destruct (Z.leb_spec 0 (c_prec c)) as [P|P].
      + unfold lz, st. rewrite cut_same; [reflexivity|lia|]. apply andb_prop in C as [_ C]. lia.
      + unfold lz, st, a_sub. unfold checkPositionIndexes. replace ((0 <? 0) || (c_prec c <? 0) || (zlen sb <? c_prec c)) with true by lia. reflexivity.
    - cbn [bind]. rewrite justify_leaf by (unfold lz; discriminate). reflexivity.
  Qed.

  Lemma s_str_fmt c r : (let* s := t_asSeq (traitsOf J (VStr sb) r) in fmt_s c s) =
    if cuts c then (let* a := a_sub st 0 (c_prec c) in spaceJustify c (Leaf a)) else let* k := padding c (zlen sb) in Ok (built k st).
  Proof.
    rewrite str_is. cbn [bind]. unfold fmt_s. cbn [s_len st a_len]. fold (cuts c). destruct (cuts c).
    - cbn [s_sub]. destruct (a_sub st 0 (c_prec c)); reflexivity.
    - cbn [bind]. rewrite justify_leaf by (unfold st; discriminate). reflexivity.
  Qed.

  Lemma upper_lz : a_upper lz = a_upper st.
  Proof.
    unfold lz, st, a_upper, getCachedString, buildEagerly. cbn [bind app]. rewrite Z.eqb_refl. cbn [bind].
    destruct (wrapS_cases sb) as [[_ E]|[(x & E & _)|[_ H]]]; [subst sb; cbn in Hsb; lia|rewrite E in Hsb; cbn in Hsb; lia|]. unfold wrapS in H. injection H as H. rewrite H. reflexivity.
  Qed.

  Lemma upper_same c r : upperOf (let* s := t_asSeq (traitsOf J (VChars sb) r) in fmt_s c s) = upperOf (let* s := t_asSeq (traitsOf J (VStr sb) r) in fmt_s c s).
  Proof.
    rewrite s_lazy_fmt. destruct (cuts c) eqn:C; [reflexivity|]. rewrite s_str_fmt, C. unfold upperOf. destruct (padding c (zlen sb)); cbn [bind]; [|reflexivity].
    apply upper_built; [reflexivity|apply upper_lz].
  Qed.

  Lemma first_same : s_charAt (Leaf lz) 0 = s_charAt (Leaf st) 0.
  Proof. cbn [s_charAt]. unfold lz, st, a_charAt, getCachedString, buildEagerly. cbn [bind app]. rewrite Z.eqb_refl. cbn [bind]. rewrite Z.add_0_l. destruct (checkPositionIndex 0 (zlen sb)); cbn [bind]; [|reflexivity]. destruct (jcharAt sb 0); reflexivity. Qed.
End Target.

(** every conversion but %s gives the same Seq as for a String *)
Lemma same_conversions J sb r sp c : sp <> Ss \/ zlen sb < 2 -> formatterFor J sp c (traitsOf J (VChars sb) r) = formatterFor J sp c (traitsOf J (VStr sb) r).
Proof.
  intros H. destruct (Z_lt_le_dec (zlen sb) 2) as [L|L].
  - assert (E : traitsOf J (VChars sb) r = traitsOf J (VStr sb) r).
    { cbn [traitsOf]. destruct (lazy_cases sb) as [[_ E]|[H' _]]; [|lia]. rewrite E. reflexivity. }
    rewrite E. reflexivity.
  - destruct H as [H|H]; [|lia]. destruct sp; try reflexivity; [|contradiction|].
    + cbn [formatterFor traitsOf charSeqTraits t_asChar]. pose proof (lazy_is J sb L r) as E1. pose proof (str_is J sb L r) as E2. cbn [traitsOf charSeqTraits t_asSeq] in E1, E2.
      assert (E3 : wrapS sb = Leaf (AStr sb 0 (zlen sb) false)) by congruence. rewrite E1, E3. cbn [bind]. rewrite first_same by exact L. reflexivity.
    + cbn [formatterFor]. apply upper_same. exact L.
Qed.

Lemma emit_ext f g l : (forall a sb, In a l -> f a sb = g a sb) -> forall sb, emitAtoms f l sb = emitAtoms g l sb.
Proof.
  induction l as [|a l IH]; intros H sb; [reflexivity|]. cbn [emitAtoms]. rewrite (H a sb) by (left; reflexivity). destruct (g a sb); [|reflexivity].
  apply IH. intros x y Hx. apply H. right. exact Hx.
Qed.

Definition emit_of (b : bool) := if b then emitSB else emitApp.
Definition deferred (a : atom) : Prop := match a with ALazy _ _ => True | _ => False end.

Lemma itself_other b a sb : ~ deferred a -> a_toItself b a sb = (if b then a_toSB else a_toApp) a sb.
Proof. destruct a; cbn; try tauto; destruct b; reflexivity. Qed.

Lemma padding_other c n k : padding c n = Ok k -> match k with Some (_, p) => ~ deferred p | None => True end.
Proof.
  unfold padding. destruct (n <? width c); [|intros E; inversion E; exact I]. destruct (s_repeated _ _) as [p|] eqn:R; cbn [bind]; [|discriminate].
  apply repeated_pad in R as [-> _]. intros E. inversion E. exact (fun f => f).
Qed.

Lemma emit_cut b c a s sb : ~ deferred a -> spaceJustify c (Leaf a) = Ok s -> emitWith (a_toItself b) s sb = emit_of b s sb.
Proof.
  intros D E. assert (L : exists l, (forall f, emitWith f s sb = emitAtoms f l sb) /\ Forall (fun a => ~ deferred a) l).
  { destruct (match a with AEmpty => true | _ => false end) eqn:Ea.
    - assert (a = AEmpty) by (destruct a; congruence). subst a. unfold spaceJustify, repeated in E. cbn [s_len a_len] in E. destruct (0 <? width c).
      + destruct (s_repeated _ _) as [p|] eqn:R; cbn [bind] in E; [|discriminate]. apply repeated_pad in R as [-> _]. eexists [_].
        assert (s = Leaf (ARep (ch " ") (wrap32 (width c - 0)))) as -> by (unfold s_append, s_prepend in E; destruct (hasFlag c LEFT_JUSTIFY); congruence).
        split; [intros f; reflexivity|]. constructor; [exact (fun f => f)|constructor].
      + inversion E. subst s. exists [AEmpty]. split; [intros f; reflexivity|]. constructor; [exact D|constructor].
    - rewrite justify_leaf in E by (intros ->; discriminate). destruct (padding c (a_len a)) as [k|] eqn:K; cbn [bind] in E; [|discriminate]. inversion E. subst s.
      exists (around k a). split; [intros f; apply emit_built|]. apply padding_other in K. destruct k as [[[] p]|]; repeat constructor; assumption. }
  destruct L as (l & El & F). unfold emit_of, emitSB, emitApp. rewrite El. transitivity (emitAtoms (if b then a_toSB else a_toApp) l sb); [|destruct b; rewrite El; reflexivity].
  apply emit_ext. intros x y Hx. apply itself_other. rewrite Forall_forall in F. apply F, Hx.
Qed.

Lemma str_whole (b : bool) sb x : (if b then a_toSB else a_toApp) (AStr sb 0 (zlen sb) false) x = Ok (x ++ sb).
Proof. destruct b; cbn [a_toSB a_toApp]; rewrite ?Z.add_0_l, ?Z.eqb_refl, ?slice_full; reflexivity. Qed.

Lemma pad_written (b : bool) x n sb : 1 <= n -> (if b then a_toSB else a_toApp) (ARep x n) sb = Ok (sb ++ rep x n).
Proof.
  intros H. destruct b; cbn [a_toSB a_toApp]; [|apply appendLoop_rep; lia]. replace (n =? 0) with false by lia.
  destruct (n <? THRESHOLD); [apply appendLoop_rep; lia|reflexivity].
Qed.

Lemma sub_str_other sb n p a : a_sub (AStr sb 0 n false) 0 p = Ok a -> ~ deferred a.
Proof.
  unfold a_sub. destruct (checkPositionIndexes 0 p n); cbn [bind]; [|discriminate]. destruct (0 =? p); [intros E; inversion E; exact (fun f => f)|].
  destruct (p =? 0 + 1); [|intros E; inversion E; exact (fun f => f)]. destruct (jcharAt sb (0 + 0)); cbn [bind]; [|discriminate]. intros E; inversion E; exact (fun f => f).
Qed.

(** %s of the target, nothing in front of it: the Seqs differ, what they write does not *)
Definition nothing_in_front (sb : list Z) (c : ctx) : Prop := stays_left c \/ cuts sb c = true \/ width c <= zlen sb.

Lemma s_written J b sb r c s : 2 <= zlen sb -> nothing_in_front sb c -> formatterFor J Ss c (traitsOf J (VChars sb) r) = Ok s ->
  exists s', formatterFor J Ss c (traitsOf J (VStr sb) r) = Ok s' /\ emitWith (a_toItself b) s sb = emit_of b s' sb.
Proof.
  intros L H. cbn [formatterFor]. rewrite s_lazy_fmt by exact L. rewrite s_str_fmt by exact L. destruct (cuts sb c) eqn:C.
  - destruct (a_sub _ 0 (c_prec c)) as [a|] eqn:A; cbn [bind]; [|discriminate]. intros E. exists s. split; [exact E|]. apply (emit_cut b c a); [|exact E]. apply (sub_str_other _ _ _ _ A).
  - destruct (padding c (zlen sb)) as [k|] eqn:K; cbn [bind]; [|discriminate]. intros E. inversion E. subst s. eexists. split; [reflexivity|].
    unfold emit_of, emitSB, emitApp. rewrite emit_built. replace ((if b then emitWith a_toSB else emitWith a_toApp) (built k (AStr sb 0 (zlen sb) false)) sb) with
      (emitAtoms (if b then a_toSB else a_toApp) (around k (AStr sb 0 (zlen sb) false)) sb) by (destruct b; rewrite emit_built; reflexivity).
    assert (Z : a_toItself b (ALazy (fun x => Ok (x ++ sb)) (zlen sb)) sb = Ok (sb ++ sb)) by (cbn [a_toItself]; rewrite Z.eqb_refl; destruct b; reflexivity).
    assert (k = None \/ exists p, k = Some (true, p) /\ ~ deferred p) as [-> | (p & -> & D)].
    { pose proof (padding_other _ _ _ K) as D. unfold padding in K. destruct H as [[H|H]|[H|H]]; [| |congruence|replace (zlen sb <? width c) with false in K by lia; inversion K; left; reflexivity].
      - unfold width, isWidthSet in K. rewrite H in K. cbn [negb] in K. rewrite Z.eqb_refl in K. cbn [negb] in K. replace (zlen sb <? 0) with false in K by lia. inversion K. left. reflexivity.
      - destruct (zlen sb <? _); [|inversion K; left; reflexivity]. destruct (s_repeated _ _) as [p|]; cbn [bind] in K; [|discriminate]. inversion K. subst k.
        right. exists p. split; [|exact D]. unfold hasFlag, hasF. rewrite H. reflexivity. }
    + cbn [around emitAtoms]. rewrite Z, str_whole. reflexivity.
    + cbn [around emitAtoms]. rewrite Z, str_whole, (itself_other b p) by exact D. reflexivity.
Qed.

Lemma sub_other a i j x : ~ deferred a -> a_sub a i j = Ok x -> ~ deferred x.
Proof.
  intros D. destruct a; cbn [a_sub deferred] in *; try tauto.
  - destruct ((i =? 0) && (j =? 0)); [|discriminate]. intros E; inversion E; exact (fun f => f).
  - destruct (checkPositionIndexes _ _ _); cbn [bind]; [|discriminate]. destruct (i =? j); intros E; inversion E; exact (fun f => f).
  - destruct (checkPositionIndexes _ _ _); cbn [bind]; [|discriminate]. destruct (i =? j); [intros E; inversion E; exact (fun f => f)|].
    destruct (j =? i + 1); [|intros E; inversion E; exact (fun f => f)]. destruct (jcharAt _ _); cbn [bind]; [|discriminate]. intros E; inversion E; exact (fun f => f).
  - destruct (checkPositionIndexes _ _ _); cbn [bind]; [|discriminate]. destruct (i =? j); [intros E; inversion E; exact (fun f => f)|].
    destruct (j =? i + 1); [|intros E; inversion E; exact (fun f => f)]. destruct (jcharAt _ _); cbn [bind]; [|discriminate]. intros E; inversion E; exact (fun f => f).
Qed.

(** %s of a String writes the same either way *)
Lemma str_written J b sb r c s x : formatterFor J Ss c (traitsOf J (VStr sb) r) = Ok s -> emitWith (a_toItself b) s x = emit_of b s x.
Proof.
  cbn [formatterFor traitsOf charSeqTraits t_asSeq bind]. unfold fmt_s, wrapS. cbn [s_len s_sub].
  assert (D : ~ deferred (s_wrap sb)). { unfold s_wrap. destruct (0 <? zlen sb); [destruct sb as [|? [|]]|]; exact (fun f => f). }
  destruct (isPrecisionSet c && _).
  - destruct (a_sub (s_wrap sb) 0 (c_prec c)) as [a|] eqn:A; cbn [bind]; [|discriminate]. apply emit_cut. apply (sub_other _ _ _ _ D A).
  - cbn [bind]. apply emit_cut. exact D.
Qed.

Lemma s_rejected J sb r c e : 2 <= zlen sb -> formatterFor J Ss c (traitsOf J (VChars sb) r) = Err e -> formatterFor J Ss c (traitsOf J (VStr sb) r) = Err e.
Proof.
  intros L. cbn [formatterFor]. rewrite s_lazy_fmt by exact L. destruct (cuts sb c) eqn:C; [auto|]. rewrite s_str_fmt, C by exact L. destruct (padding c (zlen sb)); cbn [bind]; congruence.
Qed.

Lemma append_map {A} J (f : A -> traits) sp c it : appendOne J (Default sp c) (map f it) =
  let* (c', r) := take_stars (fun x => t_asInt (f x)) c it in
  match r with [] => Err (Printf MissingArg) | x :: rest => let* s := formatterFor J sp c' (f x) in Ok (s, map f rest) end.
Proof. cbn [appendOne]. rewrite take_stars_map. destruct (take_stars _ c it) as [[c' [|x r]]|]; reflexivity. Qed.

Lemma skipn_hd {A} n (l : list A) x r : skipn n l = x :: r -> (n < List.length l)%nat /\ nth_error l n = Some x /\ skipn (S n) l = r.
Proof.
  revert l. induction n as [|n IH]; intros [|y l] H; cbn in *; try discriminate.
  - inversion H. subst. split; [lia|]. split; reflexivity.
  - apply IH in H as (H1 & H2 & H3). split; [lia|]. split; assumption.
Qed.

Lemma aliased_step_gen J b d ds it sb :
  (forall c c' r rest, d = Default Ss c -> take_stars (fun x => t_asInt (frozen J sb x)) c it = Ok (c', Itself r :: rest) -> 2 <= zlen sb -> nothing_in_front sb c') ->
  runAliased J b (d :: ds) it sb =
  match formatInto J b [d] (map (frozen J sb) it) sb with
  | (sb', None) => runAliased J b ds (skipn (Z.to_nat (arity d)) it) sb'
  | o => o
  end.
Proof.
  intros H. unfold formatInto. cbn [runAliased run]. destruct d as [t|sp c].
  - cbn [appendOne arity]. rewrite map_length, Nat.sub_diag. cbn [defers]. fold (emit_of b). destruct (emit_of b (wrapS t) sb) as [sb' [e|]]; reflexivity.
  - rewrite !append_map. rewrite (take_stars_ext (fun x => t_asInt (now J sb x)) (fun x => t_asInt (frozen J sb x)) c it (now_int J sb)).
    destruct (take_stars _ c it) as [[c' r]|e] eqn:T; cbn [bind]; [|reflexivity]. pose proof T as T'. apply take_stars_skip in T as (-> & Ln & Sl).
    destruct (skipn (Z.to_nat (stars c)) it) as [|x rest] eqn:K; [reflexivity|]. apply skipn_hd in K as (K1 & K2 & K3).
    assert (U : (List.length it - List.length (map (now J sb) rest) = Z.to_nat (arity (Default sp c)))%nat).
    { rewrite map_length, <- K3, skipn_length. unfold arity, stars in *. destruct (c_width c =? PRECEDING), (c_prec c =? PRECEDING); lia. }
    assert (N : nth_error it (Z.to_nat (arity (Default sp c)) - 1) = Some x).
    { rewrite <- K2. f_equal. unfold arity, stars. destruct (c_width c =? PRECEDING), (c_prec c =? PRECEDING); reflexivity. }
    assert (X : match (match formatterFor J sp c' (now J sb x) with Ok s => (if defers (Default sp c) (Some x) then emitWith (a_toItself b) else emit_of b) s sb | Err e => (sb, Some e) end),
                      (match formatterFor J sp c' (frozen J sb x) with Ok s => emit_of b s sb | Err e => (sb, Some e) end) with o, o' => o = o' end).
    { destruct x as [t|r]; cbn [now frozen]; [destruct sp; reflexivity|]. assert (Q : sp <> Ss \/ zlen sb < 2 \/ (sp = Ss /\ 2 <= zlen sb)).
      { destruct (Z_lt_le_dec (zlen sb) 2); [auto|]. destruct sp; auto; left; discriminate. }
      destruct Q as [Q|[Q|[-> Q]]].
      - rewrite same_conversions by auto. destruct sp; try reflexivity. contradiction.
      - rewrite same_conversions by auto. destruct (formatterFor J sp c' (traitsOf J (VStr sb) r)) as [s|] eqn:F; [|reflexivity]. destruct sp; try reflexivity. cbn [defers].
        apply (str_written J b sb r c' s sb F).
      - cbn [defers]. destruct (formatterFor J Ss c' (traitsOf J (VChars sb) r)) as [s|e] eqn:F.
        + destruct (s_written J b sb r c' s Q (H c c' r rest eq_refl T' Q) F) as (s' & E' & W). rewrite E', W. reflexivity.
        + rewrite (s_rejected J sb r c' e Q F). reflexivity. }
    destruct (formatterFor J sp c' (now J sb x)) as [s|e]; cbn [bind].
    + rewrite U, N. fold (emit_of b). rewrite X. destruct (formatterFor J sp c' (frozen J sb x)) as [s'|e']; cbn [bind]; [|reflexivity].
      destruct (emit_of b s' sb) as [sb' [e|]]; reflexivity.
    + destruct (formatterFor J sp c' (frozen J sb x)) as [s'|e']; cbn [bind].
      * fold (emit_of b). rewrite <- X. reflexivity.
      * inversion X. reflexivity.
Qed.

Lemma aliased_step J b d ds it sb : no_left_pad d ->
  runAliased J b (d :: ds) it sb =
  match formatInto J b [d] (map (frozen J sb) it) sb with
  | (sb', None) => runAliased J b ds (skipn (Z.to_nat (arity d)) it) sb'
  | o => o
  end.
Proof. intros H. apply aliased_step_gen. intros c c' r rest -> T _. left. apply take_stars_skip in T as (_ & _ & S). apply S, H. Qed.

(** an argument other than the target is what it was *)
Lemma aliased_other J b ds : forall args sb, runAliased J b ds (map Other args) sb = formatInto J b ds args sb.
Proof.
  unfold formatInto. induction ds as [|d ds IH]; intros args sb; [reflexivity|]. cbn [runAliased run]. rewrite map_map. cbn [now]. rewrite map_id.
  destruct (appendOne J d args) as [[s r]|e] eqn:A; [|reflexivity].
  assert (X : r = skipn (List.length (map Other args) - List.length r) args).
  { rewrite map_length. destruct d as [t|sp c]; [cbn in A; inversion A; subst; rewrite Nat.sub_diag; reflexivity|].
    rewrite <- (map_id args), append_map in A. destruct (take_stars _ c args) as [[c' q]|] eqn:T; cbn [bind] in A; [|discriminate]. apply take_stars_skip in T as (-> & Ln & _).
    destruct (skipn (Z.to_nat (stars c)) args) as [|x rest] eqn:K; [discriminate|]. destruct (formatterFor J sp c' x); cbn [bind] in A; [|discriminate].
    rewrite map_id in A. inversion A. subst. apply skipn_hd in K as (K1 & _ & <-). rewrite skipn_length. f_equal. lia. }
  assert (Y : defers d (nth_error (map Other args) (List.length (map Other args) - List.length r - 1)) = false).
  { rewrite nth_error_map. destruct (nth_error args _); destruct d as [|[]]; reflexivity. }
  rewrite Y. fold (emit_of b). destruct (emit_of b s sb) as [sb' [e|]]; [reflexivity|]. rewrite skipn_map, <- X. apply IH.
Qed.

(** ** The padding in front *)

Lemma padding_ok c n : 0 <= n < width c -> width c <= 65536 -> padding c n = Ok (Some (hasFlag c LEFT_JUSTIFY, ARep (ch " ") (width c - n))).
Proof.
  intros L W. unfold padding. replace (n <? width c) with true by lia. rewrite FmtP.wrap32_small by lia.
  unfold s_repeated, checkArgument, s_ch. replace (1 <=? width c - n) with true by lia. cbn [bind]. destruct (Z.eqb_spec (width c - n) 1) as [->|]; reflexivity.
Qed.

Lemma s_padded J b sb r c s : 2 <= zlen sb -> cuts sb c = false -> hasFlag c LEFT_JUSTIFY = false -> zlen sb < width c <= 65536 ->
  formatterFor J Ss c (traitsOf J (VChars sb) r) = Ok s ->
  emitWith (a_toItself b) s sb =
    let t := sb ++ rep (ch " ") (width c - zlen sb) in
    if b then (t ++ t, None) else (t, Some IllegalState).
Proof.
  intros L C F W. cbn [formatterFor]. rewrite s_lazy_fmt, C by exact L. rewrite padding_ok, F by (pose proof (zlen_nonneg sb); lia). clear C.
  cbn [bind]. intros X. assert (Y : forall a b : seq, Ok a = Ok b -> a = b) by congruence. apply Y in X. rewrite <- X, emit_built. cbn [around emitAtoms]. rewrite itself_other by exact (fun f => f). rewrite pad_written by lia.
  cbv zeta. cbn [a_toItself]. destruct b; [reflexivity|]. replace (zlen sb =? zlen (sb ++ rep (ch " ") (width c - zlen sb))) with false; [reflexivity|].
  symmetry. apply Z.eqb_neq. rewrite zlen_app, zlen_rep. lia.
Qed.

(** one directive *)
Lemma target_of_s J src q b r target dtf : directive src Ss q -> zlen target <= int_max ->
  exists apps, compile dtf src = Ok apps /\ runAliased J b apps [Itself r] target =
    if (2 <=? zlen target) && negb (match q_prec q with Some p => p <? zlen target | None => false end) && negb (q_left q) && (zlen target <? q_width q)
    then let t := target ++ spaces (q_width q - zlen target) in if b then (t ++ t, None) else (t, Some IllegalState)
    else (target ++ c_s q target, None).
Proof.
  intros Hd Hm. destruct (directive_compile dtf _ _ _ Hd) as (c & Hc & Hr & Hq & P1 & P2 & _). exists [Default Ss c]. split; [exact Hc|].
  assert (EC : cuts target c = match q_prec q with Some p => p <? zlen target | None => false end).
  { rewrite <- Hq. unfold cuts, isPrecisionSet, q_of. cbn [q_prec]. destruct Hr as [_ [Hp|Hp]]; [rewrite Hp; reflexivity|].
    replace (c_prec c <? 0) with false by lia. replace (c_prec c =? UNSET) with false by (unfold UNSET in *; lia). reflexivity. }
  assert (EL : hasFlag c LEFT_JUSTIFY = q_left q) by (rewrite <- Hq; reflexivity).
  assert (T : take_stars (fun x => t_asInt (frozen J target x)) c [Itself r] = Ok (c, [Itself r])).
  { unfold take_stars. rewrite P1. cbn [bind]. rewrite P2. reflexivity. }
  assert (EW : q_left q = false -> width c = q_width q /\ 0 <= width c <= 65536).
  { intros L. rewrite <- Hq in *. unfold width, isWidthSet, q_of. cbn [q_width]. destruct Hr as [[Hw|[Hw|[Hw L']]] _].
    - rewrite Hw. rewrite Z.eqb_refl. cbn [negb]. unfold UNSET. lia.
    - replace (c_width c =? UNSET) with false by (unfold UNSET in *; lia). cbn [negb]. lia.
    - cbn in L. congruence. }
  destruct ((2 <=? zlen target) && _ && _ && _) eqn:B.
  - bools. destruct (EW ltac:(assumption)) as [EW1 EW2]. cbn [runAliased]. rewrite append_map.
    rewrite (take_stars_ext (fun x => t_asInt (now J target x)) (fun x => t_asInt (frozen J target x)) c [Itself r] (now_int J target)), T. cbn [bind now map].
    destruct (formatterFor J Ss c (traitsOf J (VChars target) r)) as [s|e] eqn:F; cbn [bind].
    + cbn [List.length Nat.sub nth_error defers]. rewrite (s_padded J b target r c s ltac:(lia) ltac:(congruence) ltac:(congruence) ltac:(lia) F). rewrite EW1. unfold spaces. cbv zeta. destruct b; reflexivity.
    + exfalso. cbn [formatterFor] in F. rewrite s_lazy_fmt in F by lia. rewrite EC in F. match goal with H : ?x = false |- _ => rewrite H in F end.
      rewrite padding_ok in F by lia. discriminate.
  - rewrite aliased_step_gen.
    + destruct (string_conversion J (VStr target) target r src q (it_str J target) Hm) as [P _]. destruct (P Hd dtf) as (apps & Hc' & _ & W). rewrite Hc in Hc'. inversion Hc'. subst apps.
      cbn [map frozen]. rewrite W. unfold c_s. destruct (arity _); reflexivity.
    + intros c1 c' r' rest E1 T1 L2. inversion E1. subst c1. rewrite T in T1. inversion T1. subst c'. clear T1 E1. unfold nothing_in_front, stays_left. rewrite EC.
      destruct (q_left q) eqn:L; [left; right; exact EL|]. destruct (EW eq_refl) as [EW1 EW2]. rewrite EW1.
      destruct (match q_prec q with Some p => p <? zlen target | None => false end); [right; left; reflexivity|].
      destruct (Z_lt_le_dec (zlen target) (q_width q)) as [W|W]; [|right; right; exact W]. cbn [negb andb] in B. 
      replace (zlen target <? q_width q) with true in B by lia. rewrite !andb_true_r in B. lia.
Qed.
