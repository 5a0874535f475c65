(** Proofs for C70. *)
From Verif Require Import Base Digits UtilsM SeqM SeqSpec SeqP ContextM CompilerM GrammarSpec CompilerP CompilerP2 PatternP IntFormM FormatterM
  MathM DecimalM FPDecimalM DoubleM BigDecM RoundM TraitsM ImplM FmtSpec FmtP DirSpec IntP MiscSpec MiscP CtxSpec CtxP MsgM.

(** conversion [a] throws [e] *)
Definition fails (x : traits) (a : accessor) (e : exn) : Prop :=
  match a with
  | AIntForm => t_asIntForm x = Err e
  | AFloatForm => t_asFloatForm x = Err e
  | AInt => t_asInt x = Err e
  | ATemporal => t_asTemporal x = Err e
  | AChar => t_asChar x = Err e
  end.

Ltac both := split; [intros (m & Em); first [discriminate Em|reflexivity]|intros Ef; first [discriminate Ef|eexists; reflexivity]].

Lemma instantOfLong_printf v k : instantOfLong v = Err (Printf k) -> False.
Proof. unfold instantOfLong, longToInstant. destruct (0 <=? v); [destruct (v <=? 4294967295)|]; discriminate. Qed.

(** arguments whose own code does not throw a PrintfException: not a Seq, and a text of possible length *)
From Verif Require ValueSpec.
Definition plain_value (v : value) : Prop :=
  match v with VStr t | VChars t => zlen t <= int_max | VSeq _ => False
  | VObj o => forall k, ~ ValueSpec.fails_long o (Printf k) /\ ~ ValueSpec.fails_int o (Printf k) /\ ~ ValueSpec.fails_double o (Printf k) /\
                        ~ ValueSpec.fails_instant o (Printf k)
  | _ => True end.

Lemma access_charSeq J K t q r a : (forall c l, t = c :: l -> (let* q := q in s_charAt q 0) = Ok c) ->
  ((exists m, charSeqMessage J K t (zlen t) a = Some m) <-> fails (charSeqTraits J (Ok t) (zlen t) q r) a (Printf BadConversion)).
Proof.
  intros Hq. destruct a; cbn [charSeqMessage fails charSeqTraits t_asIntForm t_asFloatForm t_asInt t_asTemporal t_asChar bind]; unfold text_of_res, conv.
  - destruct (parseJava (j_digit J) 64 t); cbn [bind]; both.
  - destruct (j_parseDouble J t); cbn [bind]; both.
  - destruct (parseJava (j_digit J) 32 t); both.
  - unfold noTemporal. both.
  - destruct t as [|c l]; [both|]. rewrite (Hq c l eq_refl). rewrite zlen_cons. pose proof (zlen_nonneg l). replace (1 <=? 1 + zlen l) with true by lia. both.
Qed.

Lemma access_iff J K v r a : plain_value v ->
  ((exists m, accessMessage J K v a = Some m) <-> fails (traitsOf J v r) a (Printf BadConversion)).
Proof.
  intros Hv.
  destruct v as [b|c|z|z|z|z|b|b|t|q|t|z|d|t|o]; cbn [accessMessage traitsOf plain_value] in *.
  1-8,12-13: destruct a; cbn; try both; unfold noTemporal; try both.
  1-3: split; [intros (m & E); discriminate E|intros E; exfalso; exact (instantOfLong_printf _ _ E)].
  1: split; [intros (m & E); discriminate E|unfold bd_bigInteger, checkTen, bigInteger; repeat match goal with |- context [if ?b then _ else _] => destruct b; cbn [bind] end; discriminate].
  - apply access_charSeq. intros c l ->. cbn [bind]. change (s_charAt (wrapS (c :: l)) 0) with (a_charAt (s_wrap (c :: l)) 0).
    apply (a_charAt_ok _ (c :: l)); [apply s_wrap_den; exact Hv|reflexivity].
  - contradiction.
  - apply access_charSeq. intros c l ->. destruct (lazy_den (c :: l) _ eq_refl Hv) as (x & -> & D). cbn [bind s_charAt].
    apply (a_charAt_ok _ _ _ _ D). reflexivity.
  - destruct a; cbn [temporalMessage fails temporalTraits t_asIntForm t_asFloatForm t_asInt t_asTemporal t_asChar]; unfold conv.
    1-3: destruct (instantFrom J t) as [i|]; cbn [bind].
    + split; [intros (m & E); discriminate E|]. unfold toEpochMilli. destruct ((_ && _)); discriminate.
    + both.
    + both.
    + both.
    + both.
    + both.
    + both.
    + both.
  - specialize (Hv BadConversion). destruct o; destruct a; cbn; cbn in Hv; try both; destruct Hv as (V1 & V2 & V3 & V4);
      (split; [intros (m & E); discriminate E|intros E; exfalso]).
    all: repeat match goal with E : context [bind ?r] |- _ => destruct r; cbn [bind] in E end; try discriminate; try tauto.
    all: try (match goal with E : instantOfLong _ = _ |- _ => exact (instantOfLong_printf _ _ E) end).
    all: try (match goal with E : _ = Err _ |- _ => injection E as ->; congruence end).
    unfold charOfInt in E. destruct i as [z|e]; cbn [bind] in E; [discriminate E|]. injection E as ->. congruence.
Qed.

(** a message is given only where the conversion throws *)
Lemma message_fails J K v r a m : accessMessage J K v a = Some m -> fails (traitsOf J v r) a (Printf BadConversion).
Proof.
  destruct v as [b|c|z|z|z|z|b|b|t|q|t|z|d|t|o]; intros E; try (apply (access_iff J K); [exact I|exists m; exact E]).
  - cbn [accessMessage traitsOf] in *. revert E.
    destruct a; cbn [charSeqMessage fails charSeqTraits t_asIntForm t_asFloatForm t_asInt t_asTemporal t_asChar bind]; unfold text_of_res, conv.
    + destruct (parseJava (j_digit J) 64 t); [discriminate|reflexivity].
    + destruct (j_parseDouble J t); [discriminate|reflexivity].
    + destruct (parseJava (j_digit J) 32 t); [discriminate|reflexivity].
    + reflexivity.
    + destruct (1 <=? zlen t); [discriminate|reflexivity].
  - cbn [accessMessage traitsOf] in *. destruct (s_toString q) as [t|e] eqn:Eq; [|discriminate E]. revert E.
    destruct a; cbn [charSeqMessage fails charSeqTraits t_asIntForm t_asFloatForm t_asInt t_asTemporal t_asChar bind]; unfold text_of_res, conv.
    + destruct (parseJava (j_digit J) 64 t); [discriminate|reflexivity].
    + destruct (j_parseDouble J t); [discriminate|reflexivity].
    + destruct (parseJava (j_digit J) 32 t); [discriminate|reflexivity].
    + reflexivity.
    + destruct (1 <=? s_len q); [discriminate|reflexivity].
  - cbn [accessMessage traitsOf] in *. revert E.
    destruct a; cbn [charSeqMessage fails charSeqTraits t_asIntForm t_asFloatForm t_asInt t_asTemporal t_asChar bind]; unfold text_of_res, conv.
    + destruct (parseJava (j_digit J) 64 t); [discriminate|reflexivity].
    + destruct (j_parseDouble J t); [discriminate|reflexivity].
    + destruct (parseJava (j_digit J) 32 t); [discriminate|reflexivity].
    + reflexivity.
    + destruct (1 <=? zlen t); [discriminate|reflexivity].
  - destruct o; cbn [accessMessage objMessage] in E; try discriminate E; destruct a; reflexivity.
Qed.

Lemma fails_formatter J s a c x e : accessorOf s = Some a -> fails x a e -> formatterFor J s c x = Err e.
Proof.
  intros Ha Hf. destruct s; cbn in Ha; try discriminate Ha; injection Ha as <-; cbn [fails] in Hf; cbn [formatterFor]; unfold upperOf, withInt, withFloat, fmt_t;
    rewrite Hf; reflexivity.
Qed.

(** the conversions of numbers that reject some of them *)
Lemma negative_unsigned J s c z r : s = Su \/ s = So \/ s = Sx \/ s = SX -> z < 0 ->
  formatterFor J s c (traitsOf J (VBig z) r) = Err (Printf NegativeUnsigned).
Proof.
  intros Hs Hz.
  assert (E1 : (Z.sgn z =? 0) = false) by (destruct z; try reflexivity; lia).
  assert (E2 : (Z.sgn z <? 0) = true) by (destruct z; try reflexivity; lia).
  assert (G : forall get p, (get = i_udec \/ get = i_hex \/ get = i_oct) ->
              formatUnsignedInteger c (bigForm z) get p = Err (Printf NegativeUnsigned)).
  { intros get p Hget. unfold formatUnsignedInteger. cbn [bigForm i_signum]. rewrite E1. cbn [andb].
    destruct Hget as [ -> | [ -> | -> ]]; cbn [bigForm i_udec i_hex i_oct]; unfold ensureNonNegative; rewrite E2; reflexivity. }
  destruct Hs as [ -> | [ -> | [ -> | -> ]]]; cbn [formatterFor traitsOf bigTraits]; unfold upperOf, withInt, fmt_u, fmt_o, fmt_x; cbn [t_asIntForm bigTraits bind];
    rewrite G by auto; reflexivity.
Qed.

Lemma directive_fails J K s v r m : directiveMessage J K s v r = Some m ->
  exists k, forall c, c_dtf c = None -> formatterFor J s c (traitsOf J v r) = Err (Printf k).
Proof.
  intros E. unfold directiveMessage in E.
  destruct (accessorOf s) as [a|] eqn:Ea.
  - destruct (accessMessage J K v a) as [m'|] eqn:Em.
    + exists BadConversion. intros c _. apply (fails_formatter J s a); [exact Ea|]. apply (message_fails J K v r a m' Em).
    + destruct s; try discriminate E; try discriminate Ea; destruct v; try discriminate E.
      * exists NegativeUnsigned. intros c _. apply negative_unsigned; [auto|]. destruct (v <? 0) eqn:Z0; [lia|discriminate E].
      * exists NegativeUnsigned. intros c _. apply negative_unsigned; [auto|]. destruct (v <? 0) eqn:Z0; [lia|discriminate E].
      * exists NegativeUnsigned. intros c _. apply negative_unsigned; [auto|]. destruct (v <? 0) eqn:Z0; [lia|discriminate E].
      * exists NegativeUnsigned. intros c _. apply negative_unsigned; [auto|]. destruct (v <? 0) eqn:Z0; [lia|discriminate E].
      * exists NotHex. reflexivity.
      * exists NotHex. reflexivity.
      * exists NotHex. reflexivity.
      * exists NotHex. reflexivity.
      * destruct t; try discriminate E. exists BadConversion. intros c Hc. cbn [formatterFor]. unfold fmt_t. rewrite Hc. reflexivity.
      * destruct t; try discriminate E. exists BadConversion. intros c Hc. cbn [formatterFor]. unfold upperOf, fmt_t. rewrite Hc. reflexivity.
  - destruct s; try discriminate Ea; try discriminate E. destruct r; try discriminate E.
    exists PrimitivePointer. intros c _. assert (T : t_ref (traitsOf J v RPrimitive) = RPrimitive).
    { destruct v as [| | | | | | | | | | | | | |[]]; reflexivity. }
    cbn [formatterFor]. rewrite T. reflexivity.
Qed.

Lemma rejects_plain J src s q x e : directive src s q -> (forall c, c_dtf c = None -> formatterFor J s c x = Err e) -> rejects J src [x] e.
Proof.
  intros Hd H dtf. destruct (directive_compile dtf _ _ _ Hd) as (c & Ec & Hr & Hq & A & B & D).
  exists [Default s c]. split; [exact Ec|]. unfold ImplM.format, formatInto. cbn [run appendOne]. rewrite (resolve_plain _ _ A B). cbn [bind].
  rewrite (H c D). cbn [bind]. auto.
Qed.

Lemma message_rejects J K src s q v r m : directive src s q -> directiveMessage J K s v r = Some m ->
  exists k, rejects J src [traitsOf J v r] (Printf k).
Proof. intros Hd Hm. destruct (directive_fails J K s v r m Hm) as (k & Hk). exists k. exact (rejects_plain J src s q _ _ Hd Hk). Qed.

(** ** texts *)

Lemma one_placeholder g h a : plain_text g -> plain_text h -> lenientFormat (g ++ ph ++ h) [a] = g ++ a ++ h.
Proof. intros Hg Hh. change (g ++ ph ++ h) with (template g [h]). rewrite lenientFormat_spec; [reflexivity|exact Hg|constructor; [exact Hh|constructor]]. Qed.
Lemma one_and_more g a b : plain_text g -> lenientFormat (g ++ ph) [a; b] = g ++ a ++ txt " [" ++ b ++ txt "]".
Proof.
  intros Hg. replace (g ++ ph) with (template g [[]]) by (cbn [template]; reflexivity).
  rewrite lenientFormat_spec; [reflexivity|exact Hg|]. constructor; [|constructor]. intros x y E. destruct x; discriminate E.
Qed.
Lemma no_arguments t : lenientFormat t [] = t.
Proof. unfold lenientFormat. cbn. reflexivity. Qed.

Ltac no_ph := apply indexOfPct_none; reflexivity.
