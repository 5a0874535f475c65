(** Floating-point arguments: what each class shows to the formatter; NaN and infinities. *)
From Coq Require Import QArith Qabs Qpower Lqa.
From Verif Require Import Base Digits UtilsM SeqM SeqSpec SeqP SeqSubP ContextM CompilerM GrammarSpec IntFormM FormatterM MathM MathP DecimalM FPDecimalM
  DoubleM BigDecM RoundM TraitsM ImplM FmtSpec FmtP FmtP2 DirSpec DecSpec RoundP ShortP SchubP FloatSpec FloatP DoubleP HexP CastP NearP FloatQ IntP.
Open Scope Z_scope.

Lemma nearest_range x b : nearest_double x b -> in_range 64 b.
Proof. intros (H & _). unfold in_range. change (2 ^ (64 - 1)) with (2 ^ 63). exact H. Qed.

Lemma ofLong_is z b : - 2 ^ 63 <= z <= 2 ^ 63 -> nearest_double (inject_Z z) b -> ofLong z = b.
Proof. intros Hz H. destruct (ofLong_nearest z Hz) as [N _]. exact (nearest_unique _ _ _ N H). Qed.

Lemma num_1000 : dbl_num (ofLong 1000) = 1000 * 2 ^ 1074.
Proof. vm_compute. reflexivity. Qed.
Lemma num_nano : dbl_num (ofLong 1000000000) = 1000000000 * 2 ^ 1074.
Proof. vm_compute. reflexivity. Qed.

Lemma millis_double m a b : in_range 64 m -> nearest_double (inject_Z m) a -> nearest_double (sval a / 1000) b ->
  dbl_div (ofLong m) (ofLong 1000) = b.
Proof.
  intros Hm Ha Hb. unfold in_range in Hm. change (2 ^ (64 - 1)) with (2 ^ 63) in Hm.
  rewrite <- (ofLong_is m a) in Hb by (try assumption; lia).
  destruct (ofLong_moderate m 1000 ltac:(lia) ltac:(lia)) as [M _].
  destruct (dbl_div_nearest (ofLong m) (ofLong 1000) 1000 num_1000 ltac:(lia) M) as [N _]. exact (nearest_unique _ _ _ N Hb).
Qed.

Lemma instant_double s n a c d b : in_range 64 s -> 0 <= n < 1000000000 ->
  nearest_double (inject_Z s) a -> nearest_double (inject_Z n) c -> nearest_double (sval c / 1000000000) d -> nearest_double (sval a + sval d) b ->
  dbl_add (ofLong s) (dbl_div (ofLong n) (ofLong 1000000000)) = b.
Proof.
  intros Hs Hn Ha Hc Hd Hb. unfold in_range in Hs. change (2 ^ (64 - 1)) with (2 ^ 63) in Hs.
  rewrite <- (ofLong_is s a) in Hb by (try assumption; lia). rewrite <- (ofLong_is n c) in Hd by (try assumption; lia).
  destruct (ofLong_moderate n 1000000000 ltac:(lia) ltac:(lia)) as [M U].
  destruct (dbl_div_nearest (ofLong n) (ofLong 1000000000) 1000000000 num_nano ltac:(lia) M) as (N & _ & S).
  pose proof (nearest_unique _ _ _ N Hd) as E. rewrite E in *. clear N.
  destruct (ofLong_moderate s 1 ltac:(lia) ltac:(lia)) as [_ Us].
  assert (B : (Qabs (sval (ofLong s) + sval d) < 2 ^ 900)%Q).
  { apply Qle_lt_trans with (Qabs (sval (ofLong s)) + Qabs (sval d))%Q; [apply Qabs_triangle|].
    assert (E1 : (sval (ofLong s) / inject_Z 1 == sval (ofLong s))%Q) by (change (inject_Z 1) with (1 # 1); field). rewrite E1 in Us.
    apply Qle_lt_trans with (2 ^ 64 + 2 * 2 ^ 64)%Q; [|vm_compute; reflexivity].
    apply Qplus_le_compat; [exact Us|]. apply Qle_trans with (1 := S). apply Qmult_le_l; [reflexivity|exact U]. }
  destruct (dbl_add_nearest (ofLong s) d B) as [N _]. exact (nearest_unique _ _ _ N Hb).
Qed.

Lemma double_view J v b r : is_double J v b -> t_asFloatForm (traitsOf J v r) = Ok (doubleForm b) /\ in_range 64 b.
Proof.
  intros H. destruct H as [b H|f b H|f H|z b H N|z b H N|z b H N|z b H N|c b H N|v b N|v s b D E H|l d i t H|m i t a b H N1 N2|m t a b H N1 N2|t s n a c d b E H1 H2 N1 N2 N3 N4];
    cbn [traitsOf].
  - split; [reflexivity|exact H].
  - split; [|unfold in_range; change (2 ^ (64 - 1)) with (2 ^ 63); apply H]. cbn [floatTraits t_asFloatForm].
    rewrite (widened_unique f b (f2d f) H (f2d_widens f (proj1 H))). reflexivity.
  - split; [cbn [floatTraits t_asFloatForm]; rewrite (float_inf f H); reflexivity|].
    unfold in_range, inf_bits. destruct (f <? 0); change (2 ^ (64 - 1)) with (2 ^ 63); lia.
  - split; [|apply (nearest_range _ _ N)]. cbn. rewrite (ofLong_is z b); [reflexivity| |exact N]. unfold in_range in H. change (2 ^ (8 - 1)) with 128 in H. lia.
  - split; [|apply (nearest_range _ _ N)]. cbn. rewrite (ofLong_is z b); [reflexivity| |exact N]. unfold in_range in H. change (2 ^ (16 - 1)) with 32768 in H. lia.
  - split; [|apply (nearest_range _ _ N)]. cbn. rewrite (ofLong_is z b); [reflexivity| |exact N]. unfold in_range in H. change (2 ^ (32 - 1)) with (2 ^ 31) in H. lia.
  - split; [|apply (nearest_range _ _ N)]. cbn. rewrite (ofLong_is z b); [reflexivity| |exact N]. unfold in_range in H. change (2 ^ (64 - 1)) with (2 ^ 63) in H. lia.
  - split; [|apply (nearest_range _ _ N)]. cbn. rewrite (ofLong_is c b); [reflexivity|lia|exact N].
  - split; [|apply (nearest_range _ _ N)]. cbn. rewrite (ofLong_is _ b); [reflexivity|destruct v; lia|exact N].
  - split; [|exact H]. destruct (chars_string J v s r D) as (n & q & ->). cbn. rewrite E. reflexivity.
  - split; [reflexivity|exact H].
  - split; [|apply (nearest_range _ _ N2)]. cbn [objTraits t_asFloatForm bind]. rewrite (millis_double m a b H N1 N2). reflexivity.
  - split; [|apply (nearest_range _ _ N2)]. cbn [objTraits t_asFloatForm bind]. rewrite (millis_double m a b H N1 N2). reflexivity.
  - split; [|apply (nearest_range _ _ N4)]. cbn [temporalTraits t_asFloatForm]. rewrite <- point_is, E. cbn [bind fst snd].
    rewrite (instant_double s n a c d b H1 H2 N1 N2 N3 N4). reflexivity.
Qed.

(** ** NaN and infinities *)

Definition float_conv (c : ctx) (s : spec) : option (floatform -> res seq) :=
  match s with
  | Sf | SF => Some (fmt_f c)
  | Se | SE => Some (fmt_e c)
  | Sg | SG => Some (fmt_g c)
  | Sa | SA => Some (fmt_a c)
  | _ => None
  end.

Lemma special_conv c s F b : float_conv c s = Some F -> inf_bits <= magnitude b -> F (doubleForm b) = nanOrInfinity c (doubleForm b).
Proof.
  intros H Hb. destruct (double_class b) as [E1 E2].
  assert (E : f_isNaN (doubleForm b) || f_isInf (doubleForm b) = true).
  { cbn [doubleForm f_isNaN f_isInf]. rewrite E1, E2. destruct (Z.ltb_spec inf_bits (magnitude b)); [reflexivity|]. apply Z.eqb_eq. lia. }
  destruct s; try discriminate; injection H as <-; unfold fmt_f, fmt_e, fmt_g, fmt_a; rewrite E; reflexivity.
Qed.

Lemma wrap_den t : zlen t <= 100 -> den (wrapS t) t.
Proof. intros H. apply wrapS_den. unfold int_max. lia. Qed.

Lemma special_den c b : rt_ok c -> inf_bits <= magnitude b ->
  exists u, nanOrInfinity c (doubleForm b) = Ok u /\ den u (if magnitude b =? inf_bits then j_inf (q_of c) (b <? 0) else c_nan (q_of c)).
Proof.
  intros Hr Hb. destruct (double_class b) as [E1 E2]. unfold nanOrInfinity. cbn [doubleForm f_isNaN f_signum]. rewrite E1.
  destruct (Z.ltb_spec inf_bits (magnitude b)) as [L|L].
  - replace (magnitude b =? inf_bits) with false by (symmetry; apply Z.eqb_neq; lia). apply spaceJustify_den; [exact Hr|]. apply wrap_den. vm_compute. discriminate.
  - assert (E : magnitude b = inf_bits) by lia. rewrite E, Z.eqb_refl.
    assert (C : (dbl_compare0 b <? 0) = (b <? 0)).
    { unfold dbl_compare0, dbl_neg, dbl_isZero. change (dbl_mag b) with (magnitude b). rewrite E1, E. change (inf_bits <? inf_bits) with false. change (inf_bits =? 0) with false. destruct (b <? 0); reflexivity. }
    rewrite C. unfold j_inf. destruct (b <? 0).
    + apply spaceJustify_den; [exact Hr|]. apply wrap_den. vm_compute. discriminate.
    + unfold hasFlag. change (q_plus (q_of c)) with (f_plus (c_flags c)). cbn [hasF]. destruct (f_plus (c_flags c)) eqn:Ep.
      * rewrite ?Ep. apply spaceJustify_den; [exact Hr|]. apply wrap_den. vm_compute. discriminate.
      * rewrite ?Ep. apply spaceJustify_den; [exact Hr|]. apply wrap_den. vm_compute. discriminate.
Qed.
