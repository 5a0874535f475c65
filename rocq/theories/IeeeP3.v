(** Proofs for C100: floats, comparison, and that every IEEE number has its pattern. *)
From Coq Require Import QArith Qabs Qpower Lqa Lia SpecFloat.
From Verif Require Import Base MathM DecimalM FPDecimalM SeqM FormatterM DoubleM RoundM DecSpec RoundP ShortP SchubP FloatSpec CastP PropsDouble NearP IeeeSpec IeeeP IeeeP2.
Open Scope Z_scope.

(** ** floats *)

Lemma dval_zero m : 0 <= m -> (dval m == 0)%Q -> m = 0.
Proof.
  intros H E. destruct (Z.eq_dec m 0) as [N|N]; [exact N|]. pose proof (dval_lt 0 m ltac:(lia)) as L. assert (Z0 : (dval 0 == 0)%Q) by (vm_compute; reflexivity). rewrite Z0, E in L. exfalso. apply (Qlt_irrefl 0). exact L.
Qed.

Lemma sf_float_finite f : f mod 2 ^ 31 < 255 * 2 ^ 23 ->
  f mod 2 ^ 31 = 0 /\ sf_float f = S754_zero (f <? 0) \/
  exists p e, sf_float f = S754_finite (f <? 0) p e /\ (fval (f mod 2 ^ 31) == inject_Z (Zpos p) * 2 ^ e)%Q.
Proof.
  intros H. pose proof (Z.mod_pos_bound f (2 ^ 31) ltac:(lia)) as R. unfold sf_float, sf_bits, fval. set (g := f mod 2 ^ 31) in *. clearbody g.
  replace (255 * 2 ^ 23 <? g) with false by (symmetry; apply Z.ltb_ge; lia). replace (g =? 255 * 2 ^ 23) with false by (symmetry; apply Z.eqb_neq; lia).
  pose proof (Z.mod_pos_bound g (2 ^ 23) ltac:(lia)) as Rm. pose proof (Z.div_mod g (2 ^ 23) ltac:(lia)) as D. assert (E0 : 0 <= g / 2 ^ 23) by (apply Z.div_pos; lia).
  destruct (Z.eqb_spec (g / 2 ^ 23) 0) as [E|E].
  - rewrite E in *. assert (Eg : g mod 2 ^ 23 = g) by lia. rewrite Eg. clear D. destruct g as [|p|p]; [left; split; reflexivity| |lia]. right. exists p, (-149). split; reflexivity.
  - right. set (c := 2 ^ 23 + g mod 2 ^ 23) in *. assert (C : 0 < c) by lia. clearbody c. destruct c as [|p|p]; try lia. exists p, (g / 2 ^ 23 - 150). split; [rewrite Z.max_r by lia; reflexivity|reflexivity].
Qed.

Lemma widen_sf f b : widened f b -> sf_double b = sf_widen (sf_float f).
Proof.
  intros (Hf & Rb & Fb & S & V). assert (Sg : (b <? 0) = (f <? 0)) by (destruct (Z.ltb_spec b 0), (Z.ltb_spec f 0); try reflexivity; lia).
  pose proof (mag_bound b) as Mb. destruct (sf_float_finite f Hf) as [[Z0 E]|(p & e & E & P)]; rewrite E; cbn [sf_widen]; rewrite <- Sg.
  - apply sf_zero. rewrite Z0 in V. apply dval_zero; [lia|]. rewrite V. vm_compute. reflexivity.
  - assert (N : magnitude b <> 0).
    { intros M. rewrite M in V. assert (D0 : (dval 0 == 0)%Q) by (vm_compute; reflexivity). rewrite D0, P in V. pose proof (inject_pos (Zpos p) ltac:(lia)) as P1. pose proof (two_pos e) as P2. pose proof (Qmult_lt_0_compat _ _ P1 P2) as P3. rewrite <- V in P3. apply (Qlt_irrefl 0). exact P3. }
    rewrite <- (num_sf b Fb N). symmetry.
    assert (G : (inject_Z (if b <? 0 then Zneg p else Zpos p) * 2 ^ e * inject_Z (2 ^ 1074) == inject_Z (dbl_num b))%Q).
    { rewrite dbl_num_val, two_Z by lia. unfold sval. destruct (b <? 0); [change (Zneg p) with (- Zpos p); rewrite inject_Z_opp|]; rewrite V, P; ring. }
    rewrite <- (normalize_round (if b <? 0 then Zneg p else Zpos p) e false (dbl_num b) (2 ^ 1074) pow_1074); [destruct (b <? 0); reflexivity|destruct (b <? 0); discriminate|exact G].
Qed.

Lemma widen_inf f : f mod 2 ^ 31 = 255 * 2 ^ 23 -> sf_widen (sf_float f) = S754_infinity (f <? 0).
Proof. intros H. unfold sf_float, sf_bits. rewrite H. reflexivity. Qed.
Lemma widen_nan f : 255 * 2 ^ 23 < f mod 2 ^ 31 -> sf_widen (sf_float f) = S754_nan.
Proof. intros H. unfold sf_float, sf_bits. rewrite (proj2 (Z.ltb_lt _ _) H). reflexivity. Qed.
Lemma sf_inf b : magnitude b = inf_bits -> sf_double b = S754_infinity (b <? 0).
Proof. intros H. unfold sf_double, sf_bits. change (b mod 2 ^ 63) with (magnitude b). rewrite H. reflexivity. Qed.
Lemma sf_nan b : sf_double b = S754_nan <-> inf_bits < magnitude b.
Proof.
  unfold sf_double, sf_bits. change (b mod 2 ^ 63) with (magnitude b). change (2047 * 2 ^ 52) with inf_bits. destruct (Z.ltb_spec inf_bits (magnitude b)) as [L|L]; [split; [intros _; exact L|reflexivity]|].
  split; [|lia]. destruct (magnitude b =? inf_bits); [discriminate|]. destruct (if magnitude b / 2 ^ 52 =? 0 then _ else _); discriminate.
Qed.

(** the model's widening, for every float *)
Lemma f2d_sf f : sf_double (f2d f) = sf_widen (sf_float f).
Proof.
  destruct (Z.lt_trichotomy (f mod 2 ^ 31) (255 * 2 ^ 23)) as [L|[E|L]].
  - apply widen_sf. apply f2d_widens. exact L.
  - rewrite (float_inf f E), (widen_inf f E). destruct (f <? 0); vm_compute; reflexivity.
  - rewrite (widen_nan f L). apply sf_nan. apply float_nan. exact L.
Qed.

(** ** every number has one pattern *)

Lemma canon_valid p e : canon (Zpos p) e <-> bounded d_prec d_emax p e = true.
Proof.
  unfold bounded, canonical_mantissa. rewrite fexp_53, digits2_log2. rewrite Bool.andb_true_iff.
  assert (B : forall a b, Zeq_bool a b = true <-> a = b) by (intros a b; split; [apply Zeq_bool_eq|intros ->; unfold Zeq_bool; rewrite Z.compare_refl; reflexivity]).
  rewrite B, <- Zle_is_le_bool. change (d_emax - d_prec) with 971. unfold canon.
  pose proof (Z.log2_spec (Zpos p) ltac:(lia)) as [L1 L2]. pose proof (Z.log2_nonneg (Zpos p)) as L0. set (l := Z.log2 (Zpos p)) in *.
  split.
  - intros (P & E & C). assert (A : l < 53) by (apply Z.log2_lt_pow2; lia). assert (B' : 2 ^ 52 <= Zpos p -> 52 <= l) by (intros H; apply Z.log2_le_pow2; lia). lia.
  - intros [E1 E2]. assert (A : l <= 52) by lia. pose proof (Z.pow_le_mono_r 2 (Z.succ l) 53 ltac:(lia) ltac:(lia)) as M.
    split; [lia|]. split; [lia|]. destruct (Z.eq_dec e (-1074)) as [->|N]; [right; reflexivity|left]. assert (l = 52) as El by lia. rewrite El in L1. exact L1.
Qed.

Lemma sf_valid b : valid_binary d_prec d_emax (sf_double b) = true.
Proof.
  destruct (Z.lt_trichotomy (magnitude b) inf_bits) as [L|[E|L]].
  - destruct (Z.eq_dec (magnitude b) 0) as [Z0|N]; [rewrite (sf_zero b Z0); reflexivity|]. destruct (sf_finite b L N) as (p & -> & _ & C & _). cbn [valid_binary]. apply canon_valid. exact C.
  - rewrite (sf_inf b E). reflexivity.
  - apply sf_nan in L. rewrite L. reflexivity.
Qed.

Lemma mag_parts m m' : 0 <= m -> 0 <= m' -> RoundP.sig m = RoundP.sig m' -> RoundP.expo m = RoundP.expo m' -> m = m'.
Proof.
  intros H H' E1 E2. destruct (Z.lt_trichotomy m m') as [L|[E|L]]; [|exact E|]; exfalso.
  - pose proof (dval_lt m m' ltac:(lia)) as D. rewrite !dval_sig, E1, E2 in D by lia. apply (Qlt_irrefl _ D).
  - pose proof (dval_lt m' m ltac:(lia)) as D. rewrite !dval_sig, E1, E2 in D by lia. apply (Qlt_irrefl _ D).
Qed.

Lemma sf_inj b b' : - 2 ^ 63 <= b < 2 ^ 63 -> - 2 ^ 63 <= b' < 2 ^ 63 -> sf_double b = sf_double b' -> sf_double b <> S754_nan -> b = b'.
Proof.
  intros R R' E N. pose proof (mag_sign b R) as S. pose proof (mag_sign b' R') as S'. pose proof (mag_bound b) as B. pose proof (mag_bound b') as B'.
  assert (G : (b <? 0) = (b' <? 0) -> magnitude b = magnitude b' -> b = b') by (intros G1 G2; rewrite S, S', G1, G2; reflexivity).
  assert (K : forall c, sf_double c <> S754_nan -> magnitude c = 0 /\ sf_double c = S754_zero (c <? 0) \/ magnitude c = inf_bits /\ sf_double c = S754_infinity (c <? 0) \/
     exists p, sf_double c = S754_finite (c <? 0) p (RoundP.expo (magnitude c)) /\ Zpos p = RoundP.sig (magnitude c)).
  { intros c Nc. destruct (Z.lt_trichotomy (magnitude c) inf_bits) as [L|[Ec|L]].
    - destruct (Z.eq_dec (magnitude c) 0) as [Z0|Nz]; [left; split; [exact Z0|apply sf_zero; exact Z0]|]. right. right. destruct (sf_finite c L Nz) as (p & E1 & E2 & _). exists p. split; assumption.
    - right. left. split; [exact Ec|apply sf_inf; exact Ec].
    - exfalso. apply Nc. apply sf_nan. exact L. }
  destruct (K b N) as [[M1 E1]|[[M1 E1]|(p & E1 & P)]]; rewrite E in N; destruct (K b' N) as [[M2 E2]|[[M2 E2]|(p' & E2 & P')]]; rewrite E1, E2 in E; try discriminate E.
  - injection E as Es. apply G; [exact Es|lia].
  - injection E as Es. apply G; [exact Es|lia].
  - injection E as Es Ep Ee. apply G; [exact Es|]. apply mag_parts; [lia|lia| |exact Ee]. rewrite <- P, <- P', Ep. reflexivity.
Qed.

Lemma sf_onto x : valid_binary d_prec d_emax x = true -> exists b, - 2 ^ 63 <= b < 2 ^ 63 /\ sf_double b = x.
Proof.
  intros V.
  assert (G : forall neg m, 0 <= m < 2 ^ 63 -> - 2 ^ 63 <= signed neg m < 2 ^ 63 /\ sf_double (signed neg m) = sf_bits 52 2047 1075 neg m).
  { intros neg m H. split; [unfold signed; destruct neg; lia|]. apply sf_signed. exact H. }
  destruct x as [s|s| |s p e]; cbn [valid_binary] in V.
  - exists (signed s 0). destruct (G s 0 ltac:(lia)) as [A ->]. split; [exact A|reflexivity].
  - exists (signed s (2047 * 2 ^ 52)). destruct (G s (2047 * 2 ^ 52) ltac:(lia)) as [A ->]. split; [exact A|reflexivity].
  - exists (2047 * 2 ^ 52 + 1). split; [lia|]. vm_compute. reflexivity.
  - apply canon_valid in V. destruct V as (P & E & C). destruct (Z_lt_le_dec (Zpos p) (2 ^ 52)) as [L|L].
    + exists (signed s (Zpos p)). destruct (G s (Zpos p) ltac:(lia)) as [A ->]. split; [exact A|]. unfold sf_bits. replace (2047 * 2 ^ 52 <? Zpos p) with false by (symmetry; apply Z.ltb_ge; lia). replace (Zpos p =? 2047 * 2 ^ 52) with false by (symmetry; apply Z.eqb_neq; lia).
      rewrite Z.div_small by lia. cbn [Z.eqb]. replace e with (-1074) by lia. reflexivity.
    + set (m := (e + 1075) * 2 ^ 52 + (Zpos p - 2 ^ 52)). assert (Rm : 0 <= m < 2047 * 2 ^ 52) by (unfold m; lia).
      assert (D1 : m / 2 ^ 52 = e + 1075) by (unfold m; rewrite Z.div_add_l, Z.div_small by lia; lia).
      assert (D2 : m mod 2 ^ 52 = Zpos p - 2 ^ 52) by (unfold m; rewrite Z.add_comm, Z.mod_add, Z.mod_small by lia; lia).
      exists (signed s m). destruct (G s m ltac:(lia)) as [A ->]. split; [exact A|]. unfold sf_bits. replace (2047 * 2 ^ 52 <? m) with false by (symmetry; apply Z.ltb_ge; lia). replace (m =? 2047 * 2 ^ 52) with false by (symmetry; apply Z.eqb_neq; lia).
      rewrite D1, D2. replace (e + 1075 =? 0) with false by (symmetry; apply Z.eqb_neq; lia). replace (2 ^ 52 + (Z.pos p - 2 ^ 52)) with (Zpos p) by lia. f_equal. lia.
Qed.

(** ** comparison *)

Lemma mag_lex m m' : 0 <= m -> 0 <= m' -> (m ?= m') = match RoundP.expo m ?= RoundP.expo m' with Lt => Lt | Gt => Gt | Eq => RoundP.sig m ?= RoundP.sig m' end.
Proof.
  intros H H'. unfold RoundP.sig, RoundP.expo.
  pose proof (Z.div_mod m (2 ^ 52) ltac:(lia)) as D. pose proof (Z.mod_pos_bound m (2 ^ 52) ltac:(lia)) as M. assert (P : 0 <= m / 2 ^ 52) by (apply Z.div_pos; lia).
  pose proof (Z.div_mod m' (2 ^ 52) ltac:(lia)) as D'. pose proof (Z.mod_pos_bound m' (2 ^ 52) ltac:(lia)) as M'. assert (P' : 0 <= m' / 2 ^ 52) by (apply Z.div_pos; lia).
  set (a := m / 2 ^ 52) in *. set (b := m mod 2 ^ 52) in *. set (a' := m' / 2 ^ 52) in *. set (b' := m' mod 2 ^ 52) in *. clearbody a b a' b'. change (2 ^ 52) with 4503599627370496 in *.
  destruct (Z.compare_spec (Z.max 1 a - 1075) (Z.max 1 a' - 1075)) as [E|E|E].
  - destruct (Z.eqb_spec a 0), (Z.eqb_spec a' 0); symmetry; match goal with |- (?x ?= ?y) = _ => destruct (Z.compare_spec x y) as [K|K|K] end; symmetry;
      first [apply Z.compare_eq_iff; lia|apply Z.compare_lt_iff; lia|apply Z.compare_gt_iff; lia].
  - apply Z.compare_lt_iff. lia.
  - apply Z.compare_gt_iff. lia.
Qed.

Lemma dval_compare m m' : 0 <= m -> 0 <= m' -> (dval m ?= dval m')%Q = (m ?= m').
Proof.
  intros H H'. destruct (Z.compare_spec m m') as [->|L|L].
  - apply (proj1 (Qeq_alt _ _)). reflexivity.
  - apply (proj1 (Qlt_alt _ _)). apply dval_lt. lia.
  - apply (proj1 (Qgt_alt _ _)). apply dval_lt. lia.
Qed.

Lemma compare_sf a b : finite a -> finite b -> SFcompare (sf_double a) (sf_double b) = Some (sval a ?= sval b)%Q.
Proof.
  intros Fa Fb. pose proof (mag_bound a) as Ma. pose proof (mag_bound b) as Mb.
  assert (D0 : (dval 0 == 0)%Q) by (vm_compute; reflexivity).
  assert (Pd : forall m, 0 < m -> (0 < dval m)%Q) by (intros m Hm; rewrite <- D0; apply dval_lt; lia).
  destruct (Z.eq_dec (magnitude a) 0) as [Za|Na]; destruct (Z.eq_dec (magnitude b) 0) as [Zb|Nb].
  - rewrite (sf_zero a Za), (sf_zero b Zb). cbn [SFcompare]. f_equal. symmetry. apply (proj1 (Qeq_alt _ _)). unfold sval. rewrite Za, Zb. destruct (a <? 0), (b <? 0); rewrite ?D0; reflexivity.
  - rewrite (sf_zero a Za). destruct (sf_finite b Fb Nb) as (p & -> & _). cbn [SFcompare]. f_equal. symmetry. pose proof (Pd (magnitude b) ltac:(lia)) as Hq. unfold sval. rewrite Za.
    destruct (b <? 0); [apply (proj1 (Qgt_alt _ _))|apply (proj1 (Qlt_alt _ _))]; destruct (a <? 0); rewrite ?D0; lra.
  - rewrite (sf_zero b Zb). destruct (sf_finite a Fa Na) as (p & -> & _). cbn [SFcompare]. f_equal. symmetry. pose proof (Pd (magnitude a) ltac:(lia)) as Hq. unfold sval. rewrite Zb.
    destruct (a <? 0); [apply (proj1 (Qlt_alt _ _))|apply (proj1 (Qgt_alt _ _))]; destruct (b <? 0); rewrite ?D0; lra.
  - destruct (sf_finite a Fa Na) as (p & -> & P & _). destruct (sf_finite b Fb Nb) as (p' & -> & P' & _). cbn [SFcompare]. f_equal. symmetry.
    pose proof (Pd (magnitude a) ltac:(lia)) as Qa. pose proof (Pd (magnitude b) ltac:(lia)) as Qb.
    assert (K : (dval (magnitude a) ?= dval (magnitude b))%Q = match RoundP.expo (magnitude a) ?= RoundP.expo (magnitude b) with Lt => Lt | Gt => Gt | Eq => Pos.compare_cont Eq p p' end).
    { rewrite dval_compare, mag_lex by lia. rewrite <- P, <- P'. reflexivity. }
    unfold sval. destruct (a <? 0) eqn:Ea; destruct (b <? 0) eqn:Eb.
    + assert (O : (- dval (magnitude a) ?= - dval (magnitude b))%Q = CompOpp (dval (magnitude a) ?= dval (magnitude b))%Q).
      { destruct (Qcompare_spec (dval (magnitude a)) (dval (magnitude b))) as [E|E|E]; cbn [CompOpp]; [apply (proj1 (Qeq_alt _ _))|apply (proj1 (Qgt_alt _ _))|apply (proj1 (Qlt_alt _ _))]; lra. }
      rewrite O, K. destruct (RoundP.expo (magnitude a) ?= RoundP.expo (magnitude b)); reflexivity.
    + apply (proj1 (Qlt_alt _ _)). lra.
    + apply (proj1 (Qgt_alt _ _)). lra.
    + exact K.
Qed.
