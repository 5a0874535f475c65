(** Proofs for C100: casts, sums, quotients, comparison. *)
From Coq Require Import QArith Qabs Qpower Lqa Lia SpecFloat.
From Verif Require Import Base MathM DecimalM FPDecimalM SeqM FormatterM DoubleM RoundM DecSpec RoundP ShortP SchubP FloatSpec CastP PropsDouble NearP IeeeSpec IeeeP.
Open Scope Z_scope.

(** ** patterns and their parts *)

Lemma parts_range b : finite b -> 0 <= magnitude b < 2047 * 2 ^ 52 /\ 0 <= magnitude b / 2 ^ 52 < 2047 /\ 0 <= magnitude b mod 2 ^ 52 < 2 ^ 52 /\ magnitude b = 2 ^ 52 * (magnitude b / 2 ^ 52) + magnitude b mod 2 ^ 52.
Proof.
  intros H. pose proof (mag_bound b) as B. unfold finite, inf_bits in H. set (m := magnitude b) in *. clearbody m.
  pose proof (Z.div_mod m (2 ^ 52) ltac:(lia)) as D. pose proof (Z.mod_pos_bound m (2 ^ 52) ltac:(lia)) as M.
  split; [lia|]. split; [|split; [exact M|exact D]]. nia.
Qed.

(** of a finite double: canonical significand and exponent *)
Definition canon (p e : Z) : Prop := 0 < p < 2 ^ 53 /\ -1074 <= e <= 971 /\ (2 ^ 52 <= p \/ e = -1074).

Lemma sf_zero b : magnitude b = 0 -> sf_double b = S754_zero (b <? 0).
Proof. intros H. unfold sf_double. change (b mod 2 ^ 63) with (magnitude b). rewrite H. reflexivity. Qed.

Lemma sf_finite b : finite b -> magnitude b <> 0 -> exists p, sf_double b = S754_finite (b <? 0) p (RoundP.expo (magnitude b)) /\ Zpos p = RoundP.sig (magnitude b) /\ canon (Zpos p) (RoundP.expo (magnitude b)) /\
  (sval b == inject_Z (if b <? 0 then Zneg p else Zpos p) * 2 ^ RoundP.expo (magnitude b))%Q.
Proof.
  intros H N. destruct (parts_range b H) as (R & E & M & D). unfold sf_double, sf_bits. change (b mod 2 ^ 63) with (magnitude b). pose proof (dval_sig (magnitude b) ltac:(lia)) as V.
  replace (2047 * 2 ^ 52 <? magnitude b) with false by (symmetry; apply Z.ltb_ge; lia). replace (magnitude b =? 2047 * 2 ^ 52) with false by (symmetry; apply Z.eqb_neq; lia).
  unfold RoundP.sig, RoundP.expo in *. set (m := magnitude b) in *. set (E' := m / 2 ^ 52) in *. set (f := m mod 2 ^ 52) in *.
  assert (G : forall c, 0 < c -> c < 2 ^ 53 -> (2 ^ 52 <= c \/ E' = 0) -> (dval m == inject_Z c * 2 ^ (Z.max 1 E' - 1075))%Q ->
    exists p, match c with Zpos p => S754_finite (b <? 0) p (Z.max 1 E' - 1075) | _ => S754_zero (b <? 0) end = S754_finite (b <? 0) p (Z.max 1 E' - 1075) /\ Zpos p = c /\ canon (Zpos p) (Z.max 1 E' - 1075) /\
      (sval b == inject_Z (if b <? 0 then Zneg p else Zpos p) * 2 ^ (Z.max 1 E' - 1075))%Q).
  { intros c C1 C2 C3 Vc. destruct c as [|p|p]; try lia. exists p. split; [reflexivity|]. split; [reflexivity|]. split; [unfold canon; lia|]. unfold sval. fold m. destruct (b <? 0); [|exact Vc].
    change (Z.neg p) with (- Z.pos p). rewrite inject_Z_opp, Vc. ring. }
  destruct (Z.eqb_spec E' 0) as [E0|E0].
  - assert (Ef : f = m) by nia. rewrite <- Ef in *. apply G; try lia. exact V.
  - apply G; try lia. exact V.
Qed.

(** ** exact inputs *)

Lemma shift_pos_is k p : Zpos (shift_pos k p) = Zpos p * 2 ^ Zpos k.
Proof. rewrite shift_pos_correct, Z.mul_comm. reflexivity. Qed.

Lemma normalize_round z e s n d : 0 < d -> z <> 0 -> (inject_Z z * 2 ^ e * inject_Z d == inject_Z n)%Q -> binary_normalize d_prec d_emax z e s = sf_double (round_double n d).
Proof.
  intros Hd Hz E.
  assert (G : forall neg p n, (inject_Z (Zpos p) * 2 ^ e * inject_Z d == inject_Z n)%Q -> 0 < n /\ binary_round d_prec d_emax neg p e = sf_double (signed neg (round_pos n d))).
  { clear n z Hz E. intros neg p n E. pose proof (inject_pos d Hd) as Pd. pose proof (two_pos e) as Pe. pose proof (inject_pos (Zpos p) ltac:(lia)) as Pp.
    assert (Hn : 0 < n). { rewrite Zlt_Qlt, <- E. apply Qmult_lt_0_compat; [apply Qmult_lt_0_compat; assumption|exact Pd]. }
    split; [exact Hn|]. set (x := (inject_Z (Zpos p) * 2 ^ e)%Q) in *.
    assert (El : log2_ratio n d = Z.log2 (Zpos p) + e).
    { pose proof (Z.log2_spec (Zpos p) ltac:(lia)) as [L1 L2]. pose proof (Z.log2_nonneg (Zpos p)) as L0. rewrite <- Z.add_1_r in L2. set (l := Z.log2 (Zpos p)) in *.
      assert (E1 : (x * inject_Z 1 == inject_Z (Zpos p) * 2 ^ e)%Q) by (unfold x; change (inject_Z 1) with 1%Q; ring).
      rewrite <- (Z.div_1_r (Zpos p)) in L1, L2. apply (unit_ge x (Zpos p) 1 e l ltac:(lia) L0 E1) in L1. apply (unit_lt x (Zpos p) 1 e (l + 1) ltac:(lia) ltac:(lia) E1) in L2.
      pose proof (ratio_range n d x (l + e) (l + 1 + e) Hn Hd E L1 L2). lia. }
    unfold binary_round. rewrite digits2_log2. set (f := fexp d_prec d_emax (Z.log2 (Z.pos p) + 1 + e)).
    assert (Ef : f = Z.max (log2_ratio n d - 52) (-1074)) by (unfold f; rewrite fexp_53; lia).
    assert (K : forall mz ez, ez <= f -> (x == inject_Z (Zpos mz) * 2 ^ ez)%Q -> binary_round_aux d_prec d_emax neg (Zpos mz) ez loc_Exact = sf_double (signed neg (round_pos n d))).
    { intros mz ez Hz Ez. rewrite <- (Z.div_1_r (Zpos mz)). apply (round_aux n d Hn Hd x E neg (Zpos mz) 1 ez loc_Exact); [lia|lia| |rewrite <- Ef; exact Hz|unfold located; rewrite Z.mod_1_r; reflexivity].
      change (inject_Z 1) with 1%Q. rewrite Qmult_1_r. exact Ez. }
    unfold shl_align. destruct (f - e) as [|k|k] eqn:Ek; [apply K; [lia|reflexivity]|apply K; [lia|reflexivity]|].
    apply K; [lia|]. unfold x. rewrite shift_pos_is, inject_Z_mult, two_Z, <- Qmult_assoc, <- two_add by lia. replace (Z.pos k + f) with e by lia. reflexivity. }
  unfold round_double. destruct z as [|p|p]; [contradiction| |]; cbn [binary_normalize].
  - destruct (G false p n E) as [Hn ->]. replace (n =? 0) with false by (symmetry; apply Z.eqb_neq; lia). replace (n <? 0) with false by (symmetry; apply Z.ltb_ge; lia). reflexivity.
  - assert (E' : (inject_Z (Zpos p) * 2 ^ e * inject_Z d == inject_Z (- n))%Q) by (change (Zneg p) with (- Zpos p) in E; rewrite inject_Z_opp in *; rewrite <- E; ring).
    destruct (G true p (- n) E') as [Hn ->]. replace (n =? 0) with false by (symmetry; apply Z.eqb_neq; lia). replace (n <? 0) with true by (symmetry; apply Z.ltb_lt; lia). reflexivity.
Qed.

(** a canonical number is not rounded *)
Lemma round_canon neg p e : canon (Zpos p) e -> binary_round d_prec d_emax neg p e = S754_finite neg p e.
Proof.
  intros (P & E & C). unfold binary_round. rewrite digits2_log2.
  assert (F : fexp d_prec d_emax (Z.log2 (Z.pos p) + 1 + e) = e).
  { rewrite fexp_53. assert (A : Z.log2 (Zpos p) < 53) by (apply Z.log2_lt_pow2; lia). assert (B : 2 ^ 52 <= Zpos p -> 52 <= Z.log2 (Zpos p)) by (intros H; apply Z.log2_le_pow2; lia). lia. }
  rewrite F. unfold shl_align. rewrite Z.sub_diag. unfold binary_round_aux.
  assert (S : shr_fexp d_prec d_emax (Z.pos p) e loc_Exact = ({| shr_m := Zpos p; shr_r := false; shr_s := false |}, e)).
  { rewrite (shr_exact (Zpos p) e); [|lia|lia|exact C]. replace (Zpos p =? 2 ^ 53) with false by (symmetry; apply Z.eqb_neq; lia). reflexivity. }
  rewrite S. cbn [shr_m loc_of_shr_record round_nearest_even]. rewrite S. cbn [shr_m]. change (d_emax - d_prec) with 971. replace (e <=? 971) with true by (symmetry; apply Z.leb_le; lia). reflexivity.
Qed.

(** a finite double, by its numerator *)
Lemma num_round b n d : 0 < d -> finite b -> (sval b * inject_Z d == inject_Z n)%Q -> magnitude b <> 0 -> sf_double (round_double n d) = sf_double b.
Proof.
  intros Hd Hf E N. destruct (sf_finite b Hf N) as (p & Es & _ & C & V). rewrite Es. symmetry. rewrite <- (round_canon (b <? 0) p _ C).
  rewrite <- (normalize_round (if b <? 0 then Zneg p else Zpos p) (RoundP.expo (magnitude b)) false n d Hd); [destruct (b <? 0); reflexivity|destruct (b <? 0); discriminate|]. rewrite <- V. exact E.
Qed.

(** ** casts from long *)

Lemma cast_sf v : sf_double (ofLong v) = binary_normalize d_prec d_emax v 0 false.
Proof.
  unfold ofLong. destruct (Z.eq_dec v 0) as [->|N]; [reflexivity|]. symmetry. apply normalize_round; [lia|exact N|]. change (2 ^ 0)%Q with 1%Q. change (inject_Z 1) with 1%Q. ring.
Qed.

(** ** sums *)

Lemma zero_num b : magnitude b = 0 -> dbl_num b = 0.
Proof.
  intros H. apply (proj1 (inject_Z_injective _ _)). rewrite dbl_num_val. unfold sval. rewrite H. change (dval 0) with (inject_Z 0 * 2 ^ (-1074))%Q. destruct (b <? 0); change (inject_Z 0) with 0%Q; ring.
Qed.
Lemma pow_1074 : 0 < 2 ^ 1074.
Proof. apply Z.pow_pos_nonneg; lia. Qed.

Lemma num_sf b : finite b -> magnitude b <> 0 -> sf_double (round_double (dbl_num b) (2 ^ 1074)) = sf_double b.
Proof. intros Hf N. apply num_round; [exact pow_1074|exact Hf| |exact N]. rewrite dbl_num_val, two_Z by lia. reflexivity. Qed.

Lemma align_is p e e' : e' <= e -> (inject_Z (Zpos (fst (shl_align p e e'))) * 2 ^ e' == inject_Z (Zpos p) * 2 ^ e)%Q.
Proof.
  intros H. unfold shl_align. destruct (e' - e) as [|k|k] eqn:E; [|lia|]; cbn [fst].
  - replace e' with e by lia. reflexivity.
  - rewrite shift_pos_is, inject_Z_mult, two_Z, <- Qmult_assoc, <- two_add by lia. replace (Z.pos k + e') with e by lia. reflexivity.
Qed.

Lemma add_sf x y : finite x -> finite y -> - 2 ^ 63 <= x < 2 ^ 63 -> - 2 ^ 63 <= y < 2 ^ 63 -> ~ (x = - 2 ^ 63 /\ y = - 2 ^ 63) -> sf_double (dbl_add x y) = SFadd d_prec d_emax (sf_double x) (sf_double y).
Proof.
  intros Fx Fy Rx Ry Nz. unfold dbl_add.
  destruct (Z.eq_dec (magnitude x) 0) as [Zx|Zx]; destruct (Z.eq_dec (magnitude y) 0) as [Zy|Zy].
  - rewrite (zero_num x Zx), (zero_num y Zy), (sf_zero x Zx), (sf_zero y Zy). cbn [SFadd]. change (round_double (0 + 0) (2 ^ 1074)) with 0. change (sf_double 0) with (S754_zero false).
    pose proof (mag_sign x Rx) as Sx. pose proof (mag_sign y Ry) as Sy. rewrite Zx in Sx. rewrite Zy in Sy. destruct (x <? 0), (y <? 0); try reflexivity. exfalso. apply Nz. lia.
  - rewrite (zero_num x Zx), (sf_zero x Zx), Z.add_0_l, (num_sf y Fy Zy). destruct (sf_finite y Fy Zy) as (p & -> & _). reflexivity.
  - rewrite (zero_num y Zy), (sf_zero y Zy), Z.add_0_r, (num_sf x Fx Zx). destruct (sf_finite x Fx Zx) as (p & -> & _). reflexivity.
  - destruct (sf_finite x Fx Zx) as (px & -> & _ & Cx & Vx). destruct (sf_finite y Fy Zy) as (py & -> & _ & Cy & Vy). cbn [SFadd]. cbv zeta.
    set (ex := RoundP.expo (magnitude x)) in *. set (ey := RoundP.expo (magnitude y)) in *. set (ez := Z.min ex ey).
    pose proof (align_is px ex ez ltac:(lia)) as Ax. pose proof (align_is py ey ez ltac:(lia)) as Ay.
    set (ax := fst (shl_align px ex ez)) in *. set (ay := fst (shl_align py ey ez)) in *.
    assert (Hx : (inject_Z (cond_Zopp (x <? 0) (Zpos ax)) * 2 ^ ez == sval x)%Q).
    { rewrite Vx. unfold cond_Zopp. destruct (x <? 0); [|exact Ax]. change (Zneg px) with (- Zpos px). rewrite !inject_Z_opp. rewrite <- (Qmult_comm (2 ^ ez)), <- (Qmult_comm (2 ^ ex)) in *. rewrite Qmult_comm. lra. }
    assert (Hy : (inject_Z (cond_Zopp (y <? 0) (Zpos ay)) * 2 ^ ez == sval y)%Q).
    { rewrite Vy. unfold cond_Zopp. destruct (y <? 0); [|exact Ay]. change (Zneg py) with (- Zpos py). rewrite !inject_Z_opp. lra. }
    set (z := cond_Zopp (x <? 0) (Zpos ax) + cond_Zopp (y <? 0) (Zpos ay)).
    assert (Ez : (inject_Z z * 2 ^ ez * inject_Z (2 ^ 1074) == inject_Z (dbl_num x + dbl_num y))%Q).
    { unfold z. rewrite !inject_Z_plus, !dbl_num_val, two_Z, <- Hx, <- Hy by lia. ring. }
    destruct (Z.eq_dec z 0) as [Z0|Z0].
    + rewrite Z0. cbn [binary_normalize]. rewrite Z0 in Ez. change (inject_Z 0) with 0%Q in Ez. rewrite !Qmult_0_l in Ez. change 0%Q with (inject_Z 0) in Ez. apply (proj1 (inject_Z_injective _ _)) in Ez. rewrite <- Ez. reflexivity.
    + symmetry. apply normalize_round; [exact pow_1074|exact Z0|exact Ez].
Qed.

(** ** quotients *)

Lemma new_located N D : 0 < D -> located (new_location D (N mod D)) N D.
Proof.
  intros HD. pose proof (Z.mod_pos_bound N D HD) as Hr. unfold new_location, new_location_even, new_location_odd, located. set (r := N mod D) in *. clearbody r.
  assert (B : Zeq_bool r 0 = (r =? 0)) by (destruct (Z.eqb_spec r 0) as [->|E]; [reflexivity|destruct (Zeq_bool r 0) eqn:A; [apply Zeq_bool_eq in A; contradiction|reflexivity]]).
  destruct (Z.even D) eqn:Ev; rewrite B; destruct (Z.eqb_spec r 0) as [E|E]; try reflexivity.
  assert (O : 2 * r <> D) by (intros <-; rewrite Z.even_mul in Ev; discriminate Ev).
  destruct (Z.compare_spec (2 * r + 1) D), (Z.compare_spec (2 * r) D); first [reflexivity|lia].
Qed.

Lemma div_sf x y : finite x -> finite y -> - 2 ^ 63 < x < 2 ^ 63 -> 0 < y < 2 ^ 63 -> sf_double (dbl_div x y) = SFdiv d_prec d_emax (sf_double x) (sf_double y).
Proof.
  intros Fx Fy Rx Ry. unfold dbl_div.
  assert (My : magnitude y = y) by (unfold magnitude; apply Z.mod_small; lia).
  assert (Zy : magnitude y <> 0) by lia. destruct (sf_finite y Fy Zy) as (py & Ey & _ & Cy & Vy). rewrite Ey. replace (y <? 0) with false in * by (symmetry; apply Z.ltb_ge; lia).
  destruct (Z.eq_dec (magnitude x) 0) as [Zx|Zx].
  { rewrite (zero_num x Zx), (sf_zero x Zx). pose proof (mag_sign x ltac:(lia)) as Sx. rewrite Zx in Sx. destruct (x <? 0); [lia|]. reflexivity. }
  destruct (sf_finite x Fx Zx) as (px & Ex & _ & Cx & Vx). rewrite Ex. cbn [SFdiv].
  set (ex := RoundP.expo (magnitude x)) in *. set (ey := RoundP.expo (magnitude y)) in *. clear Ex Ey.
  pose proof (dbl_num_val x) as Nx. pose proof (dbl_num_val y) as Ny.
  set (nx := dbl_num x) in *. set (ny := dbl_num y) in *. clearbody nx ny.
  set (n := if x <? 0 then - nx else nx).
  pose proof (two_pos ex) as Px. pose proof (two_pos ey) as Py. pose proof (two_pos 1074) as P4.
  pose proof (inject_pos (Zpos px) ltac:(lia)) as Ppx. pose proof (inject_pos (Zpos py) ltac:(lia)) as Ppy.
  assert (Nn : (inject_Z n == inject_Z (Zpos px) * 2 ^ ex * 2 ^ 1074)%Q).
  { unfold n. destruct (x <? 0); [rewrite inject_Z_opp|]; rewrite Nx, Vx; [change (Zneg px) with (- Zpos px); rewrite inject_Z_opp|]; ring. }
  assert (Nd : (inject_Z ny == inject_Z (Zpos py) * 2 ^ ey * 2 ^ 1074)%Q) by (rewrite Ny, Vy; reflexivity).
  assert (Hn : 0 < n). { rewrite Zlt_Qlt, Nn. apply Qmult_lt_0_compat; [apply Qmult_lt_0_compat; assumption|exact P4]. }
  assert (Hd : 0 < ny). { rewrite Zlt_Qlt, Nd. apply Qmult_lt_0_compat; [apply Qmult_lt_0_compat; assumption|exact P4]. }
  assert (R : round_double nx ny = signed (x <? 0) (round_pos n ny)).
  { unfold round_double, signed. unfold n in *. destruct (x <? 0).
    - replace (nx =? 0) with false by (symmetry; apply Z.eqb_neq; lia). replace (nx <? 0) with true by (symmetry; apply Z.ltb_lt; lia). reflexivity.
    - replace (nx =? 0) with false by (symmetry; apply Z.eqb_neq; lia). replace (nx <? 0) with false by (symmetry; apply Z.ltb_ge; lia). reflexivity. }
  rewrite R. clear R. clearbody n.
  set (v := (inject_Z n / inject_Z ny)%Q).
  pose proof (inject_pos ny Hd) as Pny. pose proof (inject_pos n Hn) as Pn.
  assert (Hv : (v * inject_Z ny == inject_Z n)%Q) by (unfold v; field; lra).
  assert (Hv' : (v * inject_Z (Zpos py) == inject_Z (Zpos px) * 2 ^ (ex - ey))%Q).
  { unfold v. rewrite Nn, Nd. unfold Z.sub. rewrite two_add, Qpower_opp. field. repeat split; lra. }
  set (N0 := Zpos px) in *. set (D0 := Zpos py) in *.
  set (L := log2_ratio n ny).
  assert (HL : Z.log2 N0 + 1 + ex - (Z.log2 D0 + 1 + ey) - 1 <= L).
  { pose proof (x_bounds n ny Hn Hd v Hv) as [_ U]. fold L in U.
    pose proof (Z.log2_spec N0 ltac:(lia)) as [A1 _]. pose proof (Z.log2_spec D0 ltac:(lia)) as [_ A2]. rewrite <- Z.add_1_r in A2.
    apply Z.lt_succ_r. unfold Z.succ. apply two_lt_inv. apply Qlt_trans with v; [|exact U]. apply Qnot_le_lt. intros C.
    set (a := Z.log2 N0 + 1 + ex - (Z.log2 D0 + 1 + ey) - 1) in *.
    assert (B1 : (2 ^ Z.log2 N0 <= inject_Z N0)%Q) by (rewrite <- two_Z by apply Z.log2_nonneg; rewrite <- Zle_Qle; exact A1).
    assert (B2 : (inject_Z D0 < 2 ^ (Z.log2 D0 + 1))%Q) by (rewrite <- two_Z by (pose proof (Z.log2_nonneg D0); lia); rewrite <- Zlt_Qlt; exact A2).
    pose proof (two_pos (ex - ey)) as P1. pose proof (two_pos a) as P2.
    assert (C1 : (2 ^ (Z.log2 N0) * 2 ^ (ex - ey) <= inject_Z N0 * 2 ^ (ex - ey))%Q) by (apply Qmult_le_compat_r; lra).
    assert (C2 : (v * inject_Z D0 <= 2 ^ a * inject_Z D0)%Q) by (apply Qmult_le_compat_r; lra).
    assert (C3 : (2 ^ a * inject_Z D0 < 2 ^ a * 2 ^ (Z.log2 D0 + 1))%Q) by (apply Qmult_lt_l; assumption).
    assert (C4 : (2 ^ a * 2 ^ (Z.log2 D0 + 1) == 2 ^ (Z.log2 N0) * 2 ^ (ex - ey))%Q) by (rewrite <- !two_add; replace (a + (Z.log2 D0 + 1)) with (Z.log2 N0 + (ex - ey)) by lia; reflexivity).
    lra. }
  unfold SFdiv_core_binary. fold N0 D0. rewrite !digits_log2 by lia. rewrite fexp_53.
  set (e' := Z.min (Z.max (Z.log2 N0 + 1 + ex - (Z.log2 D0 + 1 + ey) - 53) (-1074)) (ex - ey)).
  set (s := ex - ey - e').
  assert (Em : match s with Z0 => N0 | Zpos _ => Z.shiftl N0 s | Zneg _ => 0 end = N0 * 2 ^ s).
  { destruct s as [|k|k] eqn:Es; [lia|apply Z.shiftl_mul_pow2; lia|lia]. }
  rewrite Em. pose proof (Z.div_eucl_eq (N0 * 2 ^ s) D0 ltac:(lia)) as Q. pose proof (Z.mod_pos_bound (N0 * 2 ^ s) D0 ltac:(lia)) as M. unfold Z.modulo in M.
  destruct (Z.div_eucl (N0 * 2 ^ s) D0) as [q r] eqn:Eq.
  assert (Eq1 : q = N0 * 2 ^ s / D0) by (unfold Z.div; rewrite Eq; reflexivity). assert (Eq2 : r = (N0 * 2 ^ s) mod D0) by (unfold Z.modulo; rewrite Eq; reflexivity).
  rewrite Eq1, Eq2. replace (xorb (x <? 0) false) with (x <? 0) by (destruct (x <? 0); reflexivity). symmetry.
  apply (round_aux n ny Hn Hd v Hv); [lia|pose proof (Z.pow_nonneg 2 s ltac:(lia)); nia| |fold L; lia|apply new_located; lia].
  rewrite Hv', inject_Z_mult, two_Z, <- Qmult_assoc, <- two_add by lia. unfold s. replace (ex - ey - e' + e') with (ex - ey) by lia. reflexivity.
Qed.
