(** Proofs for C100: the library's rounding is the rounding of the model. *)
From Coq Require Import QArith Qabs Qpower Lqa Lia SpecFloat.
From Verif Require Import Base MathM DecimalM FPDecimalM SeqM FormatterM DoubleM RoundM DecSpec RoundP ShortP SchubP FloatSpec CastP PropsDouble NearP IeeeSpec.
Open Scope Z_scope.

(** ** number of binary digits *)

Lemma digits2_log2 p : Zpos (digits2_pos p) = Z.log2 (Zpos p) + 1.
Proof.
  induction p as [p IH|p IH|]; cbn [digits2_pos]; [| |reflexivity]; rewrite Pos2Z.inj_succ, IH.
  - rewrite Pos2Z.inj_xI. rewrite Z.log2_succ_double by lia. lia.
  - rewrite Pos2Z.inj_xO. rewrite Z.log2_double by lia. lia.
Qed.
Lemma digits_log2 m : 0 < m -> Zdigits2 m = Z.log2 m + 1.
Proof. intros H. destruct m as [|p|p]; try lia. apply digits2_log2. Qed.

(** ** shifting with a round and a sticky bit *)

(** the record of the quotient N/D *)
Definition rec_of (N D : Z) (r : shr_record) : Prop :=
  shr_m r = N / D /\
  shr_r r = (D <=? 2 * (N mod D)) /\ shr_s r = negb ((N mod D =? 0) || (2 * (N mod D) =? D)).

Lemma mod_double N D : 0 < D -> N mod (2 * D) = ((N / D) mod 2) * D + N mod D /\ N / (2 * D) = (N / D) / 2.
Proof.
  intros H. pose proof (Z.div_mod N D ltac:(lia)) as A. pose proof (Z.mod_pos_bound N D H) as B.
  pose proof (Z.div_mod (N / D) 2 ltac:(lia)) as C. pose proof (Z.mod_pos_bound (N / D) 2 ltac:(lia)) as E. set (m := N / D) in *. set (r := N mod D) in *.
  assert (X : N = (2 * D) * (m / 2) + ((m mod 2) * D + r)) by nia.
  split; [symmetry; apply (Z.mod_unique_pos _ _ (m / 2)); [nia|exact X]|symmetry; apply (Z.div_unique_pos _ _ _ ((m mod 2) * D + r)); [nia|exact X]].
Qed.

Lemma shr_1_is m r s : 0 <= m -> shr_1 {| shr_m := m; shr_r := r; shr_s := s |} = {| shr_m := m / 2; shr_r := (m mod 2 =? 1); shr_s := orb r s |}.
Proof.
  intros H. destruct m as [|[p|p|]|p]; [reflexivity| | |reflexivity|contradiction H; reflexivity].
  - assert (E : Z.pos p~1 / 2 = Z.pos p) by (symmetry; apply (Z.div_unique_pos _ _ _ 1); lia). assert (F : Z.pos p~1 mod 2 = 1) by (symmetry; apply (Z.mod_unique_pos _ _ (Z.pos p)); lia). rewrite E, F. reflexivity.
  - assert (E : Z.pos p~0 / 2 = Z.pos p) by (symmetry; apply (Z.div_unique_pos _ _ _ 0); lia). assert (F : Z.pos p~0 mod 2 = 0) by (symmetry; apply (Z.mod_unique_pos _ _ (Z.pos p)); lia). rewrite E, F. reflexivity.
Qed.

Lemma shr_1_rec N D r : 0 <= N -> 0 < D -> rec_of N D r -> rec_of N (2 * D) (shr_1 r).
Proof.
  intros HN HD (M & R & S). destruct (mod_double N D HD) as [E1 E2]. pose proof (Z.mod_pos_bound N D HD) as B.
  assert (P : 0 <= N / D) by (apply Z.div_pos; lia). destruct r as [m r s]. cbn [shr_m shr_r shr_s] in *.
  assert (O : orb r s = negb (N mod D =? 0)).
  { rewrite R, S. destruct (Z.leb_spec D (2 * (N mod D))), (Z.eqb_spec (N mod D) 0), (Z.eqb_spec (2 * (N mod D)) D); cbn; try reflexivity; lia. }
  unfold rec_of. rewrite E1, E2. rewrite <- M in *. set (t := N mod D) in *. clearbody t. clear E1 E2 R S.
  pose proof (shr_1_is m r s P) as G.
  rewrite G. cbn [shr_m shr_r shr_s]. rewrite O. pose proof (Z.mod_pos_bound m 2 ltac:(lia)) as Bm. set (b := m mod 2) in *. clearbody b. clear G O.
  assert (C : b = 0 \/ b = 1) by lia. split; [reflexivity|]. destruct C as [-> | ->]; cbn [Z.eqb]; split.
  - symmetry. apply Z.leb_gt. lia.
  - replace (0 * D + t =? 0) with (t =? 0) by (f_equal; lia). destruct (Z.eqb_spec (2 * (0 * D + t)) (2 * D)); [lia|]. rewrite orb_false_r. reflexivity.
  - symmetry. apply Z.leb_le. lia.
  - destruct (Z.eqb_spec (1 * D + t) 0); [lia|]. destruct (Z.eqb_spec t 0), (Z.eqb_spec (2 * (1 * D + t)) (2 * D)); try reflexivity; lia.
Qed.

Lemma iter_rec N p : forall D r, 0 <= N -> 0 < D -> rec_of N D r -> rec_of N (D * 2 ^ Zpos p) (SpecFloat.iter_pos shr_1 p r).
Proof.
  induction p as [p IH|p IH|]; intros D r HN HD H; cbn [SpecFloat.iter_pos].
  - rewrite (Pos2Z.inj_xI p). replace (D * 2 ^ (2 * Z.pos p + 1)) with ((2 * D) * 2 ^ Z.pos p * 2 ^ Z.pos p) by (rewrite Z.pow_add_r, <- (Z.add_diag (Z.pos p)), Z.pow_add_r by lia; ring).
    pose proof (Z.pow_pos_nonneg 2 (Z.pos p) ltac:(lia) ltac:(lia)). apply IH; [exact HN|nia|]. apply IH; [exact HN|lia|]. apply shr_1_rec; assumption.
  - rewrite (Pos2Z.inj_xO p). replace (D * 2 ^ (2 * Z.pos p)) with (D * 2 ^ Z.pos p * 2 ^ Z.pos p) by (rewrite <- (Z.add_diag (Z.pos p)), Z.pow_add_r by lia; ring).
    pose proof (Z.pow_pos_nonneg 2 (Z.pos p) ltac:(lia) ltac:(lia)). apply IH; [exact HN|nia|]. apply IH; assumption.
  - replace (D * 2 ^ 1) with (2 * D) by (change (2 ^ 1) with 2; lia). apply shr_1_rec; assumption.
Qed.

Lemma shr_rec N D r e k : 0 <= N -> 0 < D -> 0 <= k -> rec_of N D r -> rec_of N (D * 2 ^ k) (fst (shr r e k)) /\ snd (shr r e k) = e + k.
Proof.
  intros HN HD Hk H. destruct k as [|p|p]; [|split; [apply iter_rec; assumption|reflexivity]|lia].
  cbn [shr fst snd]. change (2 ^ 0) with 1. rewrite Z.mul_1_r. split; [exact H|lia].
Qed.

(** ** locations *)

Definition located (l : location) (N D : Z) : Prop :=
  l = if N mod D =? 0 then loc_Exact else loc_Inexact (2 * (N mod D) ?= D).

Lemma located_rec l N D : 0 < D -> located l N D -> rec_of N D (shr_record_of_loc (N / D) l).
Proof.
  intros HD ->. pose proof (Z.mod_pos_bound N D HD) as B. unfold rec_of. set (t := N mod D) in *. clearbody t.
  destruct (Z.eqb_spec t 0) as [E|E]; [|destruct (Z.compare_spec (2 * t) D)]; cbn [shr_record_of_loc shr_m shr_r shr_s]; (split; [reflexivity|]);
    destruct (Z.leb_spec D (2 * t)), (Z.eqb_spec (2 * t) D); cbn; try lia; split; reflexivity.
Qed.

Lemma rec_round N D r : 0 < D -> rec_of N D r -> round_nearest_even (shr_m r) (loc_of_shr_record r) = rne N D.
Proof.
  intros HD (M & R & S). pose proof (Z.mod_pos_bound N D HD) as B. unfold rne. cbv zeta. rewrite M. assert (E : N - N / D * D = N mod D) by (rewrite Z.mod_eq by lia; lia). rewrite E.
  destruct r as [m r s]. cbn [shr_m shr_r shr_s] in *. subst r s. set (t := N mod D) in *. clearbody t.
  destruct (Z.compare_spec (2 * t) D), (Z.leb_spec D (2 * t)), (Z.eqb_spec t 0), (Z.eqb_spec (2 * t) D); cbn [orb negb loc_of_shr_record round_nearest_even]; try reflexivity; lia.
Qed.

(** ** rounding to nearest depends on the quotient only *)

Lemma rne_scale n d k : 0 < d -> 0 < k -> rne (n * k) (d * k) = rne n d.
Proof.
  intros Hd Hk. unfold rne. cbv zeta. rewrite Z.div_mul_cancel_r by lia. set (t := n / d).
  replace (n * k - t * (d * k)) with ((n - t * d) * k) by ring. replace (2 * ((n - t * d) * k)) with ((2 * (n - t * d)) * k) by ring. rewrite <- Zmult_compare_compat_r by lia. reflexivity.
Qed.
Lemma rne_ratio n d n' d' : 0 < d -> 0 < d' -> n * d' = n' * d -> rne n d = rne n' d'.
Proof. intros H H' E. rewrite <- (rne_scale n d d' H H'), E, (Z.mul_comm d d'). apply rne_scale; assumption. Qed.

Lemma rne_floor n d : 0 < d -> n / d <= rne n d <= n / d + 1.
Proof. intros H. unfold rne. cbv zeta. destruct (_ ?= _); [destruct (Z.even _)|..]; lia. Qed.

(** ** rounding a quotient to a double *)

(** N/D units of 2^e and powers of two *)
Lemma unit_ge x N D e a : 0 < D -> 0 <= a -> (x * inject_Z D == inject_Z N * 2 ^ e)%Q -> (2 ^ (a + e) <= x)%Q <-> 2 ^ a <= N / D.
Proof.
  intros HD Ha E. pose proof (inject_pos D HD) as P. pose proof (two_pos e) as P2.
  assert (A : (2 ^ (a + e) <= x)%Q <-> D * 2 ^ a <= N).
  { rewrite <- (Qmult_le_r _ _ (inject_Z D) P), E, two_add. setoid_replace (2 ^ a * 2 ^ e * inject_Z D)%Q with (inject_Z D * 2 ^ a * 2 ^ e)%Q by ring. rewrite (Qmult_le_r _ _ (2 ^ e)%Q P2).
    rewrite <- two_Z by exact Ha. rewrite <- inject_Z_mult, <- Zle_Qle. reflexivity. }
  rewrite A. split; intros H; [apply Z.div_le_lower_bound; lia|]. pose proof (Z.mul_div_le N D HD). nia.
Qed.
Lemma unit_lt x N D e a : 0 < D -> 0 <= a -> (x * inject_Z D == inject_Z N * 2 ^ e)%Q -> (x < 2 ^ (a + e))%Q <-> N / D < 2 ^ a.
Proof.
  intros HD Ha E. pose proof (unit_ge x N D e a HD Ha E) as G. split; intros H.
  - destruct (Z_lt_le_dec (N / D) (2 ^ a)) as [L|L]; [exact L|]. apply G in L. lra.
  - apply Qnot_le_lt. intros L. apply G in L. lia.
Qed.

Definition signed (neg : bool) (b : Z) : Z := if neg then b - 2 ^ 63 else b.

Lemma sf_signed neg b : 0 <= b < 2 ^ 63 -> sf_double (signed neg b) = sf_bits 52 2047 1075 neg b.
Proof.
  intros H. unfold sf_double, signed. destruct neg.
  - replace (b - 2 ^ 63 <? 0) with true by (symmetry; apply Z.ltb_lt; lia). f_equal. symmetry. apply (Z.mod_unique_pos _ _ (-1)); lia.
  - replace (b <? 0) with false by (symmetry; apply Z.ltb_ge; lia). rewrite Z.mod_small by lia. reflexivity.
Qed.

Lemma fexp_53 a : fexp d_prec d_emax a = Z.max (a - 53) (-1074).
Proof. reflexivity. Qed.

(** the second normalisation: nothing to do, unless rounding gave 2^53 *)
Lemma shr_exact M e : 0 <= M <= 2 ^ 53 -> -1074 <= e -> (2 ^ 52 <= M \/ e = -1074) ->
  shr_fexp d_prec d_emax M e loc_Exact =
  if M =? 2 ^ 53 then ({| shr_m := 2 ^ 52; shr_r := false; shr_s := false |}, e + 1) else ({| shr_m := M; shr_r := false; shr_s := false |}, e).
Proof.
  intros HM He C. unfold shr_fexp. rewrite fexp_53. cbn [shr_record_of_loc]. destruct (Z.eqb_spec M (2 ^ 53)) as [->|N].
  - change (Zdigits2 (2 ^ 53)) with 54. replace (Z.max (54 + e - 53) (-1074) - e) with 1 by lia. reflexivity.
  - assert (K : Z.max (Zdigits2 M + e - 53) (-1074) - e = 0).
    { destruct (Z.eq_dec M 0) as [->|M0]; [cbn [Zdigits2]; lia|]. rewrite digits_log2 by lia.
      assert (A : Z.log2 M < 53) by (apply Z.log2_lt_pow2; lia). assert (B : 2 ^ 52 <= M -> 52 <= Z.log2 M) by (intros H; apply Z.log2_le_pow2; lia). lia. }
    rewrite K. reflexivity.
Qed.

Section Aux.
  Variables n d : Z.
  Hypothesis Hn : 0 < n.
  Hypothesis Hd : 0 < d.
  Variable x : Q.
  Hypothesis Hx : (x * inject_Z d == inject_Z n)%Q.
  Let L := log2_ratio n d.
  Let q := Z.max (L - 52) (-1074).
  Let m := if 0 <=? q then rne n (d * 2 ^ q) else rne (n * 2 ^ (- q)) d.

  Lemma m_is N D : 0 < D -> (x * inject_Z D == inject_Z N * 2 ^ q)%Q -> rne N D = m.
  Proof.
    intros HD E. unfold m. destruct (Z.leb_spec 0 q) as [G|G].
    - pose proof (Z.pow_pos_nonneg 2 q ltac:(lia) G). apply rne_ratio; [exact HD|nia|]. apply (proj1 (inject_Z_injective _ _)). rewrite !inject_Z_mult, two_Z by exact G. rewrite <- Hx.
      setoid_replace (inject_Z N * (inject_Z d * 2 ^ q))%Q with (inject_Z N * 2 ^ q * inject_Z d)%Q by ring. rewrite <- E. ring.
    - apply rne_ratio; [exact HD|exact Hd|]. apply (proj1 (inject_Z_injective _ _)). rewrite !inject_Z_mult, two_Z by lia. rewrite <- Hx.
      setoid_replace (x * inject_Z d * 2 ^ (- q) * inject_Z D)%Q with (x * inject_Z D * inject_Z d * 2 ^ (- q))%Q by ring. rewrite E.
      setoid_replace (inject_Z N * 2 ^ q * inject_Z d * 2 ^ (- q))%Q with (inject_Z N * inject_Z d * (2 ^ (- q) * 2 ^ q))%Q by ring. rewrite two_opp. ring.
  Qed.

  Lemma floor_range N D : 0 < D -> (x * inject_Z D == inject_Z N * 2 ^ q)%Q -> (q = L - 52 /\ 2 ^ 52 <= N / D < 2 ^ 53) \/ (q = -1074 /\ L < -1022 /\ N / D < 2 ^ 52).
  Proof.
    intros HD E. destruct (x_bounds n d Hn Hd x Hx) as [X1 X2]. fold L in X1, X2. destruct (Z_lt_le_dec L (-1022)) as [G|G]; [right|left].
    - split; [unfold q; lia|]. split; [exact G|]. apply (unit_lt x N D q 52 HD ltac:(lia) E). apply Qlt_le_trans with (1 := X2). apply two_le. unfold q. lia.
    - assert (Eq : q = L - 52) by (unfold q; lia). split; [exact Eq|]. split; [apply (unit_ge x N D q 52 HD ltac:(lia) E)|apply (unit_lt x N D q 53 HD ltac:(lia) E)].
      + replace (52 + q) with L by lia. exact X1.
      + replace (53 + q) with (L + 1) by lia. exact X2.
  Qed.

  Lemma fexp_digits N D e : 0 < D -> 0 <= N -> (x * inject_Z D == inject_Z N * 2 ^ e)%Q -> e <= q -> fexp d_prec d_emax (Zdigits2 (N / D) + e) = q.
  Proof.
    intros HD HN E He. unfold fexp, emin, d_prec, d_emax. destruct (x_bounds n d Hn Hd x Hx) as [X1 X2]. fold L in X1, X2.
    assert (P : 0 <= N / D) by (apply Z.div_pos; lia). destruct (Z.eq_dec (N / D) 0) as [Z0|Z0].
    - rewrite Z0. cbn [Zdigits2]. assert (A : (x < 2 ^ (0 + e))%Q) by (apply (unit_lt x N D e 0 HD ltac:(lia) E); rewrite Z0; reflexivity).
      assert (B : (2 ^ L < 2 ^ (0 + e))%Q) by lra. apply two_lt_inv in B. unfold q in *. lia.
    - rewrite digits_log2 by lia. pose proof (Z.log2_spec (N / D) ltac:(lia)) as [L1 L2]. pose proof (Z.log2_nonneg (N / D)) as L0. set (l := Z.log2 (N / D)) in *.
      rewrite <- Z.add_1_r in L2. apply (unit_ge x N D e l HD L0 E) in L1. apply (unit_lt x N D e (l + 1) HD ltac:(lia) E) in L2.
      assert (A : (2 ^ (l + e) < 2 ^ (L + 1))%Q) by lra. assert (B : (2 ^ L < 2 ^ (l + 1 + e))%Q) by lra. apply two_lt_inv in A, B. unfold q. lia.
  Qed.

  Lemma m_cases : (q = L - 52 /\ 2 ^ 52 <= m <= 2 ^ 53) \/ (q = -1074 /\ 0 <= m <= 2 ^ 52).
  Proof.
    assert (G : forall N D, 0 < D -> 0 <= N -> (x * inject_Z D == inject_Z N * 2 ^ q)%Q -> (q = L - 52 /\ 2 ^ 52 <= m <= 2 ^ 53) \/ (q = -1074 /\ 0 <= m <= 2 ^ 52)).
    { intros N D HD HN E. rewrite <- (m_is N D HD E). pose proof (rne_floor N D HD) as R. assert (P : 0 <= N / D) by (apply Z.div_pos; lia). destruct (floor_range N D HD E) as [[A B]|(A & _ & B)]; [left|right]; lia. }
    destruct (Z.leb_spec 0 q) as [H|H].
    - pose proof (Z.pow_pos_nonneg 2 q ltac:(lia) H). apply (G n (d * 2 ^ q)); [nia|lia|]. rewrite inject_Z_mult, two_Z, Qmult_assoc, Hx by exact H. reflexivity.
    - pose proof (Z.pow_pos_nonneg 2 (- q) ltac:(lia) ltac:(lia)). apply (G (n * 2 ^ (- q)) d); [exact Hd|nia|]. rewrite Hx, inject_Z_mult, two_Z by lia. rewrite <- Qmult_assoc, two_opp. ring.
  Qed.

  Lemma round_aux neg N D e l : 0 < D -> 0 <= N -> (x * inject_Z D == inject_Z N * 2 ^ e)%Q -> e <= q -> located l N D ->
    binary_round_aux d_prec d_emax neg (N / D) e l = sf_double (signed neg (round_pos n d)).
  Proof.
    intros HD HN E He Hl. unfold binary_round_aux.
    assert (S1 : exists r, shr_fexp d_prec d_emax (N / D) e l = (r, q) /\ rec_of N (D * 2 ^ (q - e)) r).
    { unfold shr_fexp. rewrite (fexp_digits N D e HD HN E He). destruct (shr_rec N D (shr_record_of_loc (N / D) l) e (q - e) HN HD ltac:(lia) (located_rec l N D HD Hl)) as [A B].
      destruct (shr _ _ _) as [r k] eqn:Es. cbn [fst snd] in A, B. exists r. split; [f_equal; lia|exact A]. }
    destruct S1 as (r & -> & R). pose proof (Z.pow_pos_nonneg 2 (q - e) ltac:(lia) ltac:(lia)) as P2.
    rewrite (rec_round N (D * 2 ^ (q - e)) r ltac:(nia) R). rewrite (m_is N (D * 2 ^ (q - e))).
    2: nia.
    2: { rewrite inject_Z_mult, two_Z by lia. rewrite Qmult_assoc, E, <- Qmult_assoc, <- two_add. replace (e + (q - e)) with q by lia. reflexivity. }
    pose proof m_cases as C. rewrite shr_exact by (unfold q in *; lia).
    unfold round_pos. fold L. fold q. fold m. assert (Q0 : -1074 <= q) by (unfold q; lia). clearbody m q. clear R P2 r. change d_emax with 1024. change d_prec with 53.
    destruct (Z.eqb_spec m (2 ^ 53)) as [E53|N53]; cbn [shr_m].
    - replace (m <? 2 ^ 52) with false by (symmetry; apply Z.ltb_ge; lia). assert (Em : m - 2 ^ 52 = 2 ^ 52) by lia. rewrite Em. rewrite sf_signed by lia. change (2 ^ 52) with 4503599627370496 at 1.
      cbn iota. change (1024 - 53) with 971. destruct (Z.leb_spec (q + 1) 971) as [Lq|Lq].
      + rewrite Z.min_l by lia. unfold sf_bits. replace (2047 * 2 ^ 52 <? _) with false by (symmetry; apply Z.ltb_ge; lia). replace (_ =? 2047 * 2 ^ 52) with false by (symmetry; apply Z.eqb_neq; lia).
        assert (E1 : ((q + 1075) * 2 ^ 52 + 2 ^ 52) / 2 ^ 52 = q + 1076) by (symmetry; apply (Z.div_unique_pos _ _ _ 0); lia).
        assert (E2 : ((q + 1075) * 2 ^ 52 + 2 ^ 52) mod 2 ^ 52 = 0) by (symmetry; apply (Z.mod_unique_pos _ _ (q + 1076)); lia).
        rewrite E1, E2. replace (q + 1076 =? 0) with false by (symmetry; apply Z.eqb_neq; lia). change (2 ^ 52 + 0) with 4503599627370496. cbn iota. f_equal. lia.
      + rewrite Z.min_r by lia. unfold sf_bits. rewrite Z.ltb_irrefl, Z.eqb_refl. reflexivity.
    - destruct (Z.ltb_spec m (2 ^ 52)) as [L52|L52].
      + rewrite Z.min_l by lia. rewrite sf_signed by lia. unfold sf_bits. replace (2047 * 2 ^ 52 <? m) with false by (symmetry; apply Z.ltb_ge; lia). replace (m =? 2047 * 2 ^ 52) with false by (symmetry; apply Z.eqb_neq; lia).
        rewrite Z.div_small by lia. cbn [Z.eqb]. change (Z.max 1 0 - 1075) with (-1074). destruct m as [|p|p]; [reflexivity| |lia].
        replace (q <=? 1024 - 53) with true by (symmetry; apply Z.leb_le; lia). f_equal. lia.
      + assert (Mp : m = Z.pos (Z.to_pos m)) by (rewrite Z2Pos.id; lia). rewrite Mp at 1. change (1024 - 53) with 971. destruct (Z.leb_spec q 971) as [Lq|Lq].
        * rewrite Z.min_l by lia. rewrite sf_signed by lia. unfold sf_bits. replace (2047 * 2 ^ 52 <? _) with false by (symmetry; apply Z.ltb_ge; lia). replace (_ =? 2047 * 2 ^ 52) with false by (symmetry; apply Z.eqb_neq; lia).
          assert (E1 : ((q + 1075) * 2 ^ 52 + (m - 2 ^ 52)) / 2 ^ 52 = q + 1075) by (symmetry; apply (Z.div_unique_pos _ _ _ (m - 2 ^ 52)); lia).
          assert (E2 : ((q + 1075) * 2 ^ 52 + (m - 2 ^ 52)) mod 2 ^ 52 = m - 2 ^ 52) by (symmetry; apply (Z.mod_unique_pos _ _ (q + 1075)); lia).
          rewrite E1, E2. replace (q + 1075 =? 0) with false by (symmetry; apply Z.eqb_neq; lia). replace (2 ^ 52 + (m - 2 ^ 52)) with (Z.pos (Z.to_pos m)) by lia. f_equal. lia.
        * rewrite Z.min_r by lia. rewrite sf_signed by lia. unfold sf_bits. rewrite Z.ltb_irrefl, Z.eqb_refl. reflexivity.
  Qed.
End Aux.
