(** The exact decimal of a double and its rounding to even. *)
From Coq Require Import QArith Qpower Lqa Lia.
From Verif Require Import Base Digits FormatterM BigDecM FmtSpec DecSpec RoundP FloatSpec FPDecP FloatQ SigP FmtP FloatP DoubleP BigDecP PortSpec PortP RepairM GlibcM.
From Verif Require CastP HexP.
Local Notation pair_eq := HexP.pair_eq.
Open Scope Z_scope.

(** ** new BigDecimal(double) *)

Lemma two_five k : 0 <= k -> (inject_Z (5 ^ k) * 10 ^ (- k) == 2 ^ (- k))%Q.
Proof.
  intros H. assert (T : (10 == 2 * 5)%Q) by reflexivity. rewrite T, Qmult_power, Zpower_Qpower by exact H. change (inject_Z 5) with 5%Q.
  setoid_replace (5 ^ k * (2 ^ (- k) * 5 ^ (- k)))%Q with (2 ^ (- k) * (5 ^ k * 5 ^ (- k)))%Q by ring. rewrite <- Qpower_plus by discriminate.
  replace (k + - k) with 0 by lia. change (5 ^ 0)%Q with 1%Q. ring.
Qed.

Lemma halve_spec n : forall c x c' x', halve n c x = (c', x') -> 0 < c ->
  0 < c' <= c /\ x <= x' <= x + Z.of_nat n /\ (inject_Z c' * 2 ^ x' == inject_Z c * 2 ^ x)%Q.
Proof.
  induction n as [|n IH]; intros c x c' x' E Hc; cbn [halve] in E.
  - apply pair_eq in E as [<- <-]. split; [lia|]. split; [lia|reflexivity].
  - destruct (Z.even c) eqn:Ev.
    + apply Z.even_spec in Ev as [d Ed]. assert (D : c / 2 = d) by (rewrite Ed, Z.mul_comm; apply Z.div_mul; lia). rewrite D in E.
      destruct (IH _ _ _ _ E ltac:(lia)) as (A & B & C). split; [lia|]. split; [lia|]. rewrite C, Ed, inject_Z_mult, CastP.two_add. change (2 ^ 1)%Q with (inject_Z 2). ring.
    + apply pair_eq in E as [<- <-]. split; [lia|]. split; [lia|reflexivity].
Qed.

Lemma five_bound : 2 ^ 53 * 5 ^ 1075 < 10 ^ 1000.
Proof. vm_compute. reflexivity. Qed.
Lemma two_bound : 2 ^ 53 * 2 ^ 1025 < 10 ^ 1000.
Proof. vm_compute. reflexivity. Qed.

(** the exact value, with a scale from 0 to 1075 *)
Lemma ofDouble_exact m u s : 0 <= m < inf_bits -> bd_ofDouble m = mkBD u s ->
  (dec u (- s) == dval m)%Q /\ 0 <= u < 10 ^ 1000 /\ 0 <= s <= 1075 /\ (u = 0 -> m = 0 /\ s = 0).
Proof.
  intros Hm E. unfold bd_ofDouble in E. cbv zeta in E. pose proof (Z.mod_pos_bound m (2 ^ 52) eq_refl) as Hf. pose proof (Z.div_mod m (2 ^ 52) ltac:(lia)) as Dm.
  assert (He : 0 <= m / 2 ^ 52 < 2047).
  { split; [apply Z.div_pos; lia|]. apply Z.div_lt_upper_bound; [lia|]. unfold inf_bits in Hm. lia. }
  unfold dval. cbv zeta. set (e := m / 2 ^ 52) in *. set (f := m mod 2 ^ 52) in *. set (c := if e =? 0 then 2 * f else 2 ^ 52 + f) in *.
  assert (Hc : 0 <= c < 2 ^ 53) by (unfold c; destruct (e =? 0); lia).
  assert (V : ((if (e =? 0)%Z then inject_Z f * 2 ^ (-1074) else inject_Z (2 ^ 52 + f) * 2 ^ (e - 1075)) == inject_Z c * 2 ^ (e - 1075))%Q).
  { unfold c. destruct (Z.eqb_spec e 0) as [->|_]; [|reflexivity]. rewrite inject_Z_mult. change (-1074) with (1 + (0 - 1075)). rewrite CastP.two_add. change (2 ^ 1)%Q with (inject_Z 2). ring. }
  rewrite V. clear V. destruct (Z.eqb_spec c 0) as [C0|C0].
  - injection E as <- <-. rewrite C0. split; [reflexivity|]. split; [lia|]. split; [lia|]. intros _. split; [|reflexivity]. unfold c in C0. destruct (Z.eqb_spec e 0); lia.
  - destruct (halve 53 c (e - 1075)) as [c' x] eqn:H. destruct (halve_spec _ _ _ _ _ H ltac:(lia)) as (A & B & C). change (Z.of_nat 53) with 53 in B. rewrite <- C.
    destruct (Z.ltb_spec x 0) as [Hx|Hx]; injection E as <- <-.
    + pose proof (Z.pow_pos_nonneg 5 (- x) ltac:(lia) ltac:(lia)) as P5. split; [|split; [|split; [lia|nia]]].
      * unfold dec. rewrite inject_Z_mult, <- Qmult_assoc, two_five by lia. rewrite Z.opp_involutive. reflexivity.
      * assert (5 ^ (- x) <= 5 ^ 1075) by (apply Z.pow_le_mono_r; lia). pose proof five_bound as FB. set (K := 5 ^ 1075) in *. set (L := 10 ^ 1000) in *. clearbody K L. nia.
    + pose proof (Z.pow_pos_nonneg 2 x ltac:(lia) ltac:(lia)) as P2. split; [|split; [|split; [lia|nia]]].
      * unfold dec. change (10 ^ (- 0))%Q with 1%Q. rewrite inject_Z_mult, Zpower_Qpower by lia. change (inject_Z 2) with 2%Q. ring.
      * assert (2 ^ x <= 2 ^ 1025) by (apply Z.pow_le_mono_r; lia). pose proof two_bound as FB. set (K := 2 ^ 1025) in *. set (L := 10 ^ 1000) in *. clearbody K L. nia.
Qed.

(** ** Rounding *)

Lemma half_even_spec u k : 0 <= u -> 0 <= k -> let N := half_even_div u k in let d := 10 ^ k in
  2 * d * N - d <= 2 * u <= 2 * d * N + d /\ (2 * u = 2 * d * N - d \/ 2 * u = 2 * d * N + d -> Z.even N = true).
Proof.
  intros Hu Hk. cbv zeta. unfold half_even_div. cbv zeta. pose proof (Z.pow_pos_nonneg 10 k ltac:(lia) Hk) as D. set (d := 10 ^ k) in *. clearbody d.
  pose proof (Z.div_mod u d ltac:(lia)) as M. pose proof (Z.mod_pos_bound u d D) as R. set (n := u / d) in *. set (r := u mod d) in *. clearbody n r.
  destruct (Z.compare_spec (2 * r) d) as [C|C|C].
  - destruct (Z.even n) eqn:E.
    + split; [lia|]. intros _. exact E.
    + split; [lia|]. intros _. rewrite Z.even_add, E. reflexivity.
  - split; [lia|]. intros [H|H]; exfalso; lia.
  - split; [lia|]. intros [H|H]; exfalso; lia.
Qed.

Lemma shifted u s p : 0 <= s - p -> (dec u (- s) * 10 ^ p * inject_Z (10 ^ (s - p)) == inject_Z u)%Q.
Proof.
  intros H. unfold dec. rewrite ten_Z by exact H. rewrite <- !Qmult_assoc, <- !ten_add. replace (- s + (p + (s - p))) with 0 by lia. change (10 ^ 0)%Q with 1%Q. ring.
Qed.
Lemma half_even_at u s p : 0 <= u -> 0 <= s - p -> even_at (dec u (- s)) p (half_even_div u (s - p)).
Proof.
  intros Hu Hk. destruct (half_even_spec u (s - p) Hu Hk) as [[B1 B2] T]. set (N := half_even_div u (s - p)) in *. pose proof (shifted u s p Hk) as E.
  pose proof (Z.pow_pos_nonneg 10 (s - p) ltac:(lia) Hk) as D. set (d := 10 ^ (s - p)) in *. clearbody d N. unfold even_at. set (y := (dec u (- s) * 10 ^ p)%Q) in *. clearbody y.
  assert (Pd : (0 < inject_Z d)%Q) by (change 0%Q with (inject_Z 0); rewrite <- Zlt_Qlt; exact D).
  assert (I : forall n, (inject_Z (2 * d * n) == 2 * inject_Z d * inject_Z n)%Q) by (intros; rewrite !inject_Z_mult; reflexivity).
  assert (E2 : (inject_Z (2 * u) == 2 * (y * inject_Z d))%Q) by (rewrite inject_Z_mult, E; reflexivity).
  rewrite Zle_Qle in B1, B2. unfold Z.sub in B1. rewrite inject_Z_plus, inject_Z_opp, I in B1. rewrite inject_Z_plus, I in B2. rewrite E2 in B1, B2.
  split.
  - split; [apply (Qmult_le_r _ _ _ Pd)|apply (Qmult_le_r _ _ _ Pd)]; lra.
  - intros [H|H]; apply T; [left|right]; apply inject_Z_injective; unfold Z.sub; rewrite E2, inject_Z_plus, ?inject_Z_opp, I, H; ring.
Qed.
Lemma exact_at x p N : (x * 10 ^ p == inject_Z N)%Q -> even_at x p N.
Proof. intros H. unfold even_at. rewrite H. split; [split; lra|]. intros [E|E]; exfalso; lra. Qed.

(** fixed notation: what is left to round is exact *)
Lemma scaleEven_at u s p u' s' : 0 <= u -> 0 <= p -> 0 <= s -> bd_scaleEven (mkBD u s) p = mkBD u' s' ->
  even_at (dec u (- s)) p (hup u' (s' - p)) /\ 0 <= u' <= u + 1 /\ 0 <= s' <= s /\ s' <= p.
Proof.
  intros Hu Hp Hs E. unfold bd_scaleEven in E. cbn [bd_s bd_u] in E. destruct (Z.leb_spec s p) as [L|L]; injection E as <- <-.
  - split; [|lia]. apply exact_at. unfold hup. replace (s - p <=? 0) with true by (symmetry; apply Z.leb_le; lia). unfold dec.
    rewrite inject_Z_mult, ten_Z by lia. rewrite <- Qmult_assoc, <- ten_add. replace (- (s - p)) with (- s + p) by lia. reflexivity.
  - rewrite Z.sub_diag. unfold hup. change (0 <=? 0) with true. cbv iota. rewrite Z.mul_1_r. split; [apply half_even_at; lia|]. split; [|lia].
    destruct (half_even_spec u (s - p) Hu ltac:(lia)) as [[B1 B2] _]. pose proof (Z.pow_pos_nonneg 10 (s - p) ltac:(lia) ltac:(lia)) as D. set (d := 10 ^ (s - p)) in *. nia.
Qed.

(** significant digits *)
Lemma sig_short f e P : 0 < f -> ndigits f <= P -> FloatSpec.sig f e P = (f * 10 ^ (P - ndigits f), ndigits f + e - 1).
Proof.
  intros Hf HP. unfold FloatSpec.sig. cbv zeta. unfold hup. replace (ndigits f - P <=? 0) with true by (symmetry; apply Z.leb_le; lia).
  replace (- (ndigits f - P)) with (P - ndigits f) by lia. destruct (ndigits_bounds f Hf) as (B0 & B1 & B2).
  destruct (Z.eqb_spec (f * 10 ^ (P - ndigits f)) (10 ^ P)) as [E|E]; [exfalso|reflexivity].
  replace P with (ndigits f + (P - ndigits f)) in E at 2 by lia. rewrite Z.pow_add_r in E by lia. pose proof (Z.pow_pos_nonneg 10 (P - ndigits f) ltac:(lia) ltac:(lia)). nia.
Qed.

Lemma roundEven_sig u s P u' s' S X : 0 < u -> 1 <= P -> bd_roundEven (mkBD u s) P = mkBD u' s' -> FloatSpec.sig u' (- s') P = (S, X) ->
  sig_even (dec u (- s)) P S X /\ 0 < u' <= 10 * u /\ ndigits u' <= P /\ s - ndigits u - 1 <= s' <= s.
Proof.
  intros Hu HP E ES. unfold bd_roundEven in E. unfold bd_roundEven1 at 2 in E. cbn [bd_u bd_s] in E. rewrite precision_ndigits in E by lia.
  destruct (ndigits_bounds u Hu) as (B0 & B1 & B2). set (n := ndigits u) in *.
  pose proof (dec_decade u (- s) Hu) as D. fold n in D. replace (n + - s) with (n + - s - 1 + 1) in D by lia. replace (n + - s - 1 + 1 - 1) with (n + - s - 1) in D by lia.
  destruct (Z.leb_spec n P) as [L|L].
  - unfold bd_roundEven1 in E. rewrite precision_ndigits in E by lia. fold n in E. rewrite (proj2 (Z.leb_le n P) L) in E. injection E as <- <-.
    rewrite sig_short in ES by assumption. fold n in ES. apply pair_eq in ES as [<- <-].
    pose proof (Z.pow_pos_nonneg 10 (P - n) ltac:(lia) ltac:(lia)) as PP. split; [|fold n; lia]. exists (n + - s - 1), (u * 10 ^ (P - n)). split; [exact D|]. split; [|split; [reflexivity|]].
    + apply exact_at. unfold dec. rewrite inject_Z_mult, ten_Z by lia. rewrite <- Qmult_assoc, <- ten_add. replace (- s + (P - 1 - (n + - s - 1))) with (P - n) by lia. reflexivity.
    + replace (10 ^ (P - 1)) with (10 ^ (n - 1) * 10 ^ (P - n)) by (rewrite <- Z.pow_add_r by lia; f_equal; lia).
      replace (10 ^ P) with (10 ^ n * 10 ^ (P - n)) by (rewrite <- Z.pow_add_r by lia; f_equal; lia). nia.
  - pose proof (half_even_at u s (s - (n - P)) ltac:(lia) ltac:(lia)) as HN. replace (s - (s - (n - P))) with (n - P) in HN by lia.
    set (N := half_even_div u (n - P)) in *. replace (s - (n - P)) with (P - 1 - (n + - s - 1)) in HN by lia.
    pose proof (even_decade _ _ _ _ HN D ltac:(lia)) as R. replace (n + - s - 1 + (P - 1 - (n + - s - 1))) with (P - 1) in R by lia.
    replace (n + - s - 1 + 1 + (P - 1 - (n + - s - 1))) with P in R by lia. pose proof (tenP P HP) as T. pose proof (Z.pow_pos_nonneg 10 (P - 1) ltac:(lia) ltac:(lia)) as T1.
    assert (NU : N <= 10 * u) by (assert (10 ^ P <= 10 ^ (n - 1)) by (apply Z.pow_le_mono_r; lia); lia).
    unfold bd_roundEven1 in E. cbn [bd_u bd_s] in E. rewrite precision_ndigits in E by lia. destruct (Z.eq_dec N (10 ^ P)) as [EN|EN].
    + assert (Nn : ndigits N = P + 1) by (rewrite EN; replace (10 ^ P) with (10 ^ (P + 1 - 1)) by (f_equal; lia); apply ndigits_pow; lia).
      rewrite Nn in E. replace (P + 1 <=? P) with false in E by (symmetry; apply Z.leb_gt; lia). replace (P + 1 - P) with 1 in E by lia.
      assert (H10 : half_even_div N 1 = 10 ^ (P - 1)).
      { unfold half_even_div. cbv zeta. change (10 ^ 1) with 10. rewrite EN, T. rewrite (Z.mul_comm 10), Z.mod_mul, Z.div_mul by lia. reflexivity. }
      rewrite H10 in E. injection E as <- <-. assert (Nd : ndigits (10 ^ (P - 1)) = P) by (apply ndigits_pow; lia).
      rewrite sig_short in ES by lia. rewrite Nd, Z.sub_diag, Z.pow_0_r, Z.mul_1_r in ES. apply pair_eq in ES as [<- <-].
      split; [|lia]. exists (n + - s - 1), N. split; [exact D|]. split; [exact HN|]. split; [|lia]. rewrite EN, (dec_carry P HP).
      replace (P + - (s - (n - P) - 1) - 1 - P + 1) with (n + - s - 1 - P + 1 + 1) by lia. reflexivity.
    + assert (Nd : ndigits N = P) by (apply ndigits_unique; lia). rewrite Nd, Z.leb_refl in E. injection E as <- <-.
      rewrite sig_short in ES by lia. rewrite Nd, Z.sub_diag, Z.pow_0_r, Z.mul_1_r in ES. apply pair_eq in ES as [<- <-].
      split; [|lia]. exists (n + - s - 1), N. split; [exact D|]. split; [exact HN|]. split; [|lia]. replace (P + - (s - (n - P)) - 1) with (n + - s - 1) by lia. reflexivity.
Qed.
