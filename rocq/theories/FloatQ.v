(** The texts of FloatSpec in terms of rational numbers: rounding, uniqueness, hexadecimal values. *)
From Coq Require Import QArith Qabs Qpower Lqa.
From Verif Require Import Base Digits FmtSpec DecSpec RoundP ShortP SchubP FloatSpec FPDecP HexP CastP NearP.
Open Scope Q_scope.

Lemma ten_Z n : (0 <= n)%Z -> inject_Z (10 ^ n) == 10 ^ n.
Proof. intros H. apply Zpower_Qpower. exact H. Qed.
Lemma ten_add a b : 10 ^ (a + b) == 10 ^ a * 10 ^ b.
Proof. apply Qpower_plus. discriminate. Qed.
Lemma ten_le a b : (a <= b)%Z -> 10 ^ a <= 10 ^ b.
Proof.
  intros H. replace b with (b - a + a)%Z by lia. rewrite (ten_add (b - a) a). rewrite <- (ten_Z (b - a)) by lia.
  pose proof (ten_pos a) as P.
  assert (O : inject_Z 1 <= inject_Z (10 ^ (b - a))) by (apply inject_le; pose proof (Z.pow_pos_nonneg 10 (b - a) ltac:(lia) ltac:(lia)); lia).
  change (inject_Z 1) with (1 # 1) in O. assert (1 * 10 ^ a <= inject_Z (10 ^ (b - a)) * 10 ^ a) by (apply Qmult_le_r; assumption). lra.
Qed.
Lemma ten_lt_inv a b : 10 ^ a < 10 ^ b -> (a < b)%Z.
Proof.
  intros H. destruct (Z_lt_ge_dec a b) as [L|L]; [exact L|exfalso]. pose proof (ten_le b a ltac:(lia)). lra.
Qed.

(** ** half up *)

Lemma hup_half_up f e p : (0 <= f)%Z -> half_up_at (dec f e) p (hup f (- (e + p))).
Proof.
  intros Hf. unfold half_up_at, dec. rewrite <- Qmult_assoc, <- ten_add. unfold hup. set (k := (- (e + p))%Z).
  replace (e + p)%Z with (- k)%Z by (unfold k; lia). destruct (Z.leb_spec k 0) as [L|L].
  - rewrite inject_Z_mult, ten_Z by lia. set (v := inject_Z f * 10 ^ (- k)). lra.
  - destruct (half_pow k L) as [H1 H2]. pose proof (Z.pow_pos_nonneg 10 (k - 1) ltac:(lia) ltac:(lia)) as P.
    pose proof (Z.div_mod (f + 10 ^ k / 2) (10 ^ k) ltac:(lia)) as D. pose proof (Z.mod_pos_bound (f + 10 ^ k / 2) (10 ^ k) ltac:(lia)) as M.
    set (N := ((f + 10 ^ k / 2) / 10 ^ k)%Z) in *. clearbody N. rewrite H1 in D, M. set (T := (10 ^ k)%Z) in *.
    assert (B : (2 * N * T - T <= 2 * f < 2 * N * T + T)%Z).
    { clear - D M H2. set (u := (10 ^ (k - 1))%Z) in *. set (r := ((f + 5 * u) mod T)%Z) in *. clearbody r u T. rewrite Z.mul_comm in D. rewrite H2 in *. lia. }
    destruct B as [B1 B2].
    apply inject_le in B1. apply inject_lt in B2. rewrite inject_sub, !inject_Z_mult in B1. rewrite inject_Z_plus, !inject_Z_mult in B2. change (inject_Z 2) with 2 in *.
    assert (PT : 0 < inject_Z T) by (apply inject_pos; lia).
    assert (E : inject_Z f * 10 ^ (- k) * inject_Z T == inject_Z f).
    { unfold T. rewrite ten_Z by lia. rewrite <- Qmult_assoc, <- ten_add. replace (- k + k)%Z with 0%Z by lia. change (10 ^ 0) with 1. ring. }
    set (v := inject_Z f * 10 ^ (- k)) in *. split.
    + apply (Qmult_le_r _ _ _ PT). rewrite E. lra.
    + apply (Qmult_lt_r _ _ _ PT). rewrite E. lra.
Qed.

Lemma half_up_unique x p N N' : half_up_at x p N -> half_up_at x p N' -> N = N'.
Proof.
  intros [A1 A2] [B1 B2]. set (y := x * 10 ^ p) in *.
  assert (inject_Z N < inject_Z (N' + 1)) by (rewrite inject_Z_plus; change (inject_Z 1) with (1 # 1); lra).
  assert (inject_Z N' < inject_Z (N + 1)) by (rewrite inject_Z_plus; change (inject_Z 1) with (1 # 1); lra).
  apply inject_lt_inv in H, H0. lia.
Qed.

Lemma half_up_eq x y p N : x == y -> half_up_at x p N -> half_up_at y p N.
Proof. unfold half_up_at. intros E H. rewrite <- E. exact H. Qed.

(** a decimal lies in its decade *)
Lemma dec_decade f e : (0 < f)%Z -> 10 ^ (ndigits f + e - 1) <= dec f e /\ dec f e < 10 ^ (ndigits f + e).
Proof.
  intros H. destruct (ndigits_bounds f H) as (B0 & B1 & B2). unfold dec. pose proof (ten_pos e) as P.
  replace (ndigits f + e - 1)%Z with (ndigits f - 1 + e)%Z by lia. rewrite !ten_add. rewrite <- !(ten_Z (ndigits f)), <- (ten_Z (ndigits f - 1)) by lia.
  split; [apply Qmult_le_r|apply Qmult_lt_r]; try assumption; [apply inject_le|apply inject_lt]; assumption.
Qed.

Lemma sig_right f e P S X : (0 < f)%Z -> (1 <= P)%Z -> FloatSpec.sig f e P = (S, X) -> sig_half_up (dec f e) P S X.
Proof.
  intros Hf HP E. destruct (ndigits_bounds f Hf) as (B0 & B1 & B2). pose proof (dec_decade f e Hf) as [D1 D2]. set (n := ndigits f) in *.
  exists (n + e - 1)%Z, (hup f (n - P)). split; [replace (n + e - 1 + 1)%Z with (n + e)%Z by lia; split; assumption|].
  split; [replace (n - P)%Z with (- (e + (P - 1 - (n + e - 1))))%Z by lia; apply hup_half_up; lia|].
  unfold FloatSpec.sig in E. fold n in E. cbv zeta in E. set (r := hup f (n - P)) in *.
  assert (R : (10 ^ (P - 1) <= r <= 10 ^ P)%Z).
  { destruct (Z_lt_ge_dec P n) as [L|L].
    - pose proof (hup_range f n (n - P) Hf eq_refl ltac:(lia) ltac:(lia)) as R. replace (n - (n - P) - 1)%Z with (P - 1)%Z in R by lia.
      replace (n - (n - P))%Z with P in R by lia. exact R.
    - unfold r, hup. replace (n - P <=? 0)%Z with true by (symmetry; apply Z.leb_le; lia).
      replace (10 ^ (P - 1))%Z with (10 ^ (n - 1) * 10 ^ (- (n - P)))%Z by (rewrite <- Z.pow_add_r by lia; f_equal; lia).
      replace (10 ^ P)%Z with (10 ^ n * 10 ^ (- (n - P)))%Z by (rewrite <- Z.pow_add_r by lia; f_equal; lia).
      pose proof (Z.pow_pos_nonneg 10 (- (n - P)) ltac:(lia) ltac:(lia)). nia. }
  assert (T : (10 ^ P = 10 * 10 ^ (P - 1))%Z) by (rewrite <- Z.pow_succ_r by lia; f_equal; lia).
  pose proof (Z.pow_pos_nonneg 10 (P - 1) ltac:(lia) ltac:(lia)).
  destruct (Z.eqb_spec r (10 ^ P)) as [E1|E1]; apply pair_eq in E as [<- <-].
  - split; [|lia]. unfold dec. rewrite E1, T, inject_Z_mult. replace (n + e - P + 1)%Z with (1 + (n + e - 1 - P + 1))%Z by lia. rewrite ten_add.
    change (10 ^ 1) with (inject_Z 10). ring.
  - split; [reflexivity|lia].
Qed.

Lemma decade_unique x X X' : 10 ^ X <= x < 10 ^ (X + 1) -> 10 ^ X' <= x < 10 ^ (X' + 1) -> X = X'.
Proof.
  intros [A1 A2] [B1 B2]. assert (A : 10 ^ X < 10 ^ (X' + 1)) by lra. assert (B : 10 ^ X' < 10 ^ (X + 1)) by lra. apply ten_lt_inv in A, B. lia.
Qed.

Lemma sig_half_up_unique x P S X S' X' : (1 <= P)%Z -> sig_half_up x P S X -> sig_half_up x P S' X' -> S = S' /\ X = X'.
Proof.
  intros HP (X0 & N & A1 & A2 & A3 & A4) (X0' & N' & B1 & B2 & B3 & B4).
  pose proof (decade_unique _ _ _ A1 B1) as <-. pose proof (half_up_unique _ _ _ _ A2 B2) as <-.
  assert (E : dec S (X - P + 1) == dec S' (X' - P + 1)) by (rewrite A3, B3; reflexivity).
  assert (D : forall T Y, (10 ^ (P - 1) <= T < 10 ^ P)%Z -> 10 ^ Y <= dec T (Y - P + 1) < 10 ^ (Y + 1)).
  { intros T Y [L1 L2]. unfold dec. pose proof (ten_pos (Y - P + 1)) as Pp.
    assert (Y1 : Y = (P - 1 + (Y - P + 1))%Z) by lia. assert (Y2 : (Y + 1 = P + (Y - P + 1))%Z) by lia. set (w := (Y - P + 1)%Z) in *. clearbody w. rewrite Y2, Y1. rewrite (ten_add (P - 1) w), (ten_add P w). rewrite <- (ten_Z P), <- (ten_Z (P - 1)) by lia.
    split; [apply Qmult_le_r|apply Qmult_lt_r]; try assumption; [apply inject_le|apply inject_lt]; assumption. }
  pose proof (D S X A4) as D1. pose proof (D S' X' B4) as D2. rewrite <- E in D2. pose proof (decade_unique _ _ _ D1 D2) as <-.
  split; [|reflexivity]. unfold dec in E. apply Qmult_inj_r in E; [|pose proof (ten_pos (X - P + 1)); lra].
  apply (proj1 (inject_Z_injective _ _)) in E. exact E.
Qed.

Lemma sig_half_up_eq x y P S X : x == y -> sig_half_up x P S X -> sig_half_up y P S X.
Proof.
  intros E (X0 & N & A1 & A2 & A3). exists X0, N. split; [rewrite <- E; exact A1|]. split; [apply (half_up_eq x); assumption|exact A3].
Qed.

(** ** the decimal of a double is unique *)

Lemma dec_parity f e g e' : dec f e == dec g e' -> (e' < e)%Z -> Z.even g = true.
Proof.
  intros E L. unfold dec in E. replace e with (e - e' + e')%Z in E by lia. rewrite ten_add, Qmult_assoc in E.
  apply Qmult_inj_r in E; [|pose proof (ten_pos e'); lra]. rewrite <- ten_Z, <- inject_Z_mult in E by lia. apply (proj1 (inject_Z_injective _ _)) in E. rewrite <- E.
  rewrite Z.even_mul. replace (e - e')%Z with (Z.succ (e - e' - 1)) by lia. rewrite Z.pow_succ_r, Z.even_mul by lia. cbn. apply orb_true_r.
Qed.

Lemma right_unique b f e f' e' : right_decimal b f e -> right_decimal b f' e' -> dec f e == dec f' e'.
Proof.
  intros (P1 & R1 & S1 & C1) (P2 & R2 & S2 & C2).
  destruct (C1 f' e' P2 R2 S2) as [E|[L|(T & Ev & g & G1 & G2)]]; [exact E|exfalso|exfalso];
    (destruct (C2 f e P1 R1 S1) as [E'|[L'|(T' & Ev' & g' & G1' & G2')]]; [|try lra|try lra]).
  - rewrite E' in L. lra.
  - rewrite E' in G1. assert (Eg : g = f); [|lia]. unfold dec in G1. apply Qmult_inj_r in G1; [|pose proof (ten_pos e); lra]. symmetry. apply inject_Z_injective. exact G1.
  - assert (Og : Z.even g = false) by (destruct G2 as [-> | ->]; rewrite ?Z.even_add, ?Z.even_sub, Ev; reflexivity).
    assert (Og' : Z.even g' = false) by (destruct G2' as [-> | ->]; rewrite ?Z.even_add, ?Z.even_sub, Ev'; reflexivity).
    destruct (Z.lt_trichotomy e e') as [L|[<-|L]].
    + rewrite (dec_parity _ _ _ _ G1 L) in Og. discriminate.
    + unfold dec in G1. apply Qmult_inj_r in G1; [|pose proof (ten_pos e); lra]. apply (proj1 (inject_Z_injective _ _)) in G1. subst g. congruence.
    + rewrite (dec_parity _ _ _ _ G1' L) in Og'. discriminate.
Qed.

(** ** %a *)

Lemma two_16 P : (0 <= P)%Z -> inject_Z (16 ^ P) == 16 ^ P.
Proof. intros H. apply Zpower_Qpower. exact H. Qed.

Lemma bin_parts_value b c x : (0 <= b)%Z -> bin_parts b = (c, x) -> dval b * 16 ^ 13 == inject_Z c * 2 ^ x.
Proof.
  intros Hb E. unfold bin_parts in E. unfold dval. pose proof (Z.div_mod b (2 ^ 52) ltac:(lia)) as D.
  destruct (Z.eqb_spec (b / 2 ^ 52) 0) as [E0|E0]; apply pair_eq in E as [<- <-].
  - rewrite E0 in D. replace (b mod 2 ^ 52)%Z with b by lia. destruct (Z.eqb_spec b 0) as [->|Nb]; [reflexivity|].
    rewrite <- Qmult_assoc. change (2 ^ (-1074) * 16 ^ 13) with (2 ^ (-1074) * 2 ^ 52). rewrite <- two_add. reflexivity.
  - rewrite <- Qmult_assoc. setoid_replace (16 ^ 13) with (2 ^ 52) by reflexivity. rewrite <- two_add.
    replace (b / 2 ^ 52 - 1075 + 52)%Z with (b / 2 ^ 52 - 1023)%Z by lia. reflexivity.
Qed.

Lemma sixteen_add a b : 16 ^ (a + b) == 16 ^ a * 16 ^ b.
Proof. apply Qpower_plus. discriminate. Qed.
Lemma sixteen_pos a : 0 < 16 ^ a.
Proof. apply Qpower_0_lt. reflexivity. Qed.

(** no digit is lost *)
Lemma hex_digits_exact b P M x : (0 <= b < inf_bits)%Z -> (13 <= P)%Z -> hex_digits b P = (M, x) ->
  inject_Z M * 2 ^ x == dval b * 16 ^ P /\ (0 <= M < 2 * 16 ^ P)%Z.
Proof.
  intros Hb HP E. unfold hex_digits in E. destruct (bin_parts b) as [c x0] eqn:Eb.
  replace (13 <=? P)%Z with true in E by (symmetry; apply Z.leb_le; lia). rewrite orb_true_r in E. apply pair_eq in E as [<- <-].
  destruct (bin_parts_range b c x0 Hb Eb) as (Rc & _). pose proof (bin_parts_value b c x0 ltac:(lia) Eb) as V. split.
  - rewrite inject_Z_mult, two_16 by lia. setoid_replace (16 ^ P) with (16 ^ 13 * 16 ^ (P - 13)) by (rewrite <- sixteen_add; replace (13 + (P - 13))%Z with P by lia; reflexivity).
    rewrite Qmult_assoc, V. ring.
  - replace (16 ^ P)%Z with (16 ^ 13 * 16 ^ (P - 13))%Z by (rewrite <- Z.pow_add_r by lia; f_equal; lia).
    pose proof (Z.pow_pos_nonneg 16 (P - 13) ltac:(lia) ltac:(lia)). change (16 ^ 13)%Z with (2 ^ 52)%Z. nia.
Qed.

Lemma near_even_bound n d : (0 < d)%Z -> let m := near_even n d in (- d <= 2 * (n - m * d) <= d /\ (2 * Z.abs (n - m * d) = d -> Z.even m = true))%Z.
Proof.
  intros H m. pose proof (Z.div_mod n d ltac:(lia)) as D. pose proof (Z.mod_pos_bound n d H) as M. unfold m, near_even. set (k := (n / d)%Z) in *.
  assert (E : (n - k * d = n mod d)%Z) by lia.
  destruct (Z.ltb_spec (2 * (n mod d)) d) as [C|C]; [|destruct (Z.ltb_spec d (2 * (n mod d))) as [C'|C']].
  - rewrite E. split; [lia|]. intros T. exfalso. lia.
  - split; [lia|]. intros T. exfalso. lia.
  - destruct (Z.even k) eqn:Ev.
    + split; [lia|]. intros _. exact Ev.
    + split; [lia|]. intros _. rewrite Z.even_add, Ev. reflexivity.
Qed.

Lemma hex_digits_nearest b P M x : (0 < b < inf_bits)%Z -> (1 <= P < 13)%Z -> hex_digits b P = (M, x) -> hex_nearest (dval b) P M x.
Proof.
  intros Hb HP E. unfold hex_digits in E. destruct (bin_parts b) as [c x0] eqn:Eb.
  destruct (bin_parts_range b c x0 ltac:(lia) Eb) as (Rc & _ & Rp). specialize (Rp ltac:(lia)).
  replace (c =? 0)%Z with false in E by (symmetry; apply Z.eqb_neq; lia). replace (13 <=? P)%Z with false in E by (symmetry; apply Z.leb_gt; lia).
  cbn [orb] in E. cbv zeta in E. pose proof (bin_parts_value b c x0 ltac:(lia) Eb) as V.
  pose proof (log2_bounds c ltac:(lia)) as [L1 L2]. pose proof (Z.log2_spec c ltac:(lia)) as [L3 L4]. pose proof (Z.log2_nonneg c) as L0. set (l := Z.log2 c) in *.
  assert (D : (0 < 2 ^ l)%Z) by (apply Z.pow_pos_nonneg; lia).
  pose proof (near_even_bound (c * 16 ^ P) (2 ^ l) D) as [[B1 B2] T]. set (N := near_even (c * 16 ^ P) (2 ^ l)) in *.
  assert (W : dval b == inject_Z c * 2 ^ (x0 - 52)).
  { setoid_replace (inject_Z c * 2 ^ (x0 - 52)) with ((inject_Z c * 2 ^ x0) * 2 ^ (-52)) by (replace (x0 - 52)%Z with (x0 + -52)%Z by lia; rewrite two_add; ring). rewrite <- V.
    rewrite <- Qmult_assoc. setoid_replace (16 ^ 13 * 2 ^ (-52)) with 1 by reflexivity. ring. }
  exists (x0 - 52 + l)%Z, N. pose proof (two_pos (x0 - 52)) as Pu. split; [|split; [|split]].
  - rewrite W. replace (x0 - 52 + l)%Z with (l + (x0 - 52))%Z by lia. replace (l + (x0 - 52) + 1)%Z with (l + 1 + (x0 - 52))%Z by lia.
    rewrite (two_add l), (two_add (l + 1)). split; [apply Qmult_le_r|apply Qmult_lt_r]; assumption.
  - assert (U : dval b * 16 ^ P * 2 ^ (- (x0 - 52 + l)) * inject_Z (2 ^ l) == inject_Z (c * 16 ^ P)).
    { rewrite W, inject_Z_mult, two_16, two_Z by lia. 
      setoid_replace (inject_Z c * 2 ^ (x0 - 52) * 16 ^ P * 2 ^ (- (x0 - 52 + l)) * 2 ^ l) with (inject_Z c * 16 ^ P * (2 ^ (x0 - 52) * 2 ^ (- (x0 - 52 + l)) * 2 ^ l)) by ring.
      rewrite <- !two_add. replace (x0 - 52 + - (x0 - 52 + l) + l)%Z with 0%Z by lia. change (2 ^ 0) with 1. ring. }
    pose proof (inject_pos _ D) as PD. set (y := dval b * 16 ^ P * 2 ^ (- (x0 - 52 + l))) in *.
    assert (B1' : (2 * N * 2 ^ l - 2 ^ l <= 2 * (c * 16 ^ P))%Z) by lia. assert (B2' : (2 * (c * 16 ^ P) <= 2 * N * 2 ^ l + 2 ^ l)%Z) by lia.
    apply inject_le in B1', B2'. rewrite inject_sub, !inject_Z_mult in B1'. rewrite inject_Z_plus, !inject_Z_mult in B2'. rewrite inject_Z_mult in U. change (inject_Z 2) with 2 in *.
    split; apply (Qmult_le_r _ _ _ PD); rewrite U; lra.
  - assert (U : dval b * 16 ^ P * 2 ^ (- (x0 - 52 + l)) * inject_Z (2 ^ l) == inject_Z (c * 16 ^ P)).
    { rewrite W, inject_Z_mult, two_16, two_Z by lia. 
      setoid_replace (inject_Z c * 2 ^ (x0 - 52) * 16 ^ P * 2 ^ (- (x0 - 52 + l)) * 2 ^ l) with (inject_Z c * 16 ^ P * (2 ^ (x0 - 52) * 2 ^ (- (x0 - 52 + l)) * 2 ^ l)) by ring.
      rewrite <- !two_add. replace (x0 - 52 + - (x0 - 52 + l) + l)%Z with 0%Z by lia. change (2 ^ 0) with 1. ring. }
    pose proof (inject_pos _ D) as PD. set (y := dval b * 16 ^ P * 2 ^ (- (x0 - 52 + l))) in *.
    intros Tie. apply T. destruct Tie as [Ty|Ty].
    + assert (Q : inject_Z (2 * (c * 16 ^ P)) == inject_Z (2 * N * 2 ^ l - 2 ^ l)).
      { rewrite inject_sub. rewrite !(inject_Z_mult 2). rewrite <- U, <- Ty, !inject_Z_mult. change (inject_Z 2) with 2. ring. }
      apply (proj1 (inject_Z_injective _ _)) in Q. lia.
    + assert (Q : inject_Z (2 * (c * 16 ^ P)) == inject_Z (2 * N * 2 ^ l + 2 ^ l)).
      { rewrite inject_Z_plus. rewrite !(inject_Z_mult 2). rewrite <- U, Ty, !inject_Z_mult. change (inject_Z 2) with 2. ring. }
      apply (proj1 (inject_Z_injective _ _)) in Q. lia.
  - pose proof (Z.pow_pos_nonneg 16 P ltac:(lia) ltac:(lia)) as P16.
    assert (Nlo : (16 ^ P <= N)%Z) by (apply near_even_ge; [exact D|nia]).
    assert (Nhi : (0 <= N <= 2 * 16 ^ P)%Z) by (apply near_even_range; [exact D|unfold Z.succ in L4; rewrite Z.pow_add_r in L4 by lia; change (2 ^ 1)%Z with 2%Z in L4; nia]).
    destruct (Z.eqb_spec N (2 * 16 ^ P)) as [EN|EN]; apply pair_eq in E as [<- <-].
    + split; [|lia]. rewrite EN, two_succ, inject_Z_mult. change (inject_Z 2) with 2. ring.
    + split; [reflexivity|lia].
Qed.

(** the shortest form keeps the value *)
Lemma drop_hex_min p : forall M, let (G, k) := drop_hex (S p) M in (k = 1 \/ G mod 16 <> 0)%Z.
Proof.
  induction p as [|p IH]; intros M; [left; reflexivity|]. change (drop_hex (S (S p)) M) with (if (M mod 16 =? 0)%Z then drop_hex (S p) (M / 16) else (M, Z.of_nat (S (S p)))).
  destruct (Z.eqb_spec (M mod 16) 0) as [E|E]; [apply IH|right; exact E].
Qed.

Lemma drop_zeros_min p : forall M, let (G, k) := drop_zeros p M in (k = 0 \/ G mod 10 <> 0)%Z.
Proof.
  induction p as [|p IH]; intros M; [left; reflexivity|]. cbn [drop_zeros].
  destruct (Z.eqb_spec (M mod 10) 0) as [E|E]; [apply IH|right; exact E].
Qed.

Lemma drop_zeros_value p : forall M, let (G, k) := drop_zeros p M in (0 <= k <= Z.of_nat p /\ M = G * 10 ^ (Z.of_nat p - k))%Z.
Proof.
  induction p as [|p IH]; intros M; [cbn; lia|]. cbn [drop_zeros].
  destruct (Z.eqb_spec (M mod 10) 0) as [E|E]; [|split; [lia|rewrite Z.sub_diag; lia]].
  specialize (IH (M / 10)%Z). destruct (drop_zeros p (M / 10)) as [G k]. destruct IH as [I1 I2]. split; [lia|].
  pose proof (Z.div_mod M 10 ltac:(lia)) as D. rewrite E in D. replace (Z.of_nat (S p) - k)%Z with (Z.succ (Z.of_nat p - k)) by lia. rewrite Z.pow_succ_r by lia. lia.
Qed.
