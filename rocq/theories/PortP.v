(** Proofs for C98: rounding to even; counting characters. *)
From Coq Require Import QArith Qabs Qpower Lqa Lia.
From Verif Require Import Base Digits ContextM CompilerM FormatterM TraitsM ImplM FmtSpec FmtP DecSpec RoundP FloatSpec FPDecP DirSpec ScaleSpec ValueSpec WholeSpec
  FloatQ ReadFP ReadFP2 ReadFP3 SigP IntP AgainP2 AgainP3 PortSpec.
Open Scope Z_scope.

(** ** Rounding to even *)

Lemma even_unique x p N N' : even_at x p N -> even_at x p N' -> N = N'.
Proof.
  intros [[A1 A2] A3] [[B1 B2] B3]. set (y := (x * 10 ^ p)%Q) in *.
  assert (L : forall N N', (inject_Z N - (1 # 2) <= y <= inject_Z N + (1 # 2))%Q -> ((y == inject_Z N - (1 # 2))%Q \/ (y == inject_Z N + (1 # 2))%Q -> Z.even N = true) ->
    (inject_Z N' - (1 # 2) <= y <= inject_Z N' + (1 # 2))%Q -> ((y == inject_Z N' - (1 # 2))%Q \/ (y == inject_Z N' + (1 # 2))%Q -> Z.even N' = true) -> ~ N < N').
  { clear. intros N N' [A1 A2] A3 [B1 B2] B3 L. assert (G : (inject_Z N + 1 <= inject_Z N')%Q) by (change 1%Q with (inject_Z 1); rewrite <- inject_Z_plus, <- Zle_Qle; lia).
    assert (E1 : (y == inject_Z N + (1 # 2))%Q) by lra. assert (E2 : (y == inject_Z N' - (1 # 2))%Q) by lra.
    assert (E : (inject_Z (N + 1) == inject_Z N')%Q) by (rewrite inject_Z_plus; change (inject_Z 1) with 1%Q; lra). apply (proj1 (inject_Z_injective _ _)) in E.
    specialize (A3 (or_intror E1)). specialize (B3 (or_introl E2)). rewrite <- E, Z.even_add, A3 in B3. discriminate. }
  pose proof (L N N' (conj A1 A2) A3 (conj B1 B2) B3). pose proof (L N' N (conj B1 B2) B3 (conj A1 A2) A3). lia.
Qed.

Lemma even_of_q (y : Q) : exists N, (inject_Z N - (1 # 2) <= y <= inject_Z N + (1 # 2))%Q /\ ((y == inject_Z N - (1 # 2))%Q \/ (y == inject_Z N + (1 # 2))%Q -> Z.even N = true).
Proof.
  destruct y as [n d]. exists (near_even n (Zpos d)). pose proof (near_even_bound n (Zpos d) eq_refl) as [[B1 B2] T]. set (m := near_even n (Zpos d)) in *.
  unfold Qle, Qeq, Qminus, Qplus, Qopp, inject_Z. cbn [Qnum Qden]. rewrite ?Pos2Z.inj_mul. split; [split; lia|]. intros [E|E]; apply T; lia.
Qed.
Lemma even_exists x p : exists N, even_at x p N.
Proof. destruct (even_of_q (x * 10 ^ p)) as (N & A & B). exists N. split; assumption. Qed.

Lemma even_eq x y p N : (x == y)%Q -> even_at x p N -> even_at y p N.
Proof. unfold even_at. intros E [A B]. rewrite E in A, B. split; assumption. Qed.

Lemma even_nonneg x p N : (0 <= x)%Q -> even_at x p N -> 0 <= N.
Proof.
  intros H [[_ A] _]. pose proof (ten_pos p). assert (P : (0 <= x * 10 ^ p)%Q) by (apply Qmult_le_0_compat; lra).
  assert (G : (inject_Z (-1) < inject_Z N)%Q) by (change (inject_Z (-1)) with (-1 # 1)%Q; lra). rewrite <- Zlt_Qlt in G. lia.
Qed.

Lemma decade_exists (x : Q) : (0 < x)%Q -> exists X, (10 ^ X <= x < 10 ^ (X + 1))%Q.
Proof.
  destruct x as [n d]. intros H. assert (Hn : 0 < n) by (unfold Qlt in H; cbn in H; lia).
  destruct (ndigits_bounds n Hn) as (_ & B1 & B2). destruct (ndigits_bounds (Zpos d) eq_refl) as (_ & D1 & D2).
  set (a := ndigits n) in *. set (k := ndigits (Zpos d)) in *. assert (Ha : 1 <= a) by (unfold a; pose proof (ndigits_bounds n Hn); lia). assert (Hk : 1 <= k) by (unfold k; pose proof (ndigits_bounds (Zpos d) eq_refl); lia).
  assert (E : (n # d == inject_Z n * / inject_Z (Zpos d))%Q) by (unfold Qeq, Qmult, Qinv, inject_Z; cbn; lia).
  assert (Pd : (0 < inject_Z (Zpos d))%Q) by reflexivity.
  assert (M : ((n # d) * inject_Z (Zpos d) == inject_Z n)%Q) by (rewrite E; field; intro Z; rewrite Z in Pd; discriminate).
  assert (L : (10 ^ (a - 1 - k) <= n # d)%Q).
  { apply (Qmult_le_r _ _ _ Pd). rewrite M. apply Qle_trans with (10 ^ (a - 1 - k) * inject_Z (10 ^ k))%Q.
    - rewrite !(Qmult_comm (10 ^ (a - 1 - k))). apply Qmult_le_compat_r; [rewrite <- Zle_Qle; lia|apply Qlt_le_weak, ten_pos].
    - rewrite ten_Z by lia. rewrite <- ten_add. replace (a - 1 - k + k) with (a - 1) by lia. rewrite <- ten_Z by lia. rewrite <- Zle_Qle. exact B1. }
  assert (U : (n # d < 10 ^ (a - k + 1))%Q).
  { apply (Qmult_lt_r _ _ _ Pd). rewrite M. apply Qlt_le_trans with (10 ^ (a - k + 1) * inject_Z (10 ^ (k - 1)))%Q.
    - rewrite (ten_Z (k - 1)) by lia. rewrite <- ten_add. replace (a - k + 1 + (k - 1)) with a by lia. rewrite <- ten_Z by lia. rewrite <- Zlt_Qlt. exact B2.
    - rewrite !(Qmult_comm (10 ^ (a - k + 1))). apply Qmult_le_compat_r; [rewrite <- Zle_Qle; lia|apply Qlt_le_weak, ten_pos]. }
  destruct (Qlt_le_dec (n # d) (10 ^ (a - k))) as [C|C].
  - exists (a - 1 - k). replace (a - 1 - k + 1) with (a - k) by lia. split; assumption.
  - exists (a - k). split; assumption.
Qed.

Lemma even_decade x X k N : even_at x k N -> (10 ^ X <= x < 10 ^ (X + 1))%Q -> 0 <= X + k -> 10 ^ (X + k) <= N <= 10 ^ (X + 1 + k).
Proof.
  intros [[A1 A2] _] [D1 D2] H. pose proof (ten_pos k) as Pk.
  assert (L : (inject_Z (10 ^ (X + k)) <= x * 10 ^ k)%Q) by (rewrite ten_Z by lia; rewrite ten_add; apply Qmult_le_compat_r; lra).
  assert (U : (x * 10 ^ k <= inject_Z (10 ^ (X + 1 + k)))%Q) by (rewrite ten_Z by lia; rewrite ten_add; apply Qmult_le_compat_r; lra).
  split.
  - assert (G : (inject_Z (10 ^ (X + k)) < inject_Z (N + 1))%Q) by (rewrite inject_Z_plus; change (inject_Z 1) with 1%Q; lra). rewrite <- Zlt_Qlt in G. lia.
  - assert (G : (inject_Z N < inject_Z (10 ^ (X + 1 + k) + 1))%Q) by (rewrite inject_Z_plus; change (inject_Z 1) with 1%Q; lra). rewrite <- Zlt_Qlt in G. lia.
Qed.

Lemma sig_even_exists x P : 1 <= P -> (0 < x)%Q -> exists S X, sig_even x P S X.
Proof.
  intros HP Hx. destruct (decade_exists x Hx) as [X0 D]. destruct (even_exists x (P - 1 - X0)) as [N HN].
  pose proof (even_decade x X0 _ N HN D ltac:(lia)) as R. replace (X0 + (P - 1 - X0)) with (P - 1) in R by lia. replace (X0 + 1 + (P - 1 - X0)) with P in R by lia.
  pose proof (tenP P HP) as T. pose proof (ten1 P HP) as T1. destruct (Z.eq_dec N (10 ^ P)) as [E|E].
  - exists (10 ^ (P - 1)), (X0 + 1), X0, N. split; [exact D|]. split; [exact HN|]. split; [|lia]. rewrite E, (dec_carry P HP). replace (X0 + 1 - P + 1) with (X0 - P + 1 + 1) by lia. reflexivity.
  - exists N, X0, X0, N. split; [exact D|]. split; [exact HN|]. split; [reflexivity|lia].
Qed.

Lemma sig_even_unique x P S X S' X' : 1 <= P -> sig_even x P S X -> sig_even x P S' X' -> S = S' /\ X = X'.
Proof.
  intros HP (X0 & N & A1 & A2 & A3 & A4) (X0' & N' & B1 & B2 & B3 & B4). pose proof (decade_unique _ _ _ A1 B1) as <-. pose proof (even_unique _ _ _ _ A2 B2) as <-.
  apply (sig_of_value S X S' X' P HP A4 B4). rewrite A3, B3. reflexivity.
Qed.
Lemma sig_even_pos x P S X : sig_even x P S X -> (0 < x)%Q.
Proof. intros (X0 & N & [A _] & _). pose proof (ten_pos X0). lra. Qed.

(** the midpoints that matter *)
Lemma apart_midpoint x d p N M : half_up_at d p N -> even_at x p M -> (N <> M <-> midpoint_apart x d p).
Proof.
  intros [A1 A2] [[B1 B2] B3]. unfold midpoint_apart. set (u := (d * 10 ^ p)%Q) in *. set (y := (x * 10 ^ p)%Q) in *. clearbody u y.
  assert (I : forall a b, a < b -> (inject_Z a + 1 <= inject_Z b)%Q) by (intros a b L; change 1%Q with (inject_Z 1); rewrite <- inject_Z_plus, <- Zle_Qle; lia).
  assert (One : forall a, (inject_Z (a - 1) == inject_Z a - 1)%Q) by (intros a; unfold Z.sub; rewrite inject_Z_plus; change (inject_Z (- (1))) with (-1 # 1)%Q; lra).
  split.
  - intros Ne. destruct (Z.lt_trichotomy N M) as [L|[L|L]]; [|tauto|].
    + apply I in L. destruct (Qlt_le_dec (inject_Z M - (1 # 2)) y) as [C|C].
      * exists (M - 1). cbv zeta. pose proof (One M). right; left. lra.
      * assert (E : (y == inject_Z M - (1 # 2))%Q) by lra. specialize (B3 (or_introl E)). exists (M - 1). cbv zeta. pose proof (One M). right; right.
        split; [lra|]. assert (Ev : Z.even (M - 1) = false) by (rewrite Z.even_sub, B3; reflexivity). rewrite Ev. lra.
    + apply I in L. destruct (Qlt_le_dec y (inject_Z M + (1 # 2))) as [C|C].
      * exists M. cbv zeta. left. lra.
      * assert (E : (y == inject_Z M + (1 # 2))%Q) by lra. specialize (B3 (or_intror E)). exists M. cbv zeta. right; right. split; [exact E|]. rewrite B3. lra.
  - intros (K & H) ->. cbv zeta in H.
    assert (LM : forall a b, (inject_Z a < inject_Z b + 1)%Q -> a <= b).
    { intros a b L. change 1%Q with (inject_Z 1) in L. rewrite <- inject_Z_plus, <- Zlt_Qlt in L. lia. }
    destruct H as [H|[H|[E H]]].
    + assert (M <= K) by (apply LM; lra). assert (K + 1 <= M) by (apply LM; rewrite inject_Z_plus; change (inject_Z 1) with 1%Q; lra). lia.
    + assert (M <= K) by (apply LM; lra). assert (K + 1 <= M) by (apply LM; rewrite inject_Z_plus; change (inject_Z 1) with 1%Q; lra). lia.
    + assert (C : M = K \/ M = K + 1).
      { assert (M <= K + 1) by (apply LM; rewrite inject_Z_plus; change (inject_Z 1) with 1%Q; lra). assert (K <= M) by (apply LM; lra). lia. }
      destruct C as [-> | ->].
      * specialize (B3 (or_intror E)). rewrite B3 in H. lra.
      * assert (Ev : Z.even (K + 1) = true) by (apply B3; left; rewrite inject_Z_plus; change (inject_Z 1) with 1%Q; lra). rewrite Z.even_add in Ev. cbn in Ev.
        pose proof (One (K + 1)) as O1. replace (K + 1 - 1) with K in O1 by lia. destruct (Z.even K); [discriminate|]. lra.
Qed.
