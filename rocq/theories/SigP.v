(** Numbers of P significant digits: neighbours and midpoints. *)
From Coq Require Import QArith Qabs Lqa Lia.
From Verif Require Import Base DecSpec FloatSpec FloatQ RoundP SigSpec ShortP ScaleP.
Open Scope Z_scope.

Lemma dec_le M N E : M <= N -> (dec M E <= dec N E)%Q.
Proof. intros H. unfold dec. apply Qmult_le_compat_r; [rewrite <- Zle_Qle; exact H|]. apply Qlt_le_weak, ten_pos. Qed.
Lemma dec_lt_inv M N E : (dec M E < dec N E)%Q -> M < N.
Proof. intros H. destruct (Z_lt_le_dec M N) as [L|L]; [exact L|]. pose proof (dec_le N M E L). lra. Qed.
Lemma dec_up M k j : 0 <= j -> (dec M (k + j) == dec (M * 10 ^ j) k)%Q.
Proof. intros H. unfold dec. rewrite ten_add, inject_Z_mult, ten_Z by exact H. ring. Qed.
Lemma dec_grow M E E' : 0 <= M -> E <= E' -> (dec M E <= dec M E')%Q.
Proof.
  intros H HE. unfold dec. rewrite !(Qmult_comm (inject_Z M)). apply Qmult_le_compat_r; [apply ten_le; exact HE|]. change 0%Q with (inject_Z 0). rewrite <- Zle_Qle. exact H.
Qed.
Lemma dec_sum M N E : (dec (M + N) E == dec M E + dec N E)%Q.
Proof. unfold dec. rewrite inject_Z_plus. ring. Qed.

Section Grid.
  Variable P : Z.
  Hypothesis HP : 1 <= P.

  Definition normal (S : Z) : Prop := 10 ^ (P - 1) <= S < 10 ^ P.

  Lemma tenP : 10 ^ P = 10 * 10 ^ (P - 1).
  Proof. replace P with (Z.succ (P - 1)) at 1 by lia. rewrite Z.pow_succ_r by lia. reflexivity. Qed.
  Lemma ten1 : 1 <= 10 ^ (P - 1).
  Proof. pose proof (Z.pow_pos_nonneg 10 (P - 1)). lia. Qed.

  (** [10^P] units are [10^(P-1)] of the next unit *)
  Lemma dec_carry E : (dec (10 ^ P) E == dec (10 ^ (P - 1)) (E + 1))%Q.
  Proof. rewrite dec_up by lia. rewrite tenP. rewrite Z.mul_comm. reflexivity. Qed.

  Lemma dec_small M E k : M <= 10 ^ P -> E < k -> (dec M E <= dec (10 ^ (P - 1)) k)%Q.
  Proof.
    intros HM HE. apply Qle_trans with (dec (10 ^ P) E); [apply dec_le; exact HM|]. rewrite dec_carry. apply dec_grow; [pose proof ten1|]; lia.
  Qed.

  Definition succ (S k : Z) : Q := dec (S + 1) k.
  Definition pred (S k : Z) : Q := if S =? 10 ^ (P - 1) then dec (10 ^ P - 1) (k - 1) else dec (S - 1) k.

  Lemma above S k M E : normal S -> Z.abs M < 10 ^ P -> (dec S k < dec M E)%Q -> (succ S k <= dec M E)%Q.
  Proof.
    intros HS HM H. destruct (Z_lt_le_dec E k) as [L|L].
    - pose proof (dec_small M E k ltac:(lia) L). pose proof (dec_le (10 ^ (P - 1)) S k ltac:(apply HS)). lra.
    - replace E with (k + (E - k)) in * by lia. rewrite dec_up in * by lia. apply dec_lt_inv in H. apply dec_le. lia.
  Qed.

  Lemma below S k M E : normal S -> Z.abs M < 10 ^ P -> (dec M E < dec S k)%Q -> (dec M E <= pred S k)%Q.
  Proof.
    intros HS HM H. unfold pred. pose proof ten1 as T1. destruct (Z_lt_le_dec E k) as [L|L].
    - assert (G : (dec M E <= dec (10 ^ P - 1) (k - 1))%Q).
      { apply Qle_trans with (dec (10 ^ P - 1) E); [apply dec_le; lia|]. apply dec_grow; [pose proof tenP|]; lia. }
      destruct (Z.eqb_spec S (10 ^ (P - 1))) as [E0|E0]; [exact G|]. apply Qle_trans with (dec (10 ^ (P - 1)) k); [|apply dec_le; unfold normal in HS; lia].
      apply dec_small; lia.
    - replace E with (k + (E - k)) in * by lia. rewrite dec_up in * by lia. apply dec_lt_inv in H.
      destruct (Z.eqb_spec S (10 ^ (P - 1))) as [E0|E0]; [|apply dec_le; lia].
      apply Qle_trans with (dec (S - 1) k); [apply dec_le; lia|]. replace k with (k - 1 + 1) at 1 by lia. rewrite dec_up by lia. apply dec_le. change (10 ^ 1) with 10. pose proof tenP. lia.
  Qed.

  Lemma succ_unit S k : (succ S k == dec S k + 10 ^ k)%Q.
  Proof. unfold succ. rewrite dec_sum. assert (E : (dec 1 k == 10 ^ k)%Q) by (unfold dec; change (inject_Z 1) with 1%Q; ring). rewrite E. reflexivity. Qed.
  Lemma pred_unit S k : normal S -> (dec S k - 10 ^ k <= pred S k < dec S k)%Q.
  Proof.
    intros HS. unfold pred. pose proof (ten_pos k) as T. destruct (Z.eqb_spec S (10 ^ (P - 1))) as [E0|E0].
    - assert (E : (dec S k == dec (10 ^ P) (k - 1))%Q) by (rewrite dec_carry; rewrite E0; replace (k - 1 + 1) with k by lia; reflexivity).
      assert (E1 : (dec (10 ^ P - 1) (k - 1) == dec S k - 10 ^ (k - 1))%Q) by (rewrite E; unfold dec, Z.sub; rewrite inject_Z_plus; change (inject_Z (-(1))) with (-1)%Q; ring).
      rewrite E1. pose proof (ten_pos (k - 1)). pose proof (ten_le (k - 1) k ltac:(lia)). split; lra.
    - assert (E1 : (dec (S - 1) k == dec S k - 10 ^ k)%Q) by (unfold dec, Z.sub; rewrite inject_Z_plus; change (inject_Z (-(1))) with (-1)%Q; ring).
      rewrite E1. split; lra.
  Qed.

  Definition lo (S k : Z) : Q := ((pred S k + dec S k) * (1 # 2))%Q.
  Definition hi (S k : Z) : Q := ((dec S k + succ S k) * (1 # 2))%Q.

  Lemma mid M E : (dec (2 * M + 1) E * (1 # 2) == (dec M E + dec (M + 1) E) * (1 # 2))%Q.
  Proof. unfold dec. rewrite !inject_Z_plus, inject_Z_mult. change (inject_Z 2) with 2%Q. change (inject_Z 1) with 1%Q. ring. Qed.

  Lemma hi_midpoint S k : normal S -> sig_midpoint P (hi S k).
  Proof. intros HS. exists S, k. split; [exact HS|]. unfold hi, succ. rewrite mid. reflexivity. Qed.
  Lemma lo_midpoint S k : normal S -> sig_midpoint P (lo S k).
  Proof.
    intros HS. pose proof ten1. pose proof tenP. unfold lo, pred. destruct (Z.eqb_spec S (10 ^ (P - 1))) as [E0|E0].
    - exists (10 ^ P - 1), (k - 1). split; [lia|]. rewrite mid. replace (10 ^ P - 1 + 1) with (10 ^ P) by lia. rewrite (dec_carry (k - 1)), E0. replace (k - 1 + 1) with k by lia. reflexivity.
    - exists (S - 1), k. unfold normal in HS. split; [lia|]. rewrite mid. replace (S - 1 + 1) with S by lia. reflexivity.
  Qed.

  (** every midpoint is at most [lo] or at least [hi] *)
  Lemma midpoints S k T : normal S -> sig_midpoint P T -> (T <= lo S k \/ hi S k <= T)%Q.
  Proof.
    intros HS (M & E & HM & ET). rewrite mid in ET. pose proof ten1. pose proof tenP. destruct (Qlt_le_dec (dec M E) (dec S k)) as [L|L].
    - left. pose proof (below S k M E HS ltac:(lia) L). pose proof (above M E S k HM ltac:(unfold normal in HS; lia) L) as A. unfold succ in A. unfold lo. lra.
    - right. unfold hi. destruct (Qeq_dec (dec M E) (dec S k)) as [Q|Q].
      + assert (HE : k <= E).
        { destruct (Z_lt_le_dec E k) as [L'|L']; [|exact L']. exfalso. pose proof (dec_small (M + 1) E k ltac:(lia) L') as D. rewrite dec_sum in D.
          assert (E1 : (dec 1 E == 10 ^ E)%Q) by (unfold dec; change (inject_Z 1) with 1%Q; ring). rewrite E1 in D. pose proof (ten_pos E). pose proof (dec_le (10 ^ (P - 1)) S k ltac:(apply HS)). lra. }
        pose proof (ten_le k E HE). rewrite succ_unit. pose proof (succ_unit M E) as U. unfold succ in U. rewrite U in ET. lra.
      + assert (L' : (dec S k < dec M E)%Q) by lra. pose proof (above S k M E HS ltac:(lia) L'). pose proof (dec_le M (M + 1) E ltac:(lia)). pose proof (dec_le S (S + 1) k ltac:(lia)). unfold succ in *. lra.
  Qed.

  (** the numbers nearest to [dec S k] *)
  Lemma nearest_range S k x : normal S -> (nearest_sig x P (dec S k) <-> lo S k <= x <= hi S k)%Q.
  Proof.
    intros HS. pose proof (pred_unit S k HS) as [U1 U2]. pose proof (succ_unit S k) as U3. pose proof (ten_pos k) as T. pose proof ten1 as T1. pose proof tenP as T2. unfold lo, hi. split.
    - intros N. split.
      + assert (G : exists M E, Z.abs M < 10 ^ P /\ (dec M E == pred S k)%Q).
        { unfold pred, normal in *. destruct (Z.eqb_spec S (10 ^ (P - 1))); eexists; eexists; (split; [|reflexivity]); lia. }
        destruct G as (M & E & HM & G). specialize (N M E HM). rewrite G in N.
        destruct (Qlt_le_dec x ((pred S k + dec S k) * (1 # 2))) as [L|L]; [|exact L]. exfalso.
        revert N. apply Qabs_case; intros; revert N; apply Qabs_case; intros; lra.
      + assert (G : exists M E, Z.abs M < 10 ^ P /\ (dec M E == succ S k)%Q).
        { unfold succ, normal in *. destruct (Z.eq_dec (S + 1) (10 ^ P)) as [E0|E0]; [|exists (S + 1), k; split; [lia|reflexivity]].
          exists (10 ^ (P - 1)), (k + 1). split; [lia|]. rewrite E0, dec_carry. reflexivity. }
        destruct G as (M & E & HM & G). specialize (N M E HM). rewrite G in N.
        destruct (Qlt_le_dec ((dec S k + succ S k) * (1 # 2)) x) as [L|L]; [|exact L]. exfalso.
        revert N. apply Qabs_case; intros; revert N; apply Qabs_case; intros; lra.
    - intros [N1 N2] M E HM. destruct (Qlt_le_dec (dec M E) (dec S k)) as [L|L].
      + pose proof (below S k M E HS HM L). apply Qabs_case; intros; apply Qabs_case; intros; lra.
      + destruct (Qeq_dec (dec M E) (dec S k)) as [Q|Q]; [rewrite Q; apply Qle_refl|]. pose proof (above S k M E HS HM ltac:(lra)).
        apply Qabs_case; intros; apply Qabs_case; intros; lra.
  Qed.

  (** a rounded number lies between the midpoints *)
  Lemma rounded_range d S X : sig_half_up d P S X -> (lo S (X - P + 1) <= d < hi S (X - P + 1))%Q.
  Proof.
    intros (X0 & N & [D1 D2] & [H1 H2] & E & HS). set (k := X - P + 1) in *. set (k0 := X0 - P + 1) in *.
    pose proof (ten_pos k0) as T0. pose proof ten1 as T1. pose proof tenP as T2.
    assert (C : (d == d * 10 ^ (P - 1 - X0) * 10 ^ k0)%Q).
    { rewrite <- Qmult_assoc, <- ten_add. replace (P - 1 - X0 + k0) with 0 by (unfold k0; lia). change (10 ^ 0)%Q with 1%Q. ring. }
    assert (B1 : ((inject_Z N - (1 # 2)) * 10 ^ k0 <= d)%Q) by (rewrite C; apply Qmult_le_compat_r; lra).
    assert (B2 : (d < (inject_Z N + (1 # 2)) * 10 ^ k0)%Q) by (rewrite C at 1; apply Qmult_lt_compat_r; assumption).
    assert (V1 : ((inject_Z N - (1 # 2)) * 10 ^ k0 == dec N k0 - (1 # 2) * 10 ^ k0)%Q) by (unfold dec; ring).
    assert (V2 : ((inject_Z N + (1 # 2)) * 10 ^ k0 == dec N k0 + (1 # 2) * 10 ^ k0)%Q) by (unfold dec; ring).
    rewrite V1 in B1. rewrite V2 in B2.
    assert (W1 : (10 ^ X0 == dec (10 ^ (P - 1)) k0)%Q) by (unfold dec; rewrite ten_Z, <- ten_add by lia; replace (P - 1 + k0) with X0 by (unfold k0; lia); reflexivity).
    assert (W2 : (10 ^ (X0 + 1) == dec (10 ^ P) k0)%Q) by (unfold dec; rewrite ten_Z, <- ten_add by lia; replace (P + k0) with (X0 + 1) by (unfold k0; lia); reflexivity).
    rewrite W1 in D1. rewrite W2 in D2.
    assert (N1 : 10 ^ (P - 1) <= N).
    { assert (L : (dec (10 ^ (P - 1)) k0 < dec (N + 1) k0)%Q) by (rewrite dec_sum; assert (O : (dec 1 k0 == 10 ^ k0)%Q) by (unfold dec; change (inject_Z 1) with 1%Q; ring); rewrite O; lra). apply dec_lt_inv in L. lia. }
    assert (N2 : N <= 10 ^ P).
    { assert (L : (dec (N - 1) k0 < dec (10 ^ P) k0)%Q).
      { assert (O : (dec (N - 1) k0 == dec N k0 - 10 ^ k0)%Q) by (unfold dec, Z.sub; rewrite inject_Z_plus; change (inject_Z (-(1))) with (-1)%Q; ring). rewrite O. lra. }
      apply dec_lt_inv in L. lia. }
    destruct (Z.eq_dec N (10 ^ P)) as [EN|EN].
    - assert (ES : S = 10 ^ (P - 1) /\ k = k0 + 1).
      { assert (Q1 : (10 ^ (X0 + 1) <= dec S k < 10 ^ (X0 + 1 + 1))%Q).
        { rewrite E, EN, <- W2. split; [apply Qle_refl|]. pose proof (ten_pos (X0 + 1)). rewrite (ten_add (X0 + 1) 1). change (10 ^ 1)%Q with 10%Q. lra. }
        assert (Q2 : (10 ^ X <= dec S k < 10 ^ (X + 1))%Q).
        { assert (Z1 : (10 ^ X == dec (10 ^ (P - 1)) k)%Q) by (unfold dec; rewrite ten_Z, <- ten_add by lia; replace (P - 1 + k) with X by (unfold k; lia); reflexivity).
          assert (Z2 : (10 ^ (X + 1) == dec (10 ^ P) k)%Q) by (unfold dec; rewrite ten_Z, <- ten_add by lia; replace (P + k) with (X + 1) by (unfold k; lia); reflexivity).
          rewrite Z1, Z2. split; [apply dec_le; lia|]. apply Qle_lt_trans with (dec (10 ^ P - 1) k); [apply dec_le; lia|]. unfold dec. apply Qmult_lt_compat_r; [apply ten_pos|]. rewrite <- Zlt_Qlt. lia. }
        pose proof (ten_between _ _ _ Q1 Q2) as EX. assert (Ek : k = k0 + 1) by (unfold k, k0; lia). split; [|exact Ek].
        rewrite EN, dec_carry, <- Ek in E. apply (dec_inj S (10 ^ (P - 1)) k E). }
      destruct ES as [ES Ek]. unfold lo, hi. pose proof (succ_unit S k) as U. unfold pred. rewrite ES, Z.eqb_refl.
      assert (Ed : (dec (10 ^ (P - 1)) k == dec N k0)%Q) by (rewrite EN, dec_carry, Ek; reflexivity).
      replace (k - 1) with k0 by lia. assert (Ep : (dec (10 ^ P - 1) k0 == dec N k0 - 10 ^ k0)%Q) by (rewrite EN; unfold dec, Z.sub; rewrite inject_Z_plus; change (inject_Z (-(1))) with (-1)%Q; ring).
      rewrite ES in U. rewrite U, Ep, Ed. pose proof (ten_pos k). rewrite <- EN in D2. split; lra.
    - assert (ES : S = N /\ k = k0).
      { assert (G : forall A j Y, normal A -> j = Y - P + 1 -> (10 ^ Y <= dec A j < 10 ^ (Y + 1))%Q).
        { intros A j Y HA ->. assert (Z1 : (10 ^ Y == dec (10 ^ (P - 1)) (Y - P + 1))%Q) by (unfold dec; rewrite ten_Z, <- ten_add by lia; replace (P - 1 + (Y - P + 1)) with Y by lia; reflexivity).
          assert (Z2 : (10 ^ (Y + 1) == dec (10 ^ P) (Y - P + 1))%Q) by (unfold dec; rewrite ten_Z, <- ten_add by lia; replace (P + (Y - P + 1)) with (Y + 1) by lia; reflexivity).
          rewrite Z1, Z2. unfold normal in HA. split; [apply dec_le; lia|]. apply Qle_lt_trans with (dec (10 ^ P - 1) (Y - P + 1)); [apply dec_le; lia|]. unfold dec. apply Qmult_lt_compat_r; [apply ten_pos|]. rewrite <- Zlt_Qlt. lia. }
        pose proof (G S k X HS eq_refl) as G1. pose proof (G N k0 X0 ltac:(unfold normal; lia) eq_refl) as G2. rewrite <- E in G2.
        pose proof (ten_between _ _ _ G1 G2) as EX. assert (Ek : k = k0) by (unfold k, k0; lia). split; [|exact Ek]. rewrite Ek in E. apply (dec_inj _ _ _ E). }
      destruct ES as [-> Ek]. rewrite Ek in *. unfold lo, hi. rewrite (succ_unit N k0). unfold pred. destruct (Z.eqb_spec N (10 ^ (P - 1))) as [E1|E1].
      + assert (G : (dec (10 ^ P - 1) (k0 - 1) <= dec N k0)%Q) by (rewrite E1; apply dec_small; lia). rewrite <- E1 in D1. split; lra.
      + assert (O : (dec (N - 1) k0 == dec N k0 - 10 ^ k0)%Q) by (unfold dec, Z.sub; rewrite inject_Z_plus; change (inject_Z (-(1))) with (-1)%Q; ring). rewrite O. split; lra.
  Qed.

  Lemma sig_nearest x d S X : sig_half_up d P S X -> (nearest_sig x P (dec S (X - P + 1)) <-> ~ midpoint_between x d P).
  Proof.
    intros H. pose proof (rounded_range d S X H) as [R1 R2]. assert (HS : normal S) by (destruct H as (? & ? & _ & _ & _ & HS); exact HS).
    rewrite (nearest_range S _ x HS). set (k := X - P + 1) in *. split.
    - intros [N1 N2] (T & HT & [[A B]|[A B]]); destruct (midpoints S k T HS HT); lra.
    - intros N. split.
      + destruct (Qlt_le_dec x (lo S k)) as [L|L]; [|exact L]. exfalso. apply N. exists (lo S k). split; [apply lo_midpoint; exact HS|]. left. split; assumption.
      + destruct (Qlt_le_dec (hi S k) x) as [L|L]; [|exact L]. exfalso. apply N. exists (hi S k). split; [apply hi_midpoint; exact HS|]. right. split; assumption.
  Qed.

  Lemma sig_error d S X : sig_half_up d P S X -> (Qabs (dec S (X - P + 1) - d) <= (1 # 2) * 10 ^ (X - P + 1))%Q.
  Proof.
    intros H. pose proof (rounded_range d S X H) as [R1 R2]. assert (HS : normal S) by (destruct H as (? & ? & _ & _ & _ & HS); exact HS).
    unfold lo, hi in *. pose proof (pred_unit S (X - P + 1) HS). pose proof (succ_unit S (X - P + 1)). apply Qabs_case; intros; lra.
  Qed.
End Grid.
