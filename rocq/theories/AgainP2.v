(** Rounding again: the general case, the grid, and the least doubles together. *)
From Coq Require Import QArith Qabs Qpower Lqa.
From Verif Require Import Base Digits ContextM CompilerM GrammarSpec FmtSpec FmtP DecSpec RoundP FloatSpec FPDecP FloatP CastP NearP FloatQ PropsDouble PropsFloat ReadFSpec ReadFP ReadFP2 ReadFP3 MathM MathP DecimalM GCheck CertCheck IrrCheck SchubM SchubP AgainCheck AgainP AgainSpec.
Open Scope Q_scope.

(** what is claimed of the second decimal: it rounds to the same number, after the point and in significant digits *)
Definition again (m : Z) (y y' : Q) (k N P : Z) : Prop :=
  half_up_at y' k N /\ ((1 <= P)%Z -> ~ (m = 21 /\ P = 2)%Z -> forall S X, sig_half_up y P S X -> sig_half_up y' P S X).

Lemma exact_half_up N k : half_up_at (dec N (- k)) k N.
Proof.
  unfold half_up_at, dec. assert (E : inject_Z N * 10 ^ (- k) * 10 ^ k == inject_Z N) by (rewrite <- Qmult_assoc, (Qmult_comm (10 ^ (- k))), ten_cancel; ring).
  rewrite E. split; lra.
Qed.
Lemma exact_sig S X P : (1 <= P)%Z -> (10 ^ (P - 1) <= S < 10 ^ P)%Z -> sig_half_up (dec S (X - P + 1)) P S X.
Proof.
  intros HP [L1 L2]. exists X, S. split; [|split; [|split; [reflexivity|lia]]].
  - unfold dec. pose proof (ten_pos (X - P + 1)) as Pp. assert (Y1 : X = (P - 1 + (X - P + 1))%Z) by lia. assert (Y2 : (X + 1 = P + (X - P + 1))%Z) by lia. set (w := (X - P + 1)%Z) in *. clearbody w.
    rewrite Y2, Y1. rewrite (ten_add (P - 1) w), (ten_add P w). rewrite <- (ten_Z P), <- (ten_Z (P - 1)) by lia.
    split; [apply Qmult_le_r|apply Qmult_lt_r]; try assumption; [rewrite <- Zle_Qle|rewrite <- Zlt_Qlt]; assumption.
  - replace (X - P + 1)%Z with (- (P - 1 - X))%Z by lia. apply exact_half_up.
Qed.
Lemma again_eq m y y' X k N P : 10 ^ X <= y < 10 ^ (X + 1) -> (P = X + 1 + k)%Z -> half_up_at y k N -> y' == dec N (- k) -> again m y y' k N P.
Proof.
  intros HX EP HN E. split; [apply (half_up_eq (dec N (- k))); [symmetry; exact E|apply exact_half_up]|].
  intros HP _ S X' H. apply (sig_half_up_eq (dec S (X' - P + 1))); [|apply exact_sig; [exact HP|destruct H as (_ & _ & _ & _ & _ & H); exact H]].
  destruct H as (X0 & N0 & H1 & H2 & H3 & _). rewrite H3, E. pose proof (decade_unique _ _ _ HX H1) as <-. replace (P - 1 - X)%Z with k in H2 by lia.
  pose proof (half_up_unique _ _ _ _ HN H2) as <-. replace (X - P + 1)%Z with (- k)%Z by lia. reflexivity.
Qed.
Lemma again_same m y y' k N P : half_up_at y k N -> y' == y -> again m y y' k N P.
Proof.
  intros HN E. split; [apply (half_up_eq y); [symmetry; exact E|exact HN]|]. intros _ _ S X H. apply (sig_half_up_eq y); [symmetry; exact E|exact H].
Qed.

(** rounding to fewer than three digits *)
Lemma half_up_small y X k N : half_up_at y k N -> 0 < y -> 10 ^ X <= y < 10 ^ (X + 1) -> (X + 1 + k <= 2)%Z -> (0 < N)%Z -> (N <= 100 /\ 0 <= X + 1 + k)%Z.
Proof.
  intros [H1 H2] Hy [_ D2] HP HN. pose proof (ten_pos k) as T.
  assert (B : y * 10 ^ k < 10 ^ (X + 1 + k)) by (rewrite ten_add; apply Qmult_lt_compat_r; assumption).
  split.
  - pose proof (ten_le (X + 1 + k) 2 HP) as L. change (10 ^ 2) with (inject_Z 100) in L.
    assert (C : inject_Z (N - 1) < inject_Z 100) by (unfold Z.sub; rewrite inject_Z_plus; change (inject_Z (- (1))) with (- (1)); lra). rewrite <- Zlt_Qlt in C. lia.
  - destruct (Z_le_gt_dec 0 (X + 1 + k)) as [L|L]; [exact L|]. exfalso. pose proof (ten_le (X + 1 + k) (-1) ltac:(lia)) as L2. change (10 ^ (-1)) with (1 # 10) in L2.
    assert (inject_Z 1 <= inject_Z N) by (rewrite <- Zle_Qle; lia). change (inject_Z 1) with 1 in *. lra.
Qed.
Lemma small_digits N e : (0 < N <= 100)%Z -> exists g j, (0 < g < 10 ^ 2)%Z /\ dec N e == dec g j.
Proof.
  intros H. destruct (Z.eq_dec N 100) as [->|Ne].
  - exists 1%Z, (e + 2)%Z. split; [lia|]. change 100%Z with (1 * 10 ^ 2)%Z. rewrite dec_shift by lia. reflexivity.
  - exists N, e. split; [lia|reflexivity].
Qed.

Lemma tiny_unit : (201 # 2) * 2 ^ (-1074) < dec 497 (-324) /\ (3 # 4) * 2 ^ (-1074) < dec 49 (-325).
Proof. vm_compute. split; reflexivity. Qed.

Lemma dval_small m : (0 <= m < 2 ^ 52)%Z -> dval m == inject_Z m * 2 ^ (-1074).
Proof. intros H. rewrite dval_sig by lia. unfold RoundP.sig, expo. rewrite Z.div_small, Z.mod_small by lia. reflexivity. Qed.
Lemma inside_ok b i N : (0 < i <= 151)%Z -> inside (anum (-1075) b) (aden (-1075) b) i N = true -> rounds_to (dec N b) i.
Proof.
  intros Hi H. unfold inside in H. apply andb_prop in H as [H1 H2]. apply Z.ltb_lt in H1, H2. pose proof (aden_pos (-1075) b) as Dp.
  set (d := aden (-1075) b) in *. set (n := anum (-1075) b) in *.
  assert (Fr : 2 ^ (-1075) * inject_Z d == inject_Z n * 10 ^ b).
  { unfold n, d. rewrite alpha_frac. unfold alpha. pose proof (ten_cancel b) as C. rewrite <- (Qmult_1_r (2 ^ (-1075) * inject_Z (aden (-1075) b))), <- C. ring. }
  assert (Dq : 0 < inject_Z d) by (change 0 with (inject_Z 0); rewrite <- Zlt_Qlt; exact Dp). pose proof (ten_pos b) as P.
  assert (U1 : inject_Z (2 * i - 1) * 2 ^ (-1075) < dec N b).
  { apply (Qmult_lt_r _ _ (inject_Z d) Dq). rewrite Zlt_Qlt, !inject_Z_mult in H1. unfold dec.
    setoid_replace (inject_Z (2 * i - 1) * 2 ^ (-1075) * inject_Z d) with (inject_Z (2 * i - 1) * (2 ^ (-1075) * inject_Z d)) by ring. rewrite Fr.
    setoid_replace (inject_Z (2 * i - 1) * (inject_Z n * 10 ^ b)) with (inject_Z (2 * i - 1) * inject_Z n * 10 ^ b) by ring.
    setoid_replace (inject_Z N * 10 ^ b * inject_Z d) with (inject_Z N * inject_Z d * 10 ^ b) by ring. apply Qmult_lt_compat_r; assumption. }
  assert (U2 : dec N b < inject_Z (2 * i + 1) * 2 ^ (-1075)).
  { apply (Qmult_lt_r _ _ (inject_Z d) Dq). rewrite Zlt_Qlt, !inject_Z_mult in H2. unfold dec.
    setoid_replace (inject_Z (2 * i + 1) * 2 ^ (-1075) * inject_Z d) with (inject_Z (2 * i + 1) * (2 ^ (-1075) * inject_Z d)) by ring. rewrite Fr.
    setoid_replace (inject_Z (2 * i + 1) * (inject_Z n * 10 ^ b)) with (inject_Z (2 * i + 1) * inject_Z n * 10 ^ b) by ring.
    setoid_replace (inject_Z N * 10 ^ b * inject_Z d) with (inject_Z N * inject_Z d * 10 ^ b) by ring. apply Qmult_lt_compat_r; assumption. }
  apply rounds_inside; [unfold inf_bits; lia|]. rewrite (dval_small i), (dval_small (i - 1)), (dval_small (i + 1)) by lia.
  pose proof (two_succ (-1075)) as T. change (-1075 + 1)%Z with (-1074)%Z in T. rewrite T.
  unfold Z.sub in *. rewrite ?inject_Z_plus, ?inject_Z_mult in *. change (inject_Z 2) with 2 in *. change (inject_Z 1) with 1 in *. change (inject_Z (- (1))) with (- (1)) in *. split; lra.
Qed.

Section Small.
  Variables (m f e X k N m' f' e' : Z).
  Hypothesis Hm : (0 < m < inf_bits)%Z.
  Hypothesis Rm : right_decimal m f e.
  Hypothesis HX : 10 ^ X <= dec f e < 10 ^ (X + 1).
  Hypothesis HP : (X + 1 + k <= 2)%Z.
  Hypothesis HN : half_up_at (dec f e) k N.
  Hypothesis N0 : (0 < N)%Z.
  Hypothesis Off : forall M, ~ dec f e == dec M (- k).
  Hypothesis Hm' : (0 < m' < inf_bits)%Z.
  Hypothesis Rx : rounds_to (dec N (- k)) m'.
  Hypothesis Rm' : right_decimal m' f' e'.

  Lemma s_pos : 0 < dec f e. Proof. destruct HX as [H _]. pose proof (ten_pos X). lra. Qed.
  Lemma half_more : dec f e < (3 # 2) * dec N (- k).
  Proof.
    pose proof (half_up_near _ _ _ HN) as [_ H]. pose proof (dec_mono 1 N (- k) ltac:(lia)) as L. rewrite dec_one in L. lra.
  Qed.
  Lemma tiny_m : (m' <= 100)%Z -> (m <= 151)%Z.
  Proof.
    intros L. destruct (Z_le_gt_dec m 151) as [K|K]; [exact K|]. exfalso. destruct (rounds_ends _ _ Hm' Rx) as [_ H1]. destruct Rm as (_ & R & _). destruct (rounds_ends _ _ Hm R) as [H2 _].
    pose proof (dval_le 152 m ltac:(lia)) as A1. pose proof (dval_le 151 (m - 1) ltac:(lia)) as A2. pose proof (dval_le m' 100 ltac:(lia)) as A3. pose proof (dval_le (m' + 1) 101 ltac:(lia)) as A4.
    rewrite (dval_small 152) in A1 by lia. rewrite (dval_small 151) in A2 by lia. rewrite (dval_small 100) in A3 by lia. rewrite (dval_small 101) in A4 by lia.
    change (inject_Z 152) with 152 in *. change (inject_Z 151) with 151 in *. change (inject_Z 100) with 100 in *. change (inject_Z 101) with 101 in *.
    pose proof half_more. pose proof (two_pos (-1074)). lra.
  Qed.
  Lemma large_again : (100 < m')%Z -> dec f' e' == dec N (- k).
  Proof.
    intros L. destruct (half_up_small _ _ _ _ HN s_pos HX HP N0) as [N1 _]. destruct (small_digits N (- k) ltac:(lia)) as (g & j & Hg & E).
    destruct Rm' as (_ & R' & Sh & _). assert (Rg : rounds_to (dec g j) m') by (apply (rounds_eq (dec N (- k))); assumption).
    apply (few_digits m' 2); [exact Hm'| |exact (Sh g j 2%Z Hg Rg)|exists g, j; split; assumption|exact R'|exact Rx].
    apply Z.min_glb_lt; [exact L|reflexivity].
  Qed.
  Lemma tiny_again : (m' <= 100)%Z -> again m (dec f e) (dec f' e') k N (X + 1 + k).
  Proof.
    intros L. destruct (half_up_small _ _ _ _ HN s_pos HX HP N0) as [N1 P0]. destruct (tiny_at m ltac:(pose proof (tiny_m L); lia)) as (f1 & e1 & S1 & K).
    pose proof (shortest_right m f1 e1 Hm S1) as R1. pose proof (right_unique m f e f1 e1 Rm R1) as E1. assert (F1 : (0 < f1)%Z) by (destruct R1 as (F1 & _); lia).
    specialize (K (X + 1 + k)%Z ltac:(lia)). unfold tiny_one in K. cbv zeta in K.
    assert (Eb : (ndigits f1 + e1 - (X + 1 + k) = - k)%Z).
    { pose proof (dec_decade f1 e1 F1) as D. rewrite <- E1 in D. pose proof (decade_unique _ _ (ndigits f1 + e1 - 1) HX) as U. replace (ndigits f1 + e1 - 1 + 1)%Z with (ndigits f1 + e1)%Z in U by lia. specialize (U D). lia. }
    rewrite Eb in K. assert (En : hup f1 (- k - e1) = N).
    { apply (half_up_unique (dec f1 e1) k); [replace (- k - e1)%Z with (- (e1 + k))%Z by lia; apply hup_half_up; lia|apply (half_up_eq (dec f e)); assumption]. }
    rewrite En in K. destruct (Z.eqb_spec N 0) as [Z0|_]; [lia|].
    destruct (same10 f1 e1 N (- k)) eqn:Sa; [destruct (Off N); rewrite E1; apply same10_ok; exact Sa|].
    destruct (less10 497 (-324) N (- k)) eqn:Le.
    { exfalso. apply less10_ok in Le. destruct (rounds_ends _ _ Hm' Rx) as [_ H1]. pose proof (dval_le m' 100 ltac:(lia)) as A3. pose proof (dval_le (m' + 1) 101 ltac:(lia)) as A4.
      rewrite (dval_small 100) in A3 by lia. rewrite (dval_small 101) in A4 by lia. change (inject_Z 100) with 100 in *. change (inject_Z 101) with 101 in *. destruct tiny_unit as [T _]. lra. }
    destruct (existsb _ _) eqn:Ex.
    - apply is_decimal_in in Ex as (i & g & j & Hi & Sh & Sa'). pose proof (shortest_right i g j ltac:(unfold inf_bits; lia) Sh) as Ri.
      assert (Ei : i = m').
      { apply (rounds_unique (dec N (- k))); [unfold inf_bits; lia|lia| |exact Rx]. destruct Ri as (_ & Ri & _). apply (rounds_eq (dec g j)); [apply same10_ok; exact Sa'|exact Ri]. }
      apply (again_eq m _ _ X); [exact HX|reflexivity|exact HN|]. rewrite <- (same10_ok _ _ _ _ Sa'). apply (right_unique m'); [exact Rm'|rewrite <- Ei; exact Ri].
    - apply rounds_again_in in K; [|intros i o Hi; assert (Li : (i < 151)%nat) by (rewrite <- (shortests_length 151 1); apply nth_error_Some; intros K0; rewrite Hi in K0; discriminate K0);
        rewrite shortests_nth in Hi by exact Li; apply some_eq in Hi; symmetry; exact Hi].
      destruct K as (i & g & j & Hi & Sh & In & Hh & Hs). assert (Hi' : (0 < i <= 151)%Z) by (unfold zlen in Hi; rewrite shortests_length in Hi; lia).
      pose proof (shortest_right i g j ltac:(unfold inf_bits; lia) Sh) as Ri. assert (Ei : i = m') by (apply (rounds_unique (dec N (- k))); [unfold inf_bits; lia|lia|apply inside_ok; assumption|exact Rx]).
      rewrite Ei in Ri. pose proof (right_unique m' f' e' g j Rm' Ri) as E2. assert (G0 : (0 < g)%Z) by (destruct Ri as (G0 & _); lia). split.
      + apply (half_up_eq (dec g j)); [symmetry; exact E2|]. rewrite <- Hh. replace (- k - j)%Z with (- (j + k))%Z by lia. apply hup_half_up. lia.
      + intros Q1 Q2 S X' H. destruct Hs as [Hs|[Hs|Hs]]; [lia|contradiction|]. destruct (FloatSpec.sig f1 e1 (X + 1 + k)) as [S2 X2] eqn:Sg.
        pose proof (sig_right f1 e1 _ S2 X2 F1 Q1 Sg) as H2. pose proof (sig_right g j _ S2 X2 G0 Q1 Hs) as H3. apply (sig_half_up_eq _ _ _ _ _ E1) in H.
        destruct (sig_half_up_unique _ _ _ _ _ _ Q1 H H2) as [-> ->]. apply (sig_half_up_eq (dec g j)); [symmetry; exact E2|exact H3].
  Qed.
End Small.

(** ** together *)

Section All.
  Variables (m f e X k N m' f' e' : Z).
  Hypothesis Hm : (0 < m < inf_bits)%Z.
  Hypothesis Rm : right_decimal m f e.
  Hypothesis HX : 10 ^ X <= dec f e < 10 ^ (X + 1).
  Hypothesis HN : half_up_at (dec f e) k N.
  Hypothesis N0 : (0 < N)%Z.
  Hypothesis Rx : rounds_to (dec N (- k)) m'.
  Hypothesis St : stray m k = false.

  Lemma not_zero : m' <> 0%Z.
  Proof.
    intros E. rewrite E in Rx. destruct (Rx 1%Z ltac:(unfold inf_bits; lia)) as [H _]. apply near_above in H; [|apply dval_lt; lia]. rewrite half_sum in H.
    rewrite (dval_small 0), (dval_small 1) in H by lia. change (inject_Z 0) with 0 in H. change (inject_Z 1) with 1 in H.
    pose proof (half_more f e k N HN N0) as M. pose proof (two_pos (-1074)) as T. destruct (Z.eq_dec m 1) as [E1|E1].
    - destruct tiny_unit as [_ U]. rewrite E1 in Rm. rewrite (right_unique 1 f e 49 (-325) Rm tiny_1) in M. lra.
    - destruct Rm as (_ & R & _). destruct (rounds_ends _ _ Hm R) as [H2 _]. pose proof (dval_le 2 m ltac:(lia)) as A. pose proof (dval_le 1 (m - 1) ltac:(lia)) as B.
      rewrite (dval_small 2) in A by lia. rewrite (dval_small 1) in B by lia. change (inject_Z 2) with 2 in A. change (inject_Z 1) with 1 in B. lra.
  Qed.

  Hypothesis Hm' : (0 < m' < inf_bits)%Z.
  Hypothesis Rm' : right_decimal m' f' e'.
  Lemma again_all : again m (dec f e) (dec f' e') k N (X + 1 + k).
  Proof.
    destruct (Qeq_dec (dec f e) (dec N (- k))) as [E|E].
    - apply again_same; [exact HN|]. assert (Em : m = m').
      { apply (rounds_unique (dec N (- k))); [lia|lia| |exact Rx]. destruct Rm as (_ & R & _). apply (rounds_eq (dec f e)); assumption. }
      apply (right_unique m'); [exact Rm'|rewrite <- Em; exact Rm].
    - assert (Off : forall M, ~ dec f e == dec M (- k)).
      { intros M EM. apply E. assert (M = N) as <-; [|exact EM]. apply (half_up_unique (dec M (- k)) k); [apply exact_half_up|]. apply (half_up_eq (dec f e)); assumption. }
      destruct (Z_le_gt_dec (X + 1 + k) 2) as [L|L].
      + destruct (Z_le_gt_dec m' 100) as [L'|L'].
        * apply (tiny_again m f e X k N m'); assumption.
        * apply (again_eq m _ _ X); [exact HX|reflexivity|exact HN|]. apply (large_again f e X k N m'); try assumption. lia.
      + apply (again_eq m _ _ X); [exact HX|reflexivity|exact HN|]. destruct (Qeq_dec (dec f' e') (dec N (- k))) as [E'|E']; [exact E'|]. exfalso.
        rewrite (strayed m f e X k N m' f' e') in St; try assumption; [discriminate|lia].
  Qed.
End All.

Lemma stray_in m k : stray m k = true -> In (m, k) strays.
Proof.
  unfold stray. intros H. apply existsb_exists in H as ([a p] & Hin & H). apply andb_prop in H as [H1 H2]. apply Z.eqb_eq in H1, H2. subst. exact Hin.
Qed.
Lemma stray_fixed s q m : s = Sf \/ s = SF -> (0 <= prec_or 6 q)%Z -> ~ unstable s q m -> stray m (prec_or 6 q) = false.
Proof.
  intros Hs Hp Hu. destruct (stray m (prec_or 6 q)) eqn:E; [|reflexivity]. exfalso. apply stray_in in E. unfold strays in E. cbn [In] in E.
  destruct E as [E|[E|[E|[E|[E|[E|[]]]]]]]; pose proof (f_equal fst E) as E1; pose proof (f_equal snd E) as E2; cbn [fst snd] in E1, E2; try lia.
  - apply Hu. destruct Hs as [-> | ->]; left; split; auto.
  - apply Hu. destruct Hs as [-> | ->]; right; split; auto.
Qed.
Definition digits_of (m : Z) : Z := match shortest m with Some (f, e) => ndigits f + e - 1 | None => 0 end.
Lemma decade_of m f e X : (0 < m < inf_bits)%Z -> right_decimal m f e -> 10 ^ X <= dec f e < 10 ^ (X + 1) -> (exists g j, shortest m = Some (g, j)) -> X = digits_of m.
Proof.
  intros Hm R HX (g & j & E). unfold digits_of. rewrite E. pose proof (shortest_right m g j Hm E) as R'. pose proof (right_unique m f e g j R R') as U.
  assert (G0 : (0 < g)%Z) by (destruct R' as (G0 & _); lia). pose proof (dec_decade g j G0) as D. rewrite <- U in D.
  apply (decade_unique (dec f e)); [exact HX|]. replace (ndigits g + j - 1 + 1)%Z with (ndigits g + j)%Z by lia. exact D.
Qed.
Lemma strays_16 : forallb (fun '(m, k) => (match shortest m with Some _ => true | None => false end) && (digits_of m + 1 + k =? 16) && (existsb (Z.eqb m) six))%Z strays = true.
Proof. vm_compute. reflexivity. Qed.
Lemma stray_sig m f e X P : (0 < m < inf_bits)%Z -> right_decimal m f e -> 10 ^ X <= dec f e < 10 ^ (X + 1) -> ~ unstable_digits m P -> stray m (P - 1 - X) = false.
Proof.
  intros Hm R HX Hu. destruct (stray m (P - 1 - X)) eqn:E; [|reflexivity]. exfalso. apply stray_in in E. pose proof strays_16 as F.
  rewrite forallb_forall in F. specialize (F _ E). cbn beta iota in F. apply andb_prop in F as [F F3]. apply andb_prop in F as [F1 F2]. apply Z.eqb_eq in F2.
  apply existsb_exists in F3 as (a & Ha & F3). apply Z.eqb_eq in F3. subst a.
  assert (Ex : exists g j, shortest m = Some (g, j)) by (destruct (shortest m) as [[g j]|]; [exists g, j; reflexivity|discriminate]).
  pose proof (decade_of m f e X Hm R HX Ex). apply Hu. left. split; [lia|exact Ha].
Qed.

Lemma zero_reads x m : x == 0 -> (0 <= m <= inf_bits)%Z -> rounds_to x m -> m = 0%Z.
Proof. intros E Hm R. apply (rounds_unique x); [exact Hm|unfold inf_bits; lia|exact R|]. apply (rounds_eq 0); [symmetry; exact E|exact rounds_zero]. Qed.

Lemma rounded_again s q b f e x b' f' e' : decimal_spec s -> (0 <= prec_or 6 q)%Z -> (1 <= g_prec q)%Z -> its_decimal b f e -> rounded s q (dec f e) x ->
  its_decimal b' f' e' -> rounds_to x (magnitude b') -> ~ unstable s q (magnitude b) -> rounded s q (dec f' e') x.
Proof.
  intros Hs Hp Hg Hi Hx Hi' Rx Hu. set (m := magnitude b) in *. set (m' := magnitude b') in *.
  assert (Hm' : (0 <= m' < inf_bits)%Z) by (destruct Hi' as [[A _]|[A _]]; fold m' in A; unfold inf_bits in *; lia).
  assert (Zr : x == 0 -> dec f' e' == 0).
  { intros E. pose proof (zero_reads x m' E ltac:(lia) Rx) as E0. destruct Hi' as [[_ F]|[A _]]; [rewrite F; apply dec_zero|fold m' in A; lia]. }
  assert (Pos : forall y k N X, y == dec f e -> 10 ^ X <= y < 10 ^ (X + 1) -> half_up_at y k N -> (0 < N)%Z -> x == dec N (- k) -> stray m k = false ->
    (0 < m < inf_bits)%Z /\ right_decimal m f e /\ again m (dec f e) (dec f' e') k N (X + 1 + k)).
  { intros y k N X Ey HX HN N0 Ex St. rewrite Ey in HX. apply (half_up_eq _ _ _ _ Ey) in HN. apply (rounds_eq _ _ _ Ex) in Rx.
    destruct Hi as [[_ F]|[A R]]; [exfalso; rewrite F, dec_zero in HX; pose proof (ten_pos X); lra|]. fold m in A, R.
    split; [exact A|]. split; [exact R|]. pose proof (not_zero m f e k N m' A R HN N0 Rx) as Nz.
    destruct Hi' as [[B _]|[B R']]; [fold m' in B; lia|]. fold m' in B, R'. apply (again_all m f e X k N m'); assumption. }
  assert (FF : s = Sf \/ s = SF -> (exists N, half_up_at (dec f e) (prec_or 6 q) N /\ x == dec N (- prec_or 6 q)) -> exists N, half_up_at (dec f' e') (prec_or 6 q) N /\ x == dec N (- prec_or 6 q)).
  { intros Hs' (N & HN & Ex). exists N. split; [|exact Ex]. pose proof (its_nonneg _ _ _ Hi) as F0. pose proof (half_up_nonneg _ _ _ (dec_nonneg f e F0) HN) as Nn.
    destruct (Z.eq_dec N 0) as [N0|N0].
    - apply (half_up_eq (dec 0 (- prec_or 6 q))); [|rewrite N0; apply exact_half_up]. rewrite dec_zero. symmetry. apply Zr. rewrite Ex, N0. apply dec_zero.
    - assert (Pf : (0 < f)%Z).
      { destruct (Z.eq_dec f 0) as [F|F]; [|lia]. exfalso. rewrite F in HN. apply N0. apply (half_up_unique (dec 0 e) (prec_or 6 q)); [exact HN|].
        apply (half_up_eq (dec 0 (- prec_or 6 q))); [rewrite !dec_zero; reflexivity|apply exact_half_up]. }
      pose proof (dec_decade f e Pf) as D. replace (ndigits f + e)%Z with (ndigits f + e - 1 + 1)%Z in D at 2 by lia.
      destruct (Pos (dec f e) (prec_or 6 q) N (ndigits f + e - 1)%Z) as (_ & _ & [H _]); [reflexivity|exact D|exact HN|lia|exact Ex|apply (stray_fixed s); assumption|exact H]. }
  assert (SG' : forall P, (1 <= P)%Z -> ~ unstable_digits m P -> sig_rounded (dec f e) P x -> sig_rounded (dec f' e') P x).
  { intros P HP Hd [[Ey Ex]|(S & X & H & Ex)]; [left; split; [apply Zr; exact Ex|exact Ex]|]. right. exists S, X. split; [|exact Ex].
    pose proof H as H'. destruct H' as (X0 & N & H1 & H2 & H3 & H4). assert (Ex' : x == dec N (- (P - 1 - X0))) by (rewrite Ex, H3; replace (X0 - P + 1)%Z with (- (P - 1 - X0))%Z by lia; reflexivity).
    assert (N0 : (0 < N)%Z).
    { destruct (half_up_decade _ X0 _ N H2 H1 ltac:(lia)) as [L _]. assert (0 < 10 ^ (X0 + (P - 1 - X0)))%Z by (apply Z.pow_pos_nonneg; lia). lia. }
    assert (Hm : (0 < m < inf_bits)%Z /\ right_decimal m f e).
    { destruct Hi as [[_ F]|A]; [exfalso; rewrite F, dec_zero in H1; pose proof (ten_pos X0); lra|exact A]. }
    destruct Hm as [Hm Rm]. destruct (Pos (dec f e) (P - 1 - X0)%Z N X0) as (_ & _ & [_ A]); [reflexivity|exact H1|exact H2|exact N0|exact Ex'|apply (stray_sig m f e); assumption|].
    replace (X0 + 1 + (P - 1 - X0))%Z with P in A by lia. apply A; [exact HP| |exact H]. intros [E1 E2]. apply Hd. right. split; assumption. }
  unfold decimal_spec in Hs. destruct Hs as [->|[->|[->|[->|[->| ->]]]]]; cbn [rounded unstable] in *;
    [apply FF; auto|apply FF; auto|apply SG'; [lia|exact Hu|exact Hx]|apply SG'; [lia|exact Hu|exact Hx]|apply SG'; assumption|apply SG'; assumption].
Qed.
