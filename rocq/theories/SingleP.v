(** Floats are printed as doubles: 9 digits identify them, 6 digits survive them. *)
From Coq Require Import QArith Qabs Qpower Lqa.
From Verif Require Import Base Digits ContextM CompilerM GrammarSpec FmtSpec FmtP DecSpec RoundP FloatSpec FPDecP FloatP CastP NearP FloatQ PropsDouble PropsFloat
  ReadFSpec ReadFP ReadFP2 ReadFP3 SingleSpec.
Open Scope Q_scope.

Definition fsig (g : Z) : Z := if (g / 2 ^ 23 =? 0)%Z then (g mod 2 ^ 23)%Z else (2 ^ 23 + g mod 2 ^ 23)%Z.
Definition fexpo (g : Z) : Z := (Z.max 1 (g / 2 ^ 23) - 150)%Z.

Lemma fval_sig g : (0 <= g)%Z -> fval g == inject_Z (fsig g) * 2 ^ fexpo g.
Proof.
  intros H. unfold fval, fsig, fexpo. assert (D : (0 <= g / 2 ^ 23)%Z) by (apply Z.div_pos; lia).
  destruct (Z.eqb_spec (g / 2 ^ 23) 0) as [E|E].
  - rewrite E. reflexivity.
  - replace (Z.max 1 (g / 2 ^ 23)) with (g / 2 ^ 23)%Z by lia. reflexivity.
Qed.

Lemma fsig_range g : (0 <= g)%Z -> (0 <= fsig g < 2 ^ 24)%Z.
Proof. intros H. unfold fsig. pose proof (Z.mod_pos_bound g (2 ^ 23) eq_refl). destruct (_ =? _)%Z; lia. Qed.

Lemma fval_succ g : (0 <= g)%Z -> fval (g + 1) == fval g + 2 ^ fexpo g.
Proof.
  intros H. rewrite !fval_sig by lia.
  pose proof (Z.div_mod g (2 ^ 23) ltac:(lia)) as D. pose proof (Z.mod_pos_bound g (2 ^ 23) eq_refl) as M.
  assert (Q0 : (0 <= g / 2 ^ 23)%Z) by (apply Z.div_pos; lia).
  destruct (Z.eq_dec (g mod 2 ^ 23) (2 ^ 23 - 1)) as [E|E].
  - assert (D1 : ((g + 1) / 2 ^ 23 = g / 2 ^ 23 + 1)%Z) by (symmetry; apply (Z.div_unique_pos _ _ _ 0); lia).
    assert (M1 : ((g + 1) mod 2 ^ 23 = 0)%Z) by (symmetry; apply (Z.mod_unique_pos _ _ (g / 2 ^ 23 + 1)); lia).
    unfold fsig, fexpo. rewrite D1, M1, E. replace (g / 2 ^ 23 + 1 =? 0)%Z with false by (symmetry; apply Z.eqb_neq; lia).
    destruct (Z.eqb_spec (g / 2 ^ 23) 0) as [Z0|Z0].
    + rewrite Z0. vm_compute. reflexivity.
    + replace (Z.max 1 (g / 2 ^ 23 + 1)) with (g / 2 ^ 23 + 1)%Z by lia. replace (Z.max 1 (g / 2 ^ 23)) with (g / 2 ^ 23)%Z by lia.
      replace (g / 2 ^ 23 + 1 - 150)%Z with (g / 2 ^ 23 - 150 + 1)%Z by lia. rewrite two_succ.
      replace (2 ^ 23 + 0)%Z with 8388608%Z by reflexivity. replace (2 ^ 23 + (2 ^ 23 - 1))%Z with 16777215%Z by reflexivity.
      change (inject_Z 8388608) with (8388608 # 1). change (inject_Z 16777215) with (16777215 # 1). ring.
  - assert (D1 : ((g + 1) / 2 ^ 23 = g / 2 ^ 23)%Z) by (symmetry; apply (Z.div_unique_pos _ _ _ (g mod 2 ^ 23 + 1)); lia).
    assert (M1 : ((g + 1) mod 2 ^ 23 = g mod 2 ^ 23 + 1)%Z) by (symmetry; apply (Z.mod_unique_pos _ _ (g / 2 ^ 23)); lia).
    unfold fsig, fexpo. rewrite D1, M1. destruct (_ =? _)%Z; [|rewrite Z.add_assoc]; rewrite inject_Z_plus; change (inject_Z 1) with 1; ring.
Qed.

Lemma fval_nonneg g : (0 <= g)%Z -> 0 <= fval g.
Proof.
  intros H. rewrite fval_sig by exact H. apply Qmult_le_0_compat; [|apply Qlt_le_weak, two_pos].
  change 0 with (inject_Z 0). rewrite <- Zle_Qle. pose proof (fsig_range g H). lia.
Qed.

Lemma fval_le_nat n : forall g, (0 <= g)%Z -> fval g <= fval (g + Z.of_nat n).
Proof.
  induction n as [|n IH]; intros g H; [rewrite Z.add_0_r; apply Qle_refl|].
  replace (g + Z.of_nat (S n))%Z with (g + 1 + Z.of_nat n)%Z by lia. apply Qle_trans with (fval (g + 1)); [|apply IH; lia].
  rewrite fval_succ by exact H. pose proof (two_pos (fexpo g)). lra.
Qed.
Lemma fval_le g g' : (0 <= g <= g')%Z -> fval g <= fval g'.
Proof. intros H. replace g' with (g + Z.of_nat (Z.to_nat (g' - g)))%Z by lia. apply fval_le_nat. lia. Qed.

(** the gap between neighbours: at least 2^-149, and at least 2^-24 of either of them *)
Lemma gap g : (0 <= g)%Z -> 2 ^ (-149) <= 2 ^ fexpo g /\ fval g * 2 ^ (-24) <= 2 ^ fexpo g /\ fval (g + 1) * 2 ^ (-24) <= 2 ^ fexpo g.
Proof.
  intros H. split; [apply two_le; unfold fexpo; lia|].
  assert (T : 2 ^ 24 * 2 ^ (-24) == 1) by reflexivity.
  assert (B : fval (g + 1) <= 2 ^ 24 * 2 ^ fexpo g).
  { rewrite fval_succ, fval_sig by exact H. pose proof (fsig_range g H) as R. pose proof (two_pos (fexpo g)) as P.
    assert (E : inject_Z (fsig g) * 2 ^ fexpo g + 2 ^ fexpo g == inject_Z (fsig g + 1) * 2 ^ fexpo g) by (rewrite inject_Z_plus; change (inject_Z 1) with 1; ring).
    rewrite E. apply Qmult_le_compat_r; [|lra]. rewrite <- two_Z by lia. rewrite <- Zle_Qle. lia. }
  assert (C : fval (g + 1) * 2 ^ (-24) <= 2 ^ fexpo g).
  { apply Qle_trans with (2 ^ 24 * 2 ^ fexpo g * 2 ^ (-24)); [apply Qmult_le_compat_r; [exact B|apply Qlt_le_weak, two_pos]|].
    assert (E : 2 ^ 24 * 2 ^ fexpo g * 2 ^ (-24) == 2 ^ fexpo g) by (rewrite <- (Qmult_1_l (2 ^ fexpo g)) at 2; rewrite <- T; ring). rewrite E. apply Qle_refl. }
  split; [|exact C]. apply Qle_trans with (fval (g + 1) * 2 ^ (-24)); [|exact C].
  apply Qmult_le_compat_r; [|apply Qlt_le_weak, two_pos]. apply fval_le. lia.
Qed.

(** two different floats are further apart than that *)
Lemma far g g' : (0 <= g)%Z -> (0 <= g')%Z -> g <> g' -> 2 ^ (-149) <= Qabs (fval g - fval g') /\ fval g * 2 ^ (-24) <= Qabs (fval g - fval g').
Proof.
  assert (K : forall a b, (0 <= a < b)%Z -> 2 ^ (-149) <= fval b - fval a /\ fval a * 2 ^ (-24) <= fval b - fval a /\ fval b * 2 ^ (-24) <= fval b - fval a).
  { intros a b H. destruct (gap a ltac:(lia)) as (A1 & A2 & _). pose proof (fval_succ a ltac:(lia)) as Sa. pose proof (fval_le (a + 1) b ltac:(lia)) as L.
    destruct (gap (b - 1) ltac:(lia)) as (_ & _ & B3). pose proof (fval_succ (b - 1) ltac:(lia)) as Sb. replace (b - 1 + 1)%Z with b in * by lia.
    pose proof (fval_le a (b - 1) ltac:(lia)) as L'. repeat split; lra. }
  intros H H' N. destruct (Z_lt_ge_dec g g') as [L|G].
  - destruct (K g g' ltac:(lia)) as (K1 & K2 & _). pose proof (two_pos (-149)). rewrite Qabs_neg by lra. split; lra.
  - destruct (K g' g ltac:(lia)) as (K1 & _ & K2). pose proof (two_pos (-149)). rewrite Qabs_pos by lra. split; lra.
Qed.

Lemma near_frounds x g : (0 <= g <= finf_bits)%Z -> (Qabs (x - fval g) < 2 ^ (-150) \/ Qabs (x - fval g) < fval g * 2 ^ (-25)) -> frounds_to x g.
Proof.
  intros Hg H g' Hg'. destruct (Z.eq_dec g' g) as [->|N]; [split; [apply Qle_refl|congruence]|].
  destruct (far g g' ltac:(lia) ltac:(lia) ltac:(congruence)) as [F1 F2].
  assert (T1 : 2 ^ (-149) == 2 * 2 ^ (-150)) by reflexivity. assert (T2 : 2 ^ (-24) == 2 * 2 ^ (-25)) by reflexivity.
  assert (D : 2 * Qabs (x - fval g) < Qabs (fval g - fval g')).
  { destruct H as [H|H]; [rewrite T1 in F1; lra|]. rewrite T2 in F2. set (w := 2 ^ (-25)) in *. clearbody w.
    assert (fval g * (2 * w) == 2 * (fval g * w)) by ring. lra. }
  assert (S : Qabs (x - fval g) < Qabs (x - fval g')).
  { pose proof (Qabs_triangle (fval g - x) (x - fval g')) as T. assert (E : fval g - x + (x - fval g') == fval g - fval g') by ring.
    rewrite E in T. assert (E2 : Qabs (fval g - x) == Qabs (x - fval g)) by (rewrite <- Qabs_opp; apply Qabs_wd; ring). rewrite E2 in T. lra. }
  split; [lra|]. intros _ E. lra.
Qed.

Lemma fval_zero : fval 0 == 0. Proof. reflexivity. Qed.

(** the double of a non-zero float is normal *)
Lemma wide_normal f b : widened f b -> (0 < fmagnitude f)%Z -> (2 ^ 52 <= magnitude b < inf_bits)%Z.
Proof.
  intros (H1 & H2 & H3 & _ & V) H. pose proof (mag_bound b) as Mb. unfold finite in H3. split; [|lia].
  destruct (Z_lt_ge_dec (magnitude b) (2 ^ 52)) as [L|G]; [|lia]. exfalso.
  pose proof (dval_lt (magnitude b) (2 ^ 52) ltac:(lia)) as D. unfold fmagnitude in H. set (m := (f mod 2 ^ 31)%Z) in *. clearbody m. pose proof (fval_le 1 m ltac:(lia)) as F.
  rewrite <- V in F. assert (X : dval (2 ^ 52) < fval 1) by reflexivity. lra.
Qed.

(** its decimal is within 2^-53 of it *)
Lemma decimal_near b f e : its_decimal b f e -> (2 ^ 52 <= magnitude b < inf_bits)%Z ->
  dval (magnitude b) * (1 - 2 ^ (-53)) <= dec f e <= dval (magnitude b) * (1 + 2 ^ (-53)).
Proof.
  intros Hi Hb. pose proof (its_rounds b f e Hi) as R. destruct (rounds_near (dec f e) (magnitude b) ltac:(lia) R) as [R1 R2].
  pose proof (sig_min (magnitude b) ltac:(lia)) as Sm. replace (Z.min (magnitude b) (2 ^ 52)) with (2 ^ 52)%Z in Sm by lia.
  pose proof (dval_sig (magnitude b) ltac:(lia)) as V. pose proof (two_pos (expo (magnitude b))) as U.
  assert (K : 2 ^ expo (magnitude b) * (1 # 2) <= dval (magnitude b) * 2 ^ (-53)).
  { rewrite V. set (u := 2 ^ expo (magnitude b)) in *. rewrite Zle_Qle in Sm.
    assert (E : u * (1 # 2) == inject_Z (2 ^ 52) * u * 2 ^ (-53)).
    { assert (T : inject_Z (2 ^ 52) * 2 ^ (-53) == 1 # 2) by reflexivity. rewrite <- T. ring. }
    rewrite E. apply Qmult_le_compat_r; [|apply Qlt_le_weak, two_pos]. apply Qmult_le_compat_r; lra. }
  set (d := dval (magnitude b)) in *. set (k := 2 ^ (-53)) in *. clearbody d k. split.
  - assert (E : d * (1 - k) == d - d * k) by ring. lra.
  - assert (E : d * (1 + k) == d + d * k) by ring. lra.
Qed.

(** rounding to P significant digits changes a number by at most half a unit of its P-th digit *)
Lemma sig_error y P S X : sig_half_up y P S X -> Qabs (dec S (X - P + 1) - y) <= y * 10 ^ (1 - P) * (1 # 2).
Proof.
  intros (X0 & N & [D1 D2] & [H1 H2] & V & _). rewrite V. set (k := (X0 - P + 1)%Z).
  assert (W : 0 < 10 ^ k) by apply ten_pos.
  assert (C : 10 ^ (P - 1 - X0) * 10 ^ k == 1) by (rewrite <- ten_add; unfold k; replace (P - 1 - X0 + (X0 - P + 1))%Z with 0%Z by lia; reflexivity).
  assert (Y : y * 10 ^ (P - 1 - X0) * 10 ^ k == y) by (rewrite <- Qmult_assoc, C; ring).
  assert (U : 10 ^ k <= y * 10 ^ (1 - P)).
  { assert (E : 10 ^ k == 10 ^ X0 * 10 ^ (1 - P)) by (rewrite <- ten_add; unfold k; replace (X0 + (1 - P))%Z with (X0 - P + 1)%Z by lia; reflexivity).
    rewrite E. apply Qmult_le_compat_r; [exact D1|apply Qlt_le_weak, ten_pos]. }
  assert (A : (inject_Z N - (1 # 2)) * 10 ^ k <= y) by (rewrite <- Y; apply Qmult_le_compat_r; lra).
  assert (B : y <= (inject_Z N + (1 # 2)) * 10 ^ k) by (rewrite <- Y; apply Qmult_le_compat_r; lra).
  unfold dec. apply Qabs_case; intros; lra.
Qed.

Lemma at_error y p N : half_up_at y p N -> Qabs (dec N (- p) - y) <= 10 ^ (- p) * (1 # 2).
Proof.
  intros [H1 H2]. assert (W : 0 < 10 ^ (- p)) by apply ten_pos.
  assert (Y : y * 10 ^ p * 10 ^ (- p) == y) by (rewrite <- Qmult_assoc, ten_cancel; ring).
  assert (A : (inject_Z N - (1 # 2)) * 10 ^ (- p) <= y) by (rewrite <- Y; apply Qmult_le_compat_r; lra).
  assert (B : y <= (inject_Z N + (1 # 2)) * 10 ^ (- p)) by (rewrite <- Y; apply Qmult_le_compat_r; lra).
  unfold dec. apply Qabs_case; intros; lra.
Qed.

(** 9 digits give the float back *)
Lemma float_back s q g b f e x : (0 <= prec_or 6 q)%Z -> widened g b -> its_decimal b f e -> keeps_floats s q -> rounded s q (dec f e) x -> frounds_to x (fmagnitude g).
Proof.
  intros Hp Hw Hi Hk Hx. pose proof Hw as (H1 & _ & Hfin & _ & V). fold (fmagnitude g) in *.
  assert (G0 : (0 <= fmagnitude g)%Z) by (apply Z.mod_pos_bound; reflexivity).
  assert (Gi : (0 <= fmagnitude g <= finf_bits)%Z) by (unfold finf_bits; lia).
  destruct (Z.eq_dec (fmagnitude g) 0) as [Z0|Z0].
  { assert (Mb : magnitude b = 0%Z).
    { apply dval_inj; [apply mag_bound|lia|]. rewrite V, Z0. reflexivity. }
    assert (X0 : x == 0).
    { apply (rounded_zero s q (dec f e)); [|exact Hp|exact Hx]. rewrite (its_zero _ _ _ Hi Mb). apply dec_zero. }
    apply near_frounds; [exact Gi|]. left. rewrite Z0.
    assert (E : x - fval 0 == 0) by (rewrite X0; reflexivity). rewrite E. reflexivity. }
  pose proof (wide_normal g b Hw ltac:(lia)) as Hn. destruct (decimal_near b f e Hi Hn) as [D1 D2]. rewrite V in D1, D2.
  assert (F0 : 2 ^ (-149) <= fval (fmagnitude g)).
  { pose proof (fval_le 1 (fmagnitude g) ltac:(lia)) as F. assert (E1 : fval 1 == 2 ^ (-149)) by reflexivity. rewrite E1 in F. exact F. }
  set (v := fval (fmagnitude g)) in *.
  assert (P149 : 0 < 2 ^ (-149)) by apply two_pos.
  assert (Dv : Qabs (dec f e - v) <= v * 2 ^ (-53)).
  { set (k := 2 ^ (-53)) in *. clearbody k. apply Qabs_case; intros _; [assert (E : v * (1 + k) == v + v * k) by ring; lra|assert (E : v * (1 - k) == v - v * k) by ring; lra]. }
  assert (Tri : Qabs (x - v) <= Qabs (x - dec f e) + Qabs (dec f e - v)).
  { assert (E : x - v == (x - dec f e) + (dec f e - v)) by ring. rewrite E. apply Qabs_triangle. }
  apply near_frounds; [exact Gi|]. fold v.
  assert (K1 : v * 2 ^ (-53) == v * (1 # 9007199254740992)) by reflexivity.
  assert (K2 : v * 2 ^ (-25) == v * (1 # 33554432)) by reflexivity.
  assert (Sg9 : forall P, (9 <= P)%Z -> sig_rounded (dec f e) P x -> Qabs (x - v) < v * 2 ^ (-25)).
  { intros P HP [[E1 _]|(S & X & H & E)].
    - exfalso. assert (D1' : v * (1 - 2 ^ (-53)) == v * (9007199254740991 # 9007199254740992)) by reflexivity. rewrite D1' in D1. lra.
    - pose proof (sig_error _ _ _ _ H) as Er. rewrite <- E in Er.
      assert (T : 10 ^ (1 - P) <= 10 ^ (-8)) by (apply ten_le; lia). assert (T8 : 10 ^ (-8) == 1 # 100000000) by reflexivity. rewrite T8 in T.
      assert (D2' : v * (1 + 2 ^ (-53)) == v * (9007199254740993 # 9007199254740992)) by reflexivity. rewrite D2' in D2.
      assert (Pd : 0 < dec f e) by (apply (sig_positive _ _ _ _ H)).
      assert (M : dec f e * 10 ^ (1 - P) <= dec f e * (1 # 100000000)) by (rewrite !(Qmult_comm (dec f e)); apply Qmult_le_compat_r; lra).
      rewrite K1 in Dv. rewrite K2. lra. }
  assert (Fx : forall p, (46 <= p)%Z -> (exists N, half_up_at (dec f e) p N /\ x == dec N (- p)) -> Qabs (x - v) < 2 ^ (-150) \/ Qabs (x - v) < v * 2 ^ (-25)).
  { intros p HP (N & HN & E). pose proof (at_error _ _ _ HN) as Er. rewrite <- E in Er.
    assert (T : 10 ^ (- p) <= 10 ^ (-46)) by (apply ten_le; lia).
    assert (T46 : 10 ^ (-46) < 2 ^ (-150) * (1 # 4)) by reflexivity.
    assert (K3 : 2 ^ (-150) * 2 == 2 ^ (-149)) by reflexivity. set (h := 2 ^ (-150)) in *. set (h9 := 2 ^ (-149)) in *.
    rewrite K1 in Dv. rewrite K2. clearbody h h9 v. destruct (Qlt_le_dec (v * (1 # 33554432)) h) as [Q|Q]; [left|right]; lra. }
  destruct s; cbn [keeps_floats rounded] in *; try contradiction; first [apply (Fx (prec_or 6 q)); assumption|right; eapply Sg9; eassumption].
Qed.

(** ** Six digits *)

Lemma fexpo_mono g g' : (g <= g')%Z -> (fexpo g <= fexpo g')%Z.
Proof. intros H. unfold fexpo. pose proof (Z.div_le_mono g g' (2 ^ 23) eq_refl H). lia. Qed.

Lemma frounds_near y g : (2 ^ 23 <= g < finf_bits)%Z -> frounds_to y g -> Qabs (y - fval g) <= fval g * 2 ^ (-24).
Proof.
  intros Hg R. destruct (R (g + 1)%Z ltac:(lia)) as [A _]. destruct (R (g - 1)%Z ltac:(lia)) as [B _].
  pose proof (fval_succ g ltac:(lia)) as Sg. pose proof (fval_succ (g - 1) ltac:(lia)) as Sp. replace (g - 1 + 1)%Z with g in Sp by lia.
  pose proof (two_pos (fexpo g)) as U. pose proof (two_pos (fexpo (g - 1))) as U'.
  pose proof (two_le _ _ (fexpo_mono (g - 1) g ltac:(lia))) as M.
  apply near_above in A; [|lra]. apply near_below in B; [|lra].
  assert (K : 2 ^ fexpo g * (1 # 2) <= fval g * 2 ^ (-24)).
  { rewrite fval_sig by lia. set (u := 2 ^ fexpo g) in *. 
    assert (Hs : (2 ^ 23 <= fsig g)%Z).
    { unfold fsig. assert (1 <= g / 2 ^ 23)%Z by (apply Z.div_le_lower_bound; lia). replace (g / 2 ^ 23 =? 0)%Z with false by (symmetry; apply Z.eqb_neq; lia).
      pose proof (Z.mod_pos_bound g (2 ^ 23) eq_refl). lia. }
    rewrite Zle_Qle in Hs.
    assert (E : u * (1 # 2) == inject_Z (2 ^ 23) * u * 2 ^ (-24)).
    { assert (T : inject_Z (2 ^ 23) * 2 ^ (-24) == 1 # 2) by reflexivity. rewrite <- T. ring. }
    rewrite E. apply Qmult_le_compat_r; [|apply Qlt_le_weak, two_pos]. apply Qmult_le_compat_r; lra. }
  assert (E : forall u v, (u + v) / 2 == (u + v) * (1 # 2)) by (intros; reflexivity). rewrite E in A, B.
  apply Qabs_case; intros _; lra.
Qed.

(** a decimal of at most P <= 6 digits is what numbers next to it are rounded to *)
Lemma near_int D n N : Qabs (D - inject_Z n) < 1 # 2 -> inject_Z N - (1 # 2) <= D < inject_Z N + (1 # 2) -> N = n.
Proof.
  intros H [H1 H2]. apply Qabs_Qlt_condition in H as [H3 H4].
  assert (A : inject_Z (N - 1) < inject_Z n) by (unfold Z.sub; rewrite inject_Z_plus; change (inject_Z (-(1))) with (-1); lra).
  assert (B : inject_Z n < inject_Z (N + 1)) by (rewrite inject_Z_plus; change (inject_Z 1) with 1; lra).
  rewrite <- Zlt_Qlt in A, B. lia.
Qed.

Lemma sig_absorbs y D P S X T Y : (1 <= P <= 6)%Z -> y == dec T (Y - P + 1) -> (10 ^ (P - 1) <= T < 10 ^ P)%Z ->
  Qabs (D - y) <= y * (1 # 4000000) -> sig_half_up D P S X -> dec S (X - P + 1) == y.
Proof.
  intros HP Ey HT Hd (X0 & N & [D1 D2] & HN & V & _). rewrite V.
  set (w := 10 ^ (P - 1 - Y)). assert (W : 0 < w) by apply ten_pos.
  assert (Yw : y * w == inject_Z T).
  { rewrite Ey. unfold w. rewrite dec_scale by lia. replace (Y - P + 1 + (P - 1 - Y))%Z with 0%Z by lia. rewrite Z.pow_0_r, Z.mul_1_r. reflexivity. }
  assert (Y0 : 0 < y) by (rewrite Ey; apply dec_pos; lia).
  assert (HT2 : inject_Z T <= inject_Z (10 ^ P - 1)) by (rewrite <- Zle_Qle; lia).
  assert (HT1 : inject_Z (10 ^ (P - 1)) <= inject_Z T) by (rewrite <- Zle_Qle; lia).
  assert (P6 : inject_Z (10 ^ P) <= 1000000).
  { change 1000000 with (inject_Z 1000000). rewrite <- Zle_Qle. change 1000000%Z with (10 ^ 6)%Z. apply Z.pow_le_mono_r; lia. }
  assert (P1 : inject_Z (10 ^ P) == 10 * inject_Z (10 ^ (P - 1))).
  { change 10 with (inject_Z 10). rewrite <- inject_Z_mult, <- Z.pow_succ_r by lia. replace (Z.succ (P - 1)) with P by lia. reflexivity. }
  assert (Pp : 1 <= inject_Z (10 ^ (P - 1))) by (change 1 with (inject_Z 1); rewrite <- Zle_Qle; pose proof (Z.pow_pos_nonneg 10 (P - 1)); lia).
  assert (Pm : inject_Z (10 ^ P - 1) == inject_Z (10 ^ P) - 1) by (unfold Z.sub; rewrite inject_Z_plus; reflexivity). rewrite Pm in HT2.
  apply Qabs_Qle_condition in Hd as [Hd1 Hd2].
  assert (A1 : y * w - y * w * (1 # 4000000) <= D * w).
  { assert (E : y * w - y * w * (1 # 4000000) == (y - y * (1 # 4000000)) * w) by ring. rewrite E. apply Qmult_le_compat_r; lra. }
  assert (A2 : D * w <= y * w + y * w * (1 # 4000000)).
  { assert (E : y * w + y * w * (1 # 4000000) == (y + y * (1 # 4000000)) * w) by ring. rewrite E. apply Qmult_le_compat_r; lra. }
  rewrite Yw in A1, A2. set (t := inject_Z T) in *. set (h := inject_Z (10 ^ (P - 1))) in *.
  assert (TX : forall k, inject_Z (10 ^ (P - 1)) * 10 ^ k == 10 ^ (Y + k) * w).
  { intros k. unfold w. rewrite ten_Z by lia. rewrite <- !ten_add. replace (P - 1 + k)%Z with (Y + k + (P - 1 - Y))%Z by lia. reflexivity. }
  fold h in TX.
  assert (B1 : 10 ^ X0 * w <= D * w) by (apply Qmult_le_compat_r; lra).
  assert (B2 : D * w < 10 ^ (X0 + 1) * w) by (apply Qmult_lt_compat_r; lra).
  assert (R1 : (Y - 1 <= X0)%Z).
  { destruct (Z_lt_ge_dec X0 (Y - 1)) as [L|G]; [exfalso|lia]. assert (10 ^ (X0 + 1) <= 10 ^ (Y + -1)) by (apply ten_le; lia).
    assert (10 ^ (X0 + 1) * w <= 10 ^ (Y + -1) * w) by (apply Qmult_le_compat_r; lra). rewrite <- TX in *. change (10 ^ (-1)) with (1 # 10) in *. lra. }
  assert (R2 : (X0 <= Y)%Z).
  { destruct (Z_lt_ge_dec Y X0) as [L|G]; [exfalso|lia]. assert (10 ^ (Y + 1) <= 10 ^ X0) by (apply ten_le; lia).
    assert (10 ^ (Y + 1) * w <= 10 ^ X0 * w) by (apply Qmult_le_compat_r; lra). rewrite <- TX in *. change (10 ^ 1) with 10 in *. lra. }
  unfold half_up_at in HN.
  destruct (Z.eq_dec X0 Y) as [->|NE].
  - rewrite Ey. fold w in HN.
    assert (EN : N = T).
    { apply (near_int (D * w)); [|exact HN]. fold t. apply Qabs_Qlt_condition. lra. }
    rewrite EN. reflexivity.
  - assert (EX : X0 = (Y - 1)%Z) by lia. subst X0. replace (P - 1 - (Y - 1))%Z with (1 + (P - 1 - Y))%Z in HN by lia.
    rewrite ten_add in HN. fold w in HN. change (10 ^ 1) with 10 in HN.
    replace (Y - 1 + 1)%Z with (Y + 0)%Z in B2 by lia. rewrite <- TX in B2. change (10 ^ 0) with 1 in B2.
    assert (ET : T = (10 ^ (P - 1))%Z).
    { assert (U : t < inject_Z (10 ^ (P - 1) + 1)) by (rewrite inject_Z_plus; fold h; change (inject_Z 1) with 1; lra).
      unfold t in U. rewrite <- Zlt_Qlt in U. lia. }
    assert (EN : N = (10 * T)%Z).
    { apply (near_int (D * (10 * w))); [|exact HN]. rewrite inject_Z_mult. fold t. change (inject_Z 10) with 10.
      assert (Et : t == h) by (unfold t, h; rewrite ET; reflexivity).
      assert (E : D * (10 * w) == 10 * (D * w)) by ring. rewrite E. apply Qabs_Qlt_condition. lra. }
    rewrite EN, Ey. replace (Y - P + 1)%Z with (Y - 1 - P + 1 + 1)%Z by lia. set (z := (Y - 1 - P + 1)%Z). unfold dec. rewrite ten_add, inject_Z_mult.
    change (inject_Z 10) with 10. change (10 ^ 1) with 10. ring.
Qed.

Lemma at_absorbs y D p N T : y == dec T (- p) -> y * 10 ^ p < 10 ^ 6 -> Qabs (D - y) <= y * (1 # 4000000) -> half_up_at D p N -> dec N (- p) == y.
Proof.
  intros Ey Hy Hd HN. assert (W : 0 < 10 ^ p) by apply ten_pos.
  assert (Yw : y * 10 ^ p == inject_Z T) by (rewrite Ey; unfold dec; rewrite <- Qmult_assoc, (Qmult_comm (10 ^ (- p))), ten_cancel; ring).
  apply Qabs_Qle_condition in Hd as [Hd1 Hd2]. set (w := 10 ^ p) in *.
  assert (A1 : y * w - y * w * (1 # 4000000) <= D * w).
  { assert (E : y * w - y * w * (1 # 4000000) == (y - y * (1 # 4000000)) * w) by ring. rewrite E. apply Qmult_le_compat_r; lra. }
  assert (A2 : D * w <= y * w + y * w * (1 # 4000000)).
  { assert (E : y * w + y * w * (1 # 4000000) == (y + y * (1 # 4000000)) * w) by ring. rewrite E. apply Qmult_le_compat_r; lra. }
  change (10 ^ 6) with 1000000 in Hy.
  assert (EN : N = T) by (apply (near_int (D * w)); [apply Qabs_Qlt_condition; rewrite <- Yw; lra|exact HN]).
  rewrite EN, Ey. reflexivity.
Qed.

(** a decimal read as a normal float and printed with at most six digits *)
Lemma float_six s q g b f e y x : widened g b -> its_decimal b f e -> (2 ^ 23 <= fmagnitude g < finf_bits)%Z -> frounds_to y (fmagnitude g) ->
  (0 <= prec_or 6 q)%Z -> shows_at_most s q y 6 -> rounded s q y y -> rounded s q (dec f e) x -> x == y.
Proof.
  intros Hw Hi Hg Hy Hp Hs Hr Hx. pose proof Hw as (_ & _ & _ & _ & V). fold (fmagnitude g) in V.
  pose proof (wide_normal g b Hw ltac:(lia)) as Hn. destruct (decimal_near b f e Hi Hn) as [D1 D2]. rewrite V in D1, D2.
  pose proof (frounds_near y _ Hg Hy) as Ny. apply Qabs_Qle_condition in Ny as [N1 N2].
  assert (F0 : 0 < fval (fmagnitude g)).
  { pose proof (fval_le 1 (fmagnitude g) ltac:(lia)) as F. assert (E1 : 0 < fval 1) by reflexivity. lra. }
  set (v := fval (fmagnitude g)) in *.
  assert (Y0 : Qabs (dec f e - y) <= y * (1 # 4000000)).
  { assert (E1 : v * (1 - 2 ^ (-53)) == v * (9007199254740991 # 9007199254740992)) by reflexivity.
    assert (E2 : v * (1 + 2 ^ (-53)) == v * (9007199254740993 # 9007199254740992)) by reflexivity.
    assert (E3 : v * 2 ^ (-24) == v * (1 # 16777216)) by reflexivity. rewrite E1 in D1. rewrite E2 in D2. rewrite E3 in N1, N2. clearbody v.
    apply Qabs_case; intros _; lra. }
  assert (Yp : 0 < y) by (assert (E3 : v * 2 ^ (-24) == v * (1 # 16777216)) by reflexivity; rewrite E3 in N1; lra).
  assert (SG : forall P, (1 <= P <= 6)%Z -> sig_rounded y P y -> sig_rounded (dec f e) P x -> x == y).
  { intros P HP [[E _]|(T & Y & HT & ET)]; [lra|]. intros [[E _]|(S & X & HS & ES)].
    - exfalso. apply Qabs_Qle_condition in Y0 as [Y1 Y2]. lra.
    - rewrite ES. destruct HT as (X1 & N & _ & _ & _ & HT). apply (sig_absorbs y (dec f e) P S X T Y); assumption. }
  destruct s; cbn [shows_at_most rounded] in *; try contradiction.
  1,2: destruct Hr as (T & _ & ET); destruct Hx as (N & HN & EN); rewrite EN; apply (at_absorbs y (dec f e) (prec_or 6 q) N T); assumption.
  1,2: apply (SG (prec_or 6 q + 1)%Z); [lia|assumption|assumption].
  all: apply (SG (g_prec q)); [unfold g_prec in *; destruct (Z.eqb_spec (prec_or 6 q) 0); lia|assumption|assumption].
Qed.
