(** DoubleToDecimal.toString writes the text TextSpec asks for. *)
From Coq Require Import QArith Qabs Qpower Lqa.
From Verif Require Import Base Digits UtilsM FmtSpec FmtP MathM DecimalM TextM DecSpec MathP RoundP ShortP SchubP FloatSpec FPDecP AnnP FloatP DoubleP CastP NearP FloatQ PropsDouble TextSpec.
Open Scope Z_scope.

(** ** Multiply and shift instead of dividing *)

(** 193428131138340668 / 2^84 is just above 10^-8 *)
Lemma magic8 F : 0 <= F < 10 ^ 17 -> F * 193428131138340668 / 2 ^ 84 = F / 10 ^ 8.
Proof.
  intros H. symmetry. apply Z.div_unique_pos with (r := F * 193428131138340668 - 2 ^ 84 * (F / 10 ^ 8)); [|ring].
  pose proof (Z.div_mod F (10 ^ 8) ltac:(lia)) as D. pose proof (Z.mod_pos_bound F (10 ^ 8) ltac:(lia)) as M.
  set (q := F / 10 ^ 8) in *. set (r := F mod 10 ^ 8) in *. clearbody q r.
  assert (0 <= q < 10 ^ 9) by lia. change (2 ^ 84) with 19342813113834066795298816. change (10 ^ 8) with 100000000 in *. change (10 ^ 9) with 1000000000 in *. lia.
Qed.

Lemma high8 F : 0 <= F < 10 ^ 17 -> lushr (multiplyHigh F 193428131138340668) 20 = F / 10 ^ 8.
Proof.
  intros H. unfold lushr, multiplyHigh. set (P := F * 193428131138340668) in *.
  assert (B : 0 <= P < 10 ^ 17 * 193428131138340668) by (unfold P; lia).
  assert (B2 : 0 <= P / 2 ^ 64 < 2 ^ 63).
  { split; [apply Z.div_pos; lia|]. apply Z.div_lt_upper_bound; [lia|]. eapply Z.lt_le_trans; [apply B|]. intro; discriminate. }
  rewrite (Z.mod_small (P / 2 ^ 64)) by lia. change (20 mod 64) with 20. rewrite Z.div_div by lia. change (2 ^ 64 * 2 ^ 20) with (2 ^ 84).
  unfold P. rewrite magic8 by exact H. apply wrap64_small. split; [transitivity 0; [lia|apply Z.div_pos; lia]|]. apply Z.div_lt_upper_bound; lia.
Qed.

Lemma magic1 hm : 0 <= hm < 10 ^ 9 -> lushr (wrap64 (hm * 1441151881)) 57 = hm / 10 ^ 8.
Proof.
  intros H. rewrite wrap64_small by lia. unfold lushr. rewrite Z.mod_small by lia. change (57 mod 64) with 57.
  assert (E : hm * 1441151881 / 2 ^ 57 = hm / 10 ^ 8).
  { symmetry. apply Z.div_unique_pos with (r := hm * 1441151881 - 2 ^ 57 * (hm / 10 ^ 8)); [|ring].
    pose proof (Z.div_mod hm (10 ^ 8) ltac:(lia)) as D. pose proof (Z.mod_pos_bound hm (10 ^ 8) ltac:(lia)) as M.
    set (q := hm / 10 ^ 8) in *. set (r := hm mod 10 ^ 8) in *. clearbody q r. change (2 ^ 57) with 144115188075855872. change (10 ^ 8) with 100000000 in *. change (10 ^ 9) with 1000000000 in *. lia. }
  rewrite E. apply wrap64_small. split; [transitivity 0; [lia|apply Z.div_pos; lia]|]. apply Z.div_lt_upper_bound; lia.
Qed.

(** ** Digits from left to right *)

(** [y] stands for the [k]-digit number [a]: the top [k] digits of y / 2^28 *)
Definition stands (k a y : Z) : Prop := 0 <= a < 10 ^ k /\ a * 2 ^ 28 <= y * 10 ^ k < (a + 1) * 2 ^ 28.

Lemma yOf_stands a : 0 <= a < 10 ^ 8 -> stands 8 a (yOf a).
Proof.
  intros H. unfold yOf. rewrite (FmtP.wrap32_small (a + 1)) by lia. unfold lshl. change (28 mod 64) with 28. rewrite wrap64_small by lia.
  rewrite high8 by lia. pose proof (Z.div_mod ((a + 1) * 2 ^ 28) (10 ^ 8) ltac:(lia)) as D. pose proof (Z.mod_pos_bound ((a + 1) * 2 ^ 28) (10 ^ 8) ltac:(lia)) as M.
  set (q := (a + 1) * 2 ^ 28 / 10 ^ 8) in *. set (r := ((a + 1) * 2 ^ 28) mod 10 ^ 8) in *. clearbody q r.
  change (2 ^ 28) with 268435456 in *. change (10 ^ 8) with 100000000 in *.
  rewrite (FmtP.wrap32_small q) by lia. rewrite FmtP.wrap32_small by lia. unfold stands. change (10 ^ 8) with 100000000. change (2 ^ 28) with 268435456. lia.
Qed.

Lemma stands_y k a y : 0 <= k -> stands k a y -> 0 <= y < 2 ^ 28.
Proof.
  intros Hk [H1 H2]. pose proof (pow10_pos k Hk). set (T := 10 ^ k) in *. clearbody T. change (2 ^ 28) with 268435456 in *. nia.
Qed.

Lemma stands_step k a y : 0 <= k -> stands (k + 1) a y ->
  iushr (wrap32 (10 * y)) 28 = a / 10 ^ k /\ 0 <= a / 10 ^ k < 10 /\ stands k (a mod 10 ^ k) (Z.land (wrap32 (10 * y)) MASK_28).
Proof.
  intros Hk S. pose proof (stands_y (k + 1) a y ltac:(lia) S) as Y. destruct S as [H1 H2]. pose proof (pow10_pos k Hk) as PT.
  rewrite Z.pow_add_r, Z.pow_1_r in * by lia.
  pose proof (Z.div_mod a (10 ^ k) ltac:(lia)) as D. pose proof (Z.mod_pos_bound a (10 ^ k) ltac:(lia)) as M.
  assert (Hq : 0 <= a / 10 ^ k < 10) by (split; [apply Z.div_pos; lia|apply Z.div_lt_upper_bound; lia]).
  assert (E0 : wrap32 (10 * y) mod 2 ^ 32 = 10 * y).
  { unfold wrap32. rewrite wrapN_mod by lia. apply Z.mod_small. lia. }
  assert (EM : Z.land (wrap32 (10 * y)) MASK_28 = (10 * y) mod 2 ^ 28).
  { change MASK_28 with (Z.ones 28). rewrite Z.land_ones by lia. rewrite <- E0 at 2. change (2 ^ 32) with (2 ^ 28 * 2 ^ 4).
    rewrite Z.rem_mul_r by lia. rewrite (Z.mul_comm (2 ^ 28)), Z.mod_add, Z.mod_mod by lia. reflexivity. }
  assert (ED : 10 * y / 2 ^ 28 = a / 10 ^ k).
  { symmetry. apply Z.div_unique_pos with (r := 10 * y - 2 ^ 28 * (a / 10 ^ k)); [|ring].
    set (q := a / 10 ^ k) in *. set (r := a mod 10 ^ k) in *. set (T := 10 ^ k) in *. clearbody q r T. change (2 ^ 28) with 268435456 in *. subst a. nia. }
  unfold iushr. rewrite E0. change (28 mod 32) with 28. rewrite ED. rewrite FmtP.wrap32_small by lia. split; [reflexivity|]. split; [exact Hq|].
  rewrite EM. split; [exact M|]. rewrite (Z.mod_eq (10 * y)) by lia. rewrite ED.
  set (q := a / 10 ^ k) in *. set (r := a mod 10 ^ k) in *. set (T := 10 ^ k) in *. clearbody q r T. change (2 ^ 28) with 268435456 in *. subst a. nia.
Qed.

(** ** Appending *)

Definition fits (bs : list Z) (n : Z) : Prop := zlen bs + n <= MAX_CHARS.

Lemma put_ok bs c : fits bs 1 -> put bs c = Ok (bs ++ [c]).
Proof. intros H. unfold put, fits in *. replace (zlen bs <? MAX_CHARS) with true by (symmetry; apply Z.ltb_lt; lia). reflexivity. Qed.

Lemma putDigit_ok bs d : fits bs 1 -> 0 <= d < 10 -> putDigit bs d = Ok (bs ++ [digit_char d]).
Proof. intros H Hd. unfold putDigit. rewrite put_ok by exact H. rewrite digit_char_dig by exact Hd. reflexivity. Qed.

Lemma fraction_top k a : 0 <= k -> 0 <= a < 10 ^ (k + 1) -> fraction (k + 1) a = digit_char (a / 10 ^ k) :: fraction k (a mod 10 ^ k).
Proof.
  intros Hk Ha. pose proof (pow10_pos k Hk). rewrite Z.pow_add_r, Z.pow_1_r in Ha by lia. replace (k + 1) with (1 + k) by lia. rewrite fraction_app by lia.
  change (fraction 1 (a / 10 ^ k)) with [digit_char ((a / 10 ^ k) mod 10)].
  rewrite (Z.mod_small (a / 10 ^ k)) by (split; [apply Z.div_pos; lia|apply Z.div_lt_upper_bound; lia]).
  cbn [app]. f_equal. unfold fraction. f_equal.
  apply (of_digits_inj 10); try (apply fixdigs_ok; lia); try lia; rewrite ?fixdigs_length; try reflexivity.
  rewrite !fixdigs_value by (try lia; apply Z.mod_pos_bound; lia). rewrite Z2Nat.id by lia. rewrite Z.mod_mod by lia. reflexivity.
Qed.

Lemma fraction_mod k a j : 0 <= j <= k -> 0 <= a -> fraction j (a mod 10 ^ k) = fraction j a.
Proof.
  intros Hk Ha. pose proof (pow10_pos k ltac:(lia)). pose proof (pow10_pos j ltac:(lia)). unfold fraction. f_equal.
  apply (of_digits_inj 10); try (apply fixdigs_ok; lia); try lia; rewrite ?fixdigs_length; try reflexivity.
  rewrite !fixdigs_value by (try lia; apply Z.mod_pos_bound; lia). rewrite Z2Nat.id by lia.
  replace (10 ^ k) with (10 ^ j * 10 ^ (k - j)) by (rewrite <- Z.pow_add_r by lia; f_equal; lia). pose proof (pow10_pos (k - j) ltac:(lia)).
  rewrite Z.rem_mul_r by lia. rewrite (Z.mul_comm (10 ^ j)), Z.mod_add by lia. apply Z.mod_mod; lia.
Qed.

(** [j] of the [k] digits *)
Lemma extract_ok j : forall k a y bs, Z.of_nat j <= k -> stands k a y -> fits bs (Z.of_nat j) ->
  exists y', extract j y bs = Ok (y', bs ++ fraction (Z.of_nat j) (a / 10 ^ (k - Z.of_nat j))) /\ stands (k - Z.of_nat j) (a mod 10 ^ (k - Z.of_nat j)) y'.
Proof.
  induction j as [|j IH]; intros k a y bs Hk S F.
  - exists y. cbn [extract]. rewrite Z.sub_0_r. unfold fraction. cbn [Z.of_nat Z.to_nat fixdigs map]. rewrite app_nil_r. split; [reflexivity|].
    rewrite Z.mod_small by apply S. exact S.
  - cbn [extract]. set (n := k - 1). replace k with (n + 1) in * by (unfold n; lia). clearbody n. assert (Hn : Z.of_nat j <= n) by lia. destruct (stands_step n a y ltac:(lia) S) as (E1 & E2 & S').
    rewrite E1. rewrite putDigit_ok by (unfold fits in *; lia || exact E2). cbn [bind].
    destruct (IH n _ _ (bs ++ [digit_char (a / 10 ^ n)]) Hn S') as (y' & E & S''). { unfold fits in *. rewrite zlen_app, zlen_one. lia. }
    replace (n + 1 - Z.of_nat (Datatypes.S j)) with (n - Z.of_nat j) by lia.
    pose proof (pow10_pos n ltac:(lia)) as Pn. pose proof (pow10_pos (n - Z.of_nat j) ltac:(lia)) as Pj. pose proof (pow10_pos (Z.of_nat j) ltac:(lia)) as Po.
    assert (En : 10 ^ n = 10 ^ (n - Z.of_nat j) * 10 ^ Z.of_nat j) by (rewrite <- Z.pow_add_r by lia; f_equal; lia).
    destruct S as [B _]. rewrite Z.pow_add_r, Z.pow_1_r in B by lia.
    assert (Ed : a mod 10 ^ n / 10 ^ (n - Z.of_nat j) = (a / 10 ^ (n - Z.of_nat j)) mod 10 ^ Z.of_nat j).
    { rewrite En. rewrite Z.rem_mul_r by lia. rewrite Z.mul_comm, Z.div_add by lia. rewrite Z.div_small by (apply Z.mod_pos_bound; lia). reflexivity. }
    assert (Em : (a mod 10 ^ n) mod 10 ^ (n - Z.of_nat j) = a mod 10 ^ (n - Z.of_nat j)).
    { rewrite En. rewrite Z.rem_mul_r by lia. rewrite (Z.mul_comm (10 ^ (n - Z.of_nat j))), Z.mod_add by lia. apply Z.mod_mod; lia. }
    rewrite Ed in E. rewrite Em in S''. exists y'. split; [|exact S''].
    rewrite E. f_equal. f_equal. rewrite <- app_assoc. f_equal. replace (Z.of_nat (Datatypes.S j)) with (Z.of_nat j + 1) by lia.
    rewrite fraction_top; [|lia|]. 2: { split; [apply Z.div_pos; lia|]. apply Z.div_lt_upper_bound; [lia|]. rewrite Z.pow_add_r, Z.pow_1_r by lia. nia. }
    cbn [app]. f_equal. rewrite Z.div_div by lia. rewrite <- En. reflexivity.
Qed.

Lemma append8_ok m bs : 0 <= m < 10 ^ 8 -> fits bs 8 -> append8Digits m bs = Ok (bs ++ fraction 8 m).
Proof.
  intros H F. unfold append8Digits. destruct (extract_ok 8 8 m (yOf m) bs ltac:(cbn; lia) (yOf_stands m H) F) as (y' & E & _).
  change (Z.of_nat 8) with 8 in E. rewrite Z.sub_diag, Z.pow_0_r, Z.div_1_r in E. rewrite E. reflexivity.
Qed.

Lemma putZeros_ok n : forall bs, fits bs (Z.of_nat n) -> putZeros n bs = Ok (bs ++ zeros (Z.of_nat n)).
Proof.
  induction n as [|n IH]; intros bs F; cbn [putZeros]. { unfold zeros, rep. cbn. rewrite app_nil_r. reflexivity. }
  rewrite putDigit_ok by (unfold fits in *; lia). cbn [bind]. rewrite IH by (unfold fits in *; rewrite zlen_app, zlen_one; lia).
  f_equal. rewrite <- app_assoc. f_equal. unfold zeros, rep. rewrite !Nat2Z.id. reflexivity.
Qed.

(** ** Trailing zeros *)

Lemma aget_at (a b : list Z) c i : zlen a = i -> aget (a ++ c :: b) i = Ok c.
Proof. intros <-. unfold aget. rewrite Base.znth_app_r by lia. rewrite Z.sub_diag. reflexivity. Qed.

Lemma dropZeros_ok A c : c <> ch "0" -> forall n fuel r, (n < fuel)%nat ->
  dropZeros fuel (A ++ c :: zeros (Z.of_nat n) ++ r) (zlen A + Z.of_nat n) = Ok (zlen A).
Proof.
  intros Hc n. induction n as [|n IH]; intros fuel r Hf; (destruct fuel as [|fuel]; [lia|]); cbn [dropZeros].
  - rewrite aget_at by lia. cbn [bind]. replace (c =? ch "0") with false by (symmetry; apply Z.eqb_neq; exact Hc). f_equal. lia.
  - assert (E : A ++ c :: zeros (Z.of_nat (S n)) ++ r = A ++ c :: zeros (Z.of_nat n) ++ ch "0" :: r).
    { do 2 f_equal. unfold zeros, rep. rewrite !Nat2Z.id. replace (repeat (ch "0") (S n)) with (repeat (ch "0") n ++ [ch "0"]) by (symmetry; apply repeat_cons).
      rewrite <- app_assoc. reflexivity. }
    rewrite E. replace (A ++ c :: zeros (Z.of_nat n) ++ ch "0" :: r) with ((A ++ c :: zeros (Z.of_nat n)) ++ ch "0" :: r) at 1 by (rewrite <- app_assoc; reflexivity).
    rewrite aget_at by (rewrite zlen_app, zlen_cons; unfold zeros; rewrite zlen_rep; lia). cbn [bind]. rewrite Z.eqb_refl.
    replace (zlen A + Z.of_nat (S n) - 1) with (zlen A + Z.of_nat n) by lia. apply IH. lia.
Qed.

Lemma firstn_at {X} (a b : list X) n : n = zlen a -> firstn (Z.to_nat n) (a ++ b) = a.
Proof. intros ->. unfold zlen. rewrite Nat2Z.id, firstn_app, Nat.sub_diag, firstn_all. cbn. apply app_nil_r. Qed.

Lemma zeros_len n : 0 <= n -> zlen (zeros n) = n.
Proof. intros H. unfold zeros. rewrite zlen_rep. lia. Qed.

Lemma removeTrailing_keep A c n : 0 <= n -> c <> ch "0" -> c <> ch "." -> removeTrailingZeroes (A ++ c :: zeros n) = Ok (A ++ [c]).
Proof.
  intros Hn H0 H1. unfold removeTrailingZeroes. rewrite zlen_app, zlen_cons. rewrite zeros_len by lia.
  pose proof (dropZeros_ok A c H0 (Z.to_nat n) (S (Datatypes.length (A ++ c :: zeros n))) []) as D. rewrite app_nil_r, Z2Nat.id in D by lia.
  replace (zlen A + (1 + n) - 1) with (zlen A + n) by lia. rewrite D. 2: { rewrite app_length. cbn [Datatypes.length]. unfold zeros, rep. rewrite repeat_length. lia. }
  cbn [bind]. rewrite aget_at by reflexivity. cbn [bind]. replace (c =? ch ".") with false by (symmetry; apply Z.eqb_neq; exact H1).
  rewrite aget_at by reflexivity. cbn [bind]. f_equal. change (c :: zeros n) with ([c] ++ zeros n). rewrite app_assoc. apply firstn_at. rewrite zlen_app, zlen_one. reflexivity.
Qed.

Lemma removeTrailing_dot A n : 1 <= n -> removeTrailingZeroes (A ++ ch "." :: zeros n) = Ok (A ++ [ch "."; ch "0"]).
Proof.
  intros Hn. unfold removeTrailingZeroes. rewrite zlen_app, zlen_cons. rewrite zeros_len by lia.
  pose proof (dropZeros_ok A (ch ".") ltac:(discriminate) (Z.to_nat n) (S (Datatypes.length (A ++ ch "." :: zeros n))) []) as D. rewrite app_nil_r, Z2Nat.id in D by lia.
  replace (zlen A + (1 + n) - 1) with (zlen A + n) by lia. rewrite D. 2: { rewrite app_length. cbn [Datatypes.length]. unfold zeros, rep. rewrite repeat_length. lia. }
  cbn [bind]. rewrite aget_at by reflexivity. cbn [bind]. rewrite Z.eqb_refl.
  assert (E : A ++ ch "." :: zeros n = (A ++ [ch "."]) ++ ch "0" :: zeros (n - 1)).
  { rewrite <- app_assoc. cbn [app]. do 2 f_equal. unfold zeros, rep. replace (Z.to_nat n) with (S (Z.to_nat (n - 1))) by lia. reflexivity. }
  rewrite E. rewrite aget_at by (rewrite zlen_app, zlen_one; reflexivity). cbn [bind]. f_equal.
  change (ch "0" :: zeros (n - 1)) with ([ch "0"] ++ zeros (n - 1)). rewrite app_assoc. rewrite firstn_at by (rewrite !zlen_app, !zlen_one; lia). rewrite <- app_assoc. reflexivity.
Qed.

(** a decimal without the zeros *)
Lemma drop_to p : forall N, 0 <= N -> exists M r, 0 <= M /\ 1 <= r <= Z.of_nat (S p) /\ (r = 1 \/ M mod 10 <> 0) /\ N = M * 10 ^ (Z.of_nat (S p) - r).
Proof.
  induction p as [|p IH]; intros N H.
  - exists N, 1. split; [lia|]. split; [lia|]. split; [left; reflexivity|]. change (Z.of_nat 1 - 1) with 0. lia.
  - destruct (Z.eq_dec (N mod 10) 0) as [E|E].
    + destruct (IH (N / 10)) as (M & r & B1 & B2 & B3 & B4); [apply Z.div_pos; lia|]. exists M, r. split; [lia|]. split; [lia|]. split; [exact B3|].
      replace (Z.of_nat (S (S p)) - r) with (Z.of_nat (S p) - r + 1) by lia. rewrite Z.pow_add_r, Z.pow_1_r by lia. rewrite Z.mul_assoc, <- B4.
      pose proof (Z.div_mod N 10 ltac:(lia)). lia.
    + exists N, (Z.of_nat (S (S p))). split; [lia|]. split; [lia|]. split; [right; exact E|]. rewrite Z.sub_diag. lia.
Qed.

Lemma removeTrailing_ok pre N p : 0 <= N -> 1 <= p ->
  exists M r, 0 <= M /\ 1 <= r <= p /\ (r = 1 \/ M mod 10 <> 0) /\ N = M * 10 ^ (p - r) /\
    removeTrailingZeroes (pre ++ decimal_text N p) = Ok (pre ++ decimal_text M r).
Proof.
  intros HN Hp. destruct (drop_to (Z.to_nat (p - 1)) N HN) as (M & r & B1 & B2 & B3 & B4). replace (Z.of_nat (S (Z.to_nat (p - 1)))) with p in * by lia.
  exists M, r. split; [lia|]. split; [lia|]. split; [exact B3|]. split; [exact B4|]. rewrite B4. replace p with (r + (p - r)) at 2 by lia. rewrite <- decimal_text_pad by lia.
  rewrite (decimal_text_split M r) by lia.
  assert (EM : fraction r M = fraction (r - 1) (M / 10) ++ [digit_char (M mod 10)]).
  { replace r with (r - 1 + 1) at 1 by lia. rewrite fraction_app by lia. reflexivity. }
  pose proof (Z.mod_pos_bound M 10 ltac:(lia)) as Mb. rewrite EM. destruct (Z.eq_dec (M mod 10) 0) as [E0|E0].
  - assert (r = 1) by lia. subst r. rewrite E0. change (fraction (1 - 1) (M / 10)) with (@nil Z). cbn [app]. change (digit_char 0) with (ch "0").
    replace (pre ++ (numeral 10 (M / 10 ^ 1) ++ [ch "."; ch "0"]) ++ zeros (p - 1)) with ((pre ++ numeral 10 (M / 10 ^ 1)) ++ ch "." :: zeros p).
    + rewrite removeTrailing_dot by lia. rewrite <- app_assoc. reflexivity.
    + rewrite <- !app_assoc. cbn [app]. do 3 f_equal. unfold zeros, rep. replace (Z.to_nat p) with (S (Z.to_nat (p - 1))) by lia. reflexivity.
  - set (A := pre ++ numeral 10 (M / 10 ^ r) ++ ch "." :: fraction (r - 1) (M / 10)).
    replace (pre ++ (numeral 10 (M / 10 ^ r) ++ ch "." :: fraction (r - 1) (M / 10) ++ [digit_char (M mod 10)]) ++ zeros (p - r)) with (A ++ digit_char (M mod 10) :: zeros (p - r)).
    + rewrite removeTrailing_keep; [| lia | rewrite digit_char_dig by lia; change (ch "0") with 48; lia | rewrite digit_char_dig by lia; change (ch ".") with 46; lia].
      unfold A. rewrite <- !app_assoc. reflexivity.
    + unfold A. repeat (rewrite <- !app_assoc; cbn [app]). reflexivity.
Qed.

Lemma lowDigits_ok pre F p : 0 <= F -> 9 <= p -> fits (pre ++ decimal_text (F / 10 ^ 8) (p - 8)) 8 ->
  exists M r, 0 <= M /\ 1 <= r <= p /\ (r = 1 \/ M mod 10 <> 0) /\ F = M * 10 ^ (p - r) /\
    lowDigits (F mod 10 ^ 8) (pre ++ decimal_text (F / 10 ^ 8) (p - 8)) = Ok (pre ++ decimal_text M r).
Proof.
  intros HF Hp Fi. pose proof (Z.mod_pos_bound F (10 ^ 8) ltac:(lia)) as B. pose proof (Z.div_mod F (10 ^ 8) ltac:(lia)) as D. pose proof (Z.div_pos F (10 ^ 8) ltac:(lia) ltac:(lia)) as P.
  unfold lowDigits. destruct (F mod 10 ^ 8 =? 0) eqn:E; bools; cbn [negb bind].
  - destruct (removeTrailing_ok pre (F / 10 ^ 8) (p - 8) P ltac:(lia)) as (M & r & B1 & B2 & B3 & B4 & B5). exists M, r. split; [lia|]. split; [lia|]. split; [exact B3|]. split; [|exact B5].
    rewrite D, E, B4. replace (p - r) with (p - 8 - r + 8) by lia. rewrite (Z.pow_add_r 10 (p - 8 - r) 8) by lia. ring.
  - rewrite append8_ok by (try lia; exact Fi). cbn [bind]. rewrite (fraction_mod 8 F 8) by lia.
    assert (Et : decimal_text (F / 10 ^ 8) (p - 8) ++ fraction 8 F = decimal_text F p).
    { rewrite !decimal_text_split by lia. rewrite Z.div_div by (try lia; apply Z.pow_pos_nonneg; lia). rewrite <- Z.pow_add_r by lia. replace (8 + (p - 8)) with p by lia.
      rewrite <- app_assoc. cbn [app]. f_equal. f_equal. replace p with (p - 8 + 8) at 2 by lia. rewrite (fraction_app (p - 8) 8) by lia. reflexivity. }
    rewrite <- app_assoc, Et. destruct (removeTrailing_ok pre F p HF ltac:(lia)) as (M & r & B1). exists M, r. exact B1.
Qed.

(** ** The exponent *)

Lemma exp_hundreds e : 0 <= e < 1000 -> iushr (wrap32 (e * 1311)) 17 = e / 100.
Proof.
  intros H. rewrite (FmtP.wrap32_small (e * 1311)) by lia. unfold iushr. rewrite Z.mod_small by lia. change (17 mod 32) with 17.
  assert (E : e * 1311 / 2 ^ 17 = e / 100).
  { symmetry. apply Z.div_unique_pos with (r := e * 1311 - 2 ^ 17 * (e / 100)); [|ring].
    pose proof (Z.div_mod e 100 ltac:(lia)) as D. pose proof (Z.mod_pos_bound e 100 ltac:(lia)) as M. change (2 ^ 17) with 131072. lia. }
  rewrite E. apply FmtP.wrap32_small. split; [transitivity 0; [lia|apply Z.div_pos; lia]|]. apply Z.div_le_upper_bound; lia.
Qed.

Lemma exp_tens e : 0 <= e < 100 -> iushr (wrap32 (e * 103)) 10 = e / 10.
Proof.
  intros H. rewrite (FmtP.wrap32_small (e * 103)) by lia. unfold iushr. rewrite Z.mod_small by lia. change (10 mod 32) with 10.
  assert (E : e * 103 / 2 ^ 10 = e / 10).
  { symmetry. apply Z.div_unique_pos with (r := e * 103 - 2 ^ 10 * (e / 10)); [|ring].
    pose proof (Z.div_mod e 10 ltac:(lia)) as D. pose proof (Z.mod_pos_bound e 10 ltac:(lia)) as M. change (2 ^ 10) with 1024. lia. }
  rewrite E. apply FmtP.wrap32_small. split; [transitivity 0; [lia|apply Z.div_pos; lia]|]. apply Z.div_le_upper_bound; lia.
Qed.

Lemma numeral_2 e : 10 <= e < 100 -> numeral 10 e = [digit_char (e / 10); digit_char (e mod 10)].
Proof.
  intros H. rewrite (numeral_split e 1) by (cbn; lia). change (10 ^ 1) with 10. rewrite numeral_small by (split; [apply Z.div_pos; lia|apply Z.div_lt_upper_bound; lia]). reflexivity.
Qed.

Lemma numeral_3 e : 100 <= e < 1000 -> numeral 10 e = [digit_char (e / 100); digit_char ((e mod 100) / 10); digit_char ((e mod 100) mod 10)].
Proof.
  intros H. rewrite (numeral_split e 2) by (cbn; lia). change (10 ^ 2) with 100. rewrite numeral_small by (split; [apply Z.div_pos; lia|apply Z.div_lt_upper_bound; lia]).
  cbn [app]. f_equal. change (fraction 2 e) with [digit_char ((e / 10) mod 10); digit_char (e mod 10)].
  pose proof (Z.div_mod e 10 ltac:(lia)) as D. pose proof (Z.mod_pos_bound e 10 ltac:(lia)) as M. pose proof (Z.div_mod (e / 10) 10 ltac:(lia)) as D2. pose proof (Z.mod_pos_bound (e / 10) 10 ltac:(lia)) as M2.
  assert (E1 : e mod 100 = (e / 10) mod 10 * 10 + e mod 10) by (symmetry; apply Z.mod_unique_pos with (q := e / 10 / 10); lia).
  rewrite E1. rewrite Z.div_add_l, (Z.div_small (e mod 10)), Z.add_0_r by lia. rewrite Z.add_comm, Z.mod_add, Z.mod_mod by lia. reflexivity.
Qed.

Lemma exponent_ok e bs : -1000 < e < 1000 -> fits bs 5 -> exponent e bs = Ok (bs ++ ch "E" :: dec_text e).
Proof.
  intros He F. unfold exponent, fits in *. rewrite put_ok by (unfold fits; lia). cbn [bind].
  assert (G : forall bs0, fits bs0 3 -> forall e, 0 <= e < 1000 ->
    (if e <? 10 then putDigit bs0 e else let* (e0, bs1) := (if 100 <=? e then let* bs1 := putDigit bs0 (iushr (wrap32 (e * 1311)) 17) in Ok (e - 100 * iushr (wrap32 (e * 1311)) 17, bs1) else Ok (e, bs0)) in
       let* bs2 := putDigit bs1 (iushr (wrap32 (e0 * 103)) 10) in putDigit bs2 (e0 - 10 * iushr (wrap32 (e0 * 103)) 10)) = Ok (bs0 ++ numeral 10 e)).
  { clear. intros bs F e He. unfold fits in F. destruct (e <? 10) eqn:E; bools.
    { rewrite putDigit_ok by (unfold fits; lia). rewrite numeral_small by lia. reflexivity. }
    assert (T : forall bs e, zlen bs + 2 <= MAX_CHARS -> 0 <= e < 100 ->
      (let* bs2 := putDigit bs (iushr (wrap32 (e * 103)) 10) in putDigit bs2 (e - 10 * iushr (wrap32 (e * 103)) 10)) = Ok (bs ++ [digit_char (e / 10); digit_char (e mod 10)])).
    { clear. intros bs e F He. rewrite exp_tens by lia. pose proof (Z.div_mod e 10 ltac:(lia)) as D. pose proof (Z.mod_pos_bound e 10 ltac:(lia)) as M.
      rewrite putDigit_ok by (unfold fits; lia). cbn [bind]. rewrite putDigit_ok by (unfold fits; rewrite ?zlen_app, ?zlen_one; lia). rewrite <- app_assoc. cbn [app]. do 5 f_equal. lia. }
    destruct (100 <=? e) eqn:E2; bools.
    - rewrite exp_hundreds by lia. pose proof (Z.div_mod e 100 ltac:(lia)) as D. pose proof (Z.mod_pos_bound e 100 ltac:(lia)) as M.
      rewrite putDigit_ok by (unfold fits; lia). cbn [bind]. replace (e - 100 * (e / 100)) with (e mod 100) by lia.
      rewrite T by (rewrite ?zlen_app, ?zlen_one; lia). rewrite numeral_3 by lia. rewrite <- app_assoc. reflexivity.
    - cbn [bind]. rewrite T by lia. rewrite numeral_2 by lia. reflexivity. }
  destruct (e <? 0) eqn:E; bools.
  - rewrite put_ok by (unfold fits; rewrite ?zlen_app, ?zlen_one; lia). cbn [bind]. rewrite G by (unfold fits; rewrite ?zlen_app, ?zlen_one; lia).
    f_equal. rewrite <- !app_assoc. cbn [app]. do 2 f_equal. unfold dec_text. replace (e <? 0) with true by (symmetry; apply Z.ltb_lt; lia). reflexivity.
  - cbn [bind]. rewrite G by (unfold fits; rewrite ?zlen_app, ?zlen_one; lia).
    f_equal. rewrite <- !app_assoc. cbn [app]. do 2 f_equal. unfold dec_text. replace (e <? 0) with false by (symmetry; apply Z.ltb_ge; lia). reflexivity.
Qed.

(** ** The three layouts *)

Lemma numeral_len_eq X n : 0 < X -> 1 <= n -> 10 ^ (n - 1) <= X < 10 ^ n -> zlen (numeral 10 X) = n.
Proof. intros. unfold numeral. rewrite zlen_map. apply digits_length_unique; lia. Qed.

Lemma ten8 G : 10 ^ 8 <= G < 10 ^ 9 -> 1 <= G / 10 ^ 8 < 10 /\ 0 <= G mod 10 ^ 8 < 10 ^ 8.
Proof.
  intros H. pose proof (Z.mod_pos_bound G (10 ^ 8) ltac:(lia)). split; [|lia]. split; [apply Z.div_le_lower_bound; lia|apply Z.div_lt_upper_bound; lia].
Qed.

Lemma dec_text_of G E : 10 ^ 8 <= G < 10 ^ 9 -> 1 <= E <= 8 ->
  decimal_text G (9 - E) = digit_char (G / 10 ^ 8) :: fraction (E - 1) (G mod 10 ^ 8 / 10 ^ (9 - E)) ++ ch "." :: fraction (9 - E) (G mod 10 ^ 8).
Proof.
  intros HG HE. destruct (ten8 G HG) as [B1 B2]. rewrite decimal_text_split by lia. rewrite (fraction_mod 8 G (9 - E)) by lia.
  assert (EX : numeral 10 (G / 10 ^ (9 - E)) = digit_char (G / 10 ^ 8) :: fraction (E - 1) (G mod 10 ^ 8 / 10 ^ (9 - E))).
  { pose proof (pow10_pos (9 - E) ltac:(lia)) as P1. pose proof (pow10_pos (E - 1) ltac:(lia)) as P2.
    assert (E8 : 10 ^ 8 = 10 ^ (9 - E) * 10 ^ (E - 1)) by (rewrite <- Z.pow_add_r by lia; f_equal; lia).
    rewrite (numeral_split (G / 10 ^ (9 - E)) (E - 1)); [|lia|apply Z.div_le_lower_bound; lia].
    rewrite Z.div_div by lia. rewrite <- E8. rewrite numeral_small by lia. cbn [app]. f_equal.
    rewrite E8. rewrite Z.rem_mul_r by lia. rewrite (Z.mul_comm (10 ^ (9 - E))), Z.div_add by lia.
    rewrite (Z.div_small (G mod 10 ^ (9 - E))) by (apply Z.mod_pos_bound; lia). cbn [Z.add].
    symmetry. apply fraction_mod; [lia|]. apply Z.div_pos; lia. }
  rewrite EX. reflexivity.
Qed.

Lemma dec_text_of2 G E : 10 ^ 8 <= G < 10 ^ 9 -> E <= 0 ->
  decimal_text G (9 - E) = ch "0" :: ch "." :: zeros (- E) ++ digit_char (G / 10 ^ 8) :: fraction 8 (G mod 10 ^ 8).
Proof.
  intros HG HE. rewrite decimal_text_split by lia.
  rewrite Z.div_small. 2: { split; [lia|]. apply Z.lt_le_trans with (10 ^ 9); [lia|]. apply Z.pow_le_mono_r; lia. }
  change (numeral 10 0) with [ch "0"]. cbn [app]. do 2 f_equal. replace (9 - E) with (- E + 9) by lia. rewrite fraction_app by lia.
  rewrite Z.div_small by lia. f_equal.
  - unfold fraction, zeros, rep. rewrite fixdigs_0, map_repeat. reflexivity.
  - change 9 with (8 + 1). apply fraction_top; lia.
Qed.

Lemma decimal_text_len N p : 0 <= N -> 0 < p -> zlen (decimal_text N p) = zlen (numeral 10 (N / 10 ^ p)) + 1 + p.
Proof. intros HN Hp. rewrite decimal_text_split by lia. rewrite zlen_app, zlen_cons, zlen_fraction. lia. Qed.

Lemma numeral_fraction_len M r F p : 0 <= M -> 1 <= r <= p -> F = M * 10 ^ (p - r) -> F / 10 ^ p = M / 10 ^ r.
Proof.
  intros HM Hr HF. pose proof (pow10_pos r ltac:(lia)). pose proof (pow10_pos (p - r) ltac:(lia)). subst F.
  replace p with (p - r + r) at 2 by lia. rewrite Z.pow_add_r by lia. rewrite <- Z.div_div by lia. rewrite Z.div_mul by lia. reflexivity.
Qed.

Lemma same_value M r F p : 1 <= r <= p -> F = M * 10 ^ (p - r) -> (dec F (- p) == dec M (- r))%Q.
Proof.
  intros Hr ->. unfold dec. rewrite inject_Z_mult, ten_Z by lia. rewrite <- Qmult_assoc, <- ten_add. replace (p - r + - p) with (- r) by lia. reflexivity.
Qed.

Lemma toCharsText_ok f e pre : 0 < f < 10 ^ 17 -> -325 <= e <= 292 -> zlen pre <= 1 ->
  exists t, toCharsText f e pre = Ok (pre ++ t) /\ double_text (dec f e) t.
Proof.
  intros Hf He Hpre. unfold toCharsText. rewrite decLen_spec by lia. cbn [bind].
  destruct (ndigits_bounds f ltac:(lia)) as (L0 & L1 & L2). set (len := ndigits f) in *.
  assert (L17 : len <= 17).
  { destruct (Z_le_gt_dec len 17) as [?|G]; [assumption|exfalso]. assert (10 ^ 17 <= 10 ^ (len - 1)) by (apply Z.pow_le_mono_r; lia). lia. }
  unfold H17. rewrite pow10_value by lia. cbn [bind].
  set (F := f * 10 ^ (17 - len)).
  assert (BF : 10 ^ 16 <= F < 10 ^ 17).
  { unfold F. pose proof (pow10_pos (17 - len) ltac:(lia)) as P. replace (10 ^ 16) with (10 ^ (len - 1) * 10 ^ (17 - len)) by (rewrite <- Z.pow_add_r by lia; f_equal; lia).
    replace (10 ^ 17) with (10 ^ len * 10 ^ (17 - len)) by (rewrite <- Z.pow_add_r by lia; f_equal; lia). nia. }
  assert (EF : (dec f e == dec F (e + len - 17))%Q).
  { unfold dec, F. rewrite inject_Z_mult, ten_Z by lia. rewrite <- Qmult_assoc, <- ten_add. replace (17 - len + (e + len - 17)) with e by lia. reflexivity. }
  rewrite (wrap64_small F) by lia. clearbody F. rewrite high8 by lia. set (G := F / 10 ^ 8).
  assert (BG : 10 ^ 8 <= G < 10 ^ 9) by (unfold G; split; [apply Z.div_le_lower_bound; lia|apply Z.div_lt_upper_bound; lia]).
  pose proof (Z.div_mod F (10 ^ 8) ltac:(lia)) as DF. pose proof (Z.mod_pos_bound F (10 ^ 8) ltac:(lia)) as MF. fold G in DF.
  destruct (ten8 G BG) as [Bh Bm]. pose proof (Z.div_mod G (10 ^ 8) ltac:(lia)) as DG.
  rewrite (wrap64_small (100000000 * G)) by lia. change 100000000 with (10 ^ 8). replace (F - 10 ^ 8 * G) with (F mod 10 ^ 8) by lia.
  rewrite (wrap64_small (F mod 10 ^ 8)) by lia. rewrite (FmtP.wrap32_small (F mod 10 ^ 8)) by lia. rewrite magic1 by lia. rewrite (FmtP.wrap32_small (G / 10 ^ 8)) by lia.
  rewrite (FmtP.wrap32_small (10 ^ 8 * (G / 10 ^ 8))) by lia. replace (G - 10 ^ 8 * (G / 10 ^ 8)) with (G mod 10 ^ 8) by lia.
  rewrite (wrap64_small (G mod 10 ^ 8)) by lia. rewrite (FmtP.wrap32_small (G mod 10 ^ 8)) by lia.
  destruct (dec_decade f e ltac:(lia)) as [V1 V2]. fold len in V1, V2. set (E := e + len) in *. replace (len + e) with E in * by (unfold E; lia).
  pose proof (zlen_nonneg pre) as Zp.
  destruct ((0 <? E) && (E <=? 7)) eqn:C1; [|destruct ((-3 <? E) && (E <=? 0)) eqn:C2].
  - apply andb_prop in C1 as [C1 C1']. bools.
    destruct (lowDigits_ok pre F (17 - E) ltac:(lia) ltac:(lia)) as (M & r & B1 & B2 & B3 & B4 & B5).
    { fold G. replace (17 - E - 8) with (9 - E) by lia. unfold fits, MAX_CHARS. rewrite dec_text_of by lia. rewrite zlen_app, zlen_cons, zlen_app, zlen_cons, !zlen_fraction. lia. }
    fold G in B5. replace (17 - E - 8) with (9 - E) in B5 by lia.
    exists (decimal_text M r). split.
    + rewrite <- B5. unfold toChars1. rewrite putDigit_ok by (unfold fits, MAX_CHARS; lia). cbn [bind].
      destruct (extract_ok (Z.to_nat (E - 1)) 8 (G mod 10 ^ 8) (yOf (G mod 10 ^ 8)) (pre ++ [digit_char (G / 10 ^ 8)]) ltac:(lia) (yOf_stands _ Bm)) as (y1 & X1 & S1).
      { unfold fits, MAX_CHARS. rewrite zlen_app, zlen_one. lia. }
      rewrite Z2Nat.id in X1, S1 by lia. replace (8 - (E - 1)) with (9 - E) in X1, S1 by lia.
      rewrite X1. cbn [bind]. rewrite put_ok by (unfold fits, MAX_CHARS; rewrite !zlen_app, zlen_one, zlen_fraction; lia). cbn [bind].
      replace (8 - Z.max 1 E + 1) with (9 - E) by lia.
      destruct (extract_ok (Z.to_nat (9 - E)) (9 - E) _ y1 (((pre ++ [digit_char (G / 10 ^ 8)]) ++ fraction (E - 1) (G mod 10 ^ 8 / 10 ^ (9 - E))) ++ [ch "."]) ltac:(lia) S1) as (y2 & X2 & S2).
      { unfold fits, MAX_CHARS. rewrite !zlen_app, !zlen_one, zlen_fraction. lia. }
      rewrite Z2Nat.id in X2 by lia. rewrite Z.sub_diag, Z.pow_0_r, Z.div_1_r in X2. rewrite X2. cbn [bind].
      rewrite (fraction_mod (9 - E)) by lia. rewrite dec_text_of by lia. f_equal. repeat (rewrite <- !app_assoc; cbn [app]). reflexivity.
    + apply dt_plain.
      * split.
        -- apply Qle_trans with (10 ^ (-3))%Q; [discriminate|]. eapply Qle_trans; [apply (ten_le (-3) (E - 1)); lia|exact V1].
        -- apply Qlt_le_trans with (10 ^ E)%Q; [exact V2|]. change 10000000%Q with (10 ^ 7)%Q. apply ten_le. lia.
      * exists M, r. split; [lia|]. split; [lia|]. split; [exact B3|]. split; [|reflexivity]. rewrite EF. replace (E - 17) with (- (17 - E)) by lia. apply same_value; [lia|exact B4].
  - apply andb_prop in C2 as [C2 C2']. bools.
    destruct (lowDigits_ok pre F (17 - E) ltac:(lia) ltac:(lia)) as (M & r & B1 & B2 & B3 & B4 & B5).
    { fold G. replace (17 - E - 8) with (9 - E) by lia. unfold fits, MAX_CHARS. rewrite dec_text_of2 by lia. rewrite zlen_app, !zlen_cons, zlen_app, zlen_cons, zeros_len, !zlen_fraction by lia. lia. }
    fold G in B5. replace (17 - E - 8) with (9 - E) in B5 by lia.
    exists (decimal_text M r). split.
    + rewrite <- B5. unfold toChars2. rewrite putDigit_ok by (unfold fits, MAX_CHARS; lia). cbn [bind].
      rewrite put_ok by (unfold fits, MAX_CHARS; rewrite !zlen_app, zlen_one; lia). cbn [bind].
      rewrite putZeros_ok by (unfold fits, MAX_CHARS; rewrite !zlen_app, !zlen_one; lia). cbn [bind]. rewrite Z2Nat.id by lia.
      rewrite putDigit_ok by (try (unfold fits, MAX_CHARS; rewrite !zlen_app, !zlen_one, zeros_len); lia). cbn [bind].
      rewrite append8_ok by (try (unfold fits, MAX_CHARS; rewrite !zlen_app, !zlen_one, zeros_len); lia). cbn [bind].
      rewrite dec_text_of2 by lia. f_equal. repeat (rewrite <- !app_assoc; cbn [app]). reflexivity.
    + apply dt_plain.
      * split.
        -- apply Qle_trans with (10 ^ (-3))%Q; [discriminate|]. eapply Qle_trans; [apply (ten_le (-3) (E - 1)); lia|exact V1].
        -- apply Qlt_le_trans with (10 ^ E)%Q; [exact V2|]. change 10000000%Q with (10 ^ 7)%Q. apply ten_le. lia.
      * exists M, r. split; [lia|]. split; [lia|]. split; [exact B3|]. split; [|reflexivity]. rewrite EF. replace (E - 17) with (- (17 - E)) by lia. apply same_value; [lia|exact B4].
  - assert (CE : E <= -3 \/ 8 <= E) by (apply Bool.andb_false_iff in C1, C2; destruct C1 as [C1|C1], C2 as [C2|C2]; bools; lia).
    assert (Tx : decimal_text G 8 = digit_char (G / 10 ^ 8) :: ch "." :: fraction 8 (G mod 10 ^ 8)) by (change 8 with (9 - 1) at 1; rewrite dec_text_of by lia; reflexivity).
    destruct (lowDigits_ok pre F 16 ltac:(lia) ltac:(lia)) as (M & r & B1 & B2 & B3 & B4 & B5).
    { fold G. change (16 - 8) with 8. unfold fits, MAX_CHARS. rewrite Tx. rewrite zlen_app, !zlen_cons, !zlen_fraction by lia. lia. }
    fold G in B5. change (16 - 8) with 8 in B5.
    assert (LM : zlen (decimal_text M r) <= 18).
    { rewrite decimal_text_len by lia. rewrite <- (numeral_fraction_len M r F 16 B1 B2 B4). rewrite numeral_small; [unfold zlen; cbn [Datatypes.length]; lia|].
      split; [apply Z.div_pos; lia|apply Z.div_lt_upper_bound; lia]. }
    exists (decimal_text M r ++ ch "E" :: dec_text (E - 1)). split.
    + unfold toChars3. rewrite putDigit_ok by (unfold fits, MAX_CHARS; lia). cbn [bind].
      rewrite put_ok by (unfold fits, MAX_CHARS; rewrite !zlen_app, zlen_one; lia). cbn [bind].
      rewrite append8_ok by (try (unfold fits, MAX_CHARS; rewrite !zlen_app, !zlen_one); lia). cbn [bind].
      replace (((pre ++ [digit_char (G / 10 ^ 8)]) ++ [ch "."]) ++ fraction 8 (G mod 10 ^ 8)) with (pre ++ decimal_text G 8) by (rewrite Tx, <- !app_assoc; reflexivity).
      rewrite B5. cbn [bind]. rewrite exponent_ok by (try (unfold fits, MAX_CHARS; rewrite zlen_app); lia). rewrite <- app_assoc. reflexivity.
    + assert (V3 : (dec f e == dec M (- r) * 10 ^ (E - 1))%Q).
      { rewrite EF. rewrite <- (same_value M r F 16 B2 B4). unfold dec. rewrite <- Qmult_assoc, <- ten_add. replace (- (16) + (E - 1)) with (E - 17) by lia. reflexivity. }
      apply dt_exponent with (m := dec M (- r)).
      * intros [P1 P2]. destruct CE as [CE|CE].
        -- assert (10 ^ E <= 10 ^ (-3))%Q by (apply ten_le; lia). change (10 ^ (-3))%Q with (1 # 1000) in H. lra.
        -- assert (10 ^ 7 <= 10 ^ (E - 1))%Q by (apply ten_le; lia). change (10 ^ 7)%Q with 10000000%Q in H. lra.
      * rewrite <- (same_value M r F 16 B2 B4). unfold dec. destruct (dec_decade F (-16) ltac:(lia)) as [W1 W2].
        rewrite (ndigits_unique F 17) in W1 by lia. exact W1.
      * rewrite <- (same_value M r F 16 B2 B4). unfold dec. destruct (dec_decade F (-16) ltac:(lia)) as [W1 W2].
        rewrite (ndigits_unique F 17) in W2 by lia. exact W2.
      * exact V3.
      * exists M, r. split; [lia|]. split; [lia|]. split; [exact B3|]. split; reflexivity.
Qed.

(** ** The text is determined *)

Lemma point_text_unique v t t' : point_text v t -> point_text v t' -> t = t'.
Proof.
  intros (N & p & A1 & A2 & A3 & A4 & ->) (N' & p' & B1 & B2 & B3 & B4 & ->).
  assert (G : forall N p N' p', 0 <= N -> 1 <= p <= p' -> (p' = 1 \/ N' mod 10 <> 0) -> (dec N (- p) == dec N' (- p'))%Q -> N = N' /\ p = p').
  { clear. intros N p N' p' HN Hp Hm E. assert (EN : N' = N * 10 ^ (p' - p)).
    { assert (E2 : (dec N (- p) * 10 ^ p' == dec N' (- p') * 10 ^ p')%Q) by (rewrite E; reflexivity). unfold dec in E2. rewrite <- !Qmult_assoc, <- !ten_add in E2.
      replace (- p' + p') with 0 in E2 by lia. change (10 ^ 0)%Q with 1%Q in E2. replace (- p + p') with (p' - p) in E2 by lia. rewrite <- ten_Z, <- inject_Z_mult, Qmult_1_r in E2 by lia.
      apply (proj1 (inject_Z_injective _ _)) in E2. lia. }
    destruct (Z.eq_dec p p') as [->|D]; [split; [rewrite Z.sub_diag, Z.pow_0_r in EN; lia|reflexivity]|exfalso].
    destruct Hm as [?|Hm]; [lia|]. apply Hm. rewrite EN. replace (p' - p) with (1 + (p' - p - 1)) by lia. rewrite Z.pow_add_r, Z.pow_1_r by lia.
    rewrite (Z.mul_comm 10), Z.mul_assoc. apply Z.mod_mul. lia. }
  assert (E : (dec N (- p) == dec N' (- p'))%Q) by (rewrite <- A4; exact B4).
  destruct (Z_le_gt_dec p p') as [L|L].
  - destruct (G N p N' p' A1 ltac:(lia) B3 E) as [-> ->]. reflexivity.
  - destruct (G N' p' N p B1 ltac:(lia) A3 (Qeq_sym _ _ E)) as [-> ->]. reflexivity.
Qed.

Lemma point_text_eq v w t : (v == w)%Q -> point_text v t -> point_text w t.
Proof. intros E (N & p & A1 & A2 & A3 & A4 & A5). exists N, p. split; [exact A1|]. split; [exact A2|]. split; [exact A3|]. split; [rewrite <- E; exact A4|exact A5]. Qed.

Lemma double_text_unique v t t' : (0 < v)%Q -> double_text v t -> double_text v t' -> t = t'.
Proof.
  intros Hv A B. destruct A as [t R A|m x t R M1 M2 M3 A], B as [t' R' B|m' x' t' R' M1' M2' M3' B]; try contradiction.
  - eapply point_text_unique; eassumption.
  - assert (Ex : x = x').
    { pose proof (ten_pos x) as P. pose proof (ten_pos x') as P'.
      assert (10 ^ x < 10 ^ (x' + 1))%Q. { rewrite ten_add. change (10 ^ 1)%Q with 10%Q. nra. }
      assert (10 ^ x' < 10 ^ (x + 1))%Q. { rewrite ten_add. change (10 ^ 1)%Q with 10%Q. nra. }
      apply ten_lt_inv in H, H0. lia. }
    subst x'. assert (Em : (m == m')%Q). { pose proof (ten_pos x) as P. apply (Qmult_inj_r m m' (10 ^ x)%Q); [lra|]. rewrite <- M3. exact M3'. }
    f_equal. eapply point_text_unique; [|exact B]. eapply point_text_eq; [exact Em|exact A].
Qed.

(** ** Every double *)

Lemma toString_finite bits : is_long bits -> 0 < magnitude bits < inf_bits ->
  exists f e t, right_decimal (magnitude bits) f e /\ double_text (dec f e) t /\
    d2d_toString bits = Ok ((if bits <? 0 then [ch "-"] else []) ++ t).
Proof.
  intros Hl Hb. destruct (toDecimal_right bits Hl Hb) as (f & e & E & R). destruct (toDecimal_bound bits _ _ _ Hl Hb E) as [F1 F2]. pose proof (proj1 R) as Pf.
  destruct (toCharsText_ok f e (if bits <? 0 then [ch "-"] else []) ltac:(lia) ltac:(lia)) as (t & T & D). { destruct (bits <? 0); unfold zlen; cbn [Datatypes.length]; lia. }
  exists f, e, t. split; [exact R|]. split; [exact D|]. unfold d2d_toString. rewrite E. cbn [bind].
  destruct (bits <? 0); [rewrite put_ok by (unfold fits, MAX_CHARS, zlen; cbn [Datatypes.length]; lia)|]; cbn [bind app] in *; exact T.
Qed.

Lemma toString_special bits : is_long bits ->
  (magnitude bits = 0 -> d2d_toString bits = Ok (if bits <? 0 then txt "-0.0" else txt "0.0")) /\
  (magnitude bits = inf_bits -> d2d_toString bits = Ok (if bits <? 0 then txt "-Infinity" else txt "Infinity")) /\
  (inf_bits < magnitude bits -> d2d_toString bits = Ok (txt "NaN")).
Proof.
  intros Hl. destruct (C23_special bits Hl) as (S1 & S2 & S3). unfold magnitude, d2d_toString. unfold is_long, long_min, long_max in Hl.
  split; [|split]; intros H; [rewrite S1 by exact H|rewrite S2 by exact H|rewrite S3 by exact H]; cbn [bind]; [| |reflexivity].
  - destruct (bits =? 0) eqn:E, (bits <? 0) eqn:E2; bools; try reflexivity; exfalso; [lia|]. rewrite Z.mod_small in H; lia.
  - destruct (0 <? bits) eqn:E, (bits <? 0) eqn:E2; bools; try reflexivity; exfalso; [lia|]. assert (bits = 0) by lia. subst bits. discriminate H.
Qed.

Lemma appendEach_app chars : forall app, appendEach app chars = app ++ chars.
Proof. induction chars as [|c r IH]; intros app; cbn [appendEach]; [rewrite app_nil_r; reflexivity|]. rewrite IH, <- app_assoc. reflexivity. Qed.

Lemma appendTo_toString bits sb app : d2d_appendTo bits sb app = let* t := d2d_toString bits in Ok (app ++ t).
Proof.
  unfold d2d_appendTo, d2d_toString. destruct (toDecimal bits) as [[neg f e| | | | |]|x]; cbn [bind]; try reflexivity.
  destruct (if neg then put [] (ch "-") else Ok []) as [bs|x]; cbn [bind]; [|reflexivity].
  destruct (toCharsText f e bs) as [t|x]; cbn [bind]; [|reflexivity]. destruct sb; [reflexivity|]. rewrite appendEach_app. reflexivity.
Qed.

(** ** Joining *)

Lemma joinIterator_loop_ok sep it : forall sb, joinIterator_loop sb sep it = joinArray_loop sep (map lenientToString it) sb.
Proof. induction it as [|o r IH]; intros sb; cbn [joinIterator_loop map joinArray_loop]; [reflexivity|]. rewrite IH, <- app_assoc. reflexivity. Qed.

Lemma joinArray_loop_ok sep l : forall sb, joinArray_loop sep l sb = sb ++ concat (map (fun t => sep ++ t) l).
Proof. induction l as [|t r IH]; intros sb; cbn [joinArray_loop map concat]; [rewrite app_nil_r; reflexivity|]. rewrite IH, <- app_assoc, <- app_assoc. reflexivity. Qed.

(** ** The value can be read from the text *)

Lemma split_digits c a b a' b' : ~ is_dig c -> Forall is_dig a -> Forall is_dig a' -> a ++ c :: b = a' ++ c :: b' -> a = a' /\ b = b'.
Proof.
  intros Hc Ha. revert a'. induction Ha as [|x a Hx Ha IH]; intros a' Ha' E; destruct Ha' as [|x' a' Hx' Ha']; cbn [app] in E.
  - injection E as ->. auto.
  - injection E as E1 E2. subst x'. contradiction.
  - injection E as E1 E2. subst x. contradiction.
  - injection E as E1 E2. destruct (IH a' Ha' E2) as [-> ->]. subst x'. auto.
Qed.

Lemma dot_not_digit : ~ is_dig (ch "."). Proof. unfold is_dig. change (ch ".") with 46. lia. Qed.
Lemma E_not_digit : ~ is_dig (ch "E"). Proof. unfold is_dig. change (ch "E") with 69. lia. Qed.

Lemma fraction_inj p p' N N' : 0 <= p -> 0 <= p' -> 0 <= N -> 0 <= N' -> fraction p N = fraction p' N' -> N / 10 ^ p = N' / 10 ^ p' -> p = p' /\ N = N'.
Proof.
  intros Hp Hp' HN HN' E Q. assert (p = p'). { apply (f_equal zlen) in E. rewrite !zlen_fraction in E. lia. }
  subst p'. split; [reflexivity|]. pose proof (pow10_pos p Hp) as P.
  assert (M : N mod 10 ^ p = N' mod 10 ^ p).
  { assert (G : forall n, 0 <= n -> of_digits 10 (map digit_val (fraction p n)) = n mod 10 ^ p).
    { clear - Hp. intros n Hn. unfold fraction. rewrite map_map. rewrite (map_ext_in _ (fun x => x)).
      - rewrite map_id, fixdigs_value by lia. rewrite Z2Nat.id by lia. reflexivity.
      - intros d Hd. apply digit_val_char. pose proof (fixdigs_ok 10 (Z.to_nat p) n ltac:(lia)) as O. unfold digits_ok in O. rewrite Forall_forall in O. apply O in Hd. lia. }
    rewrite <- (G N HN), <- (G N' HN'), E. reflexivity. }
  rewrite (Z.div_mod N (10 ^ p)), (Z.div_mod N' (10 ^ p)), Q, M by lia. reflexivity.
Qed.

Lemma numeral_inj a b : 0 <= a -> 0 <= b -> numeral 10 a = numeral 10 b -> a = b.
Proof. intros Ha Hb E. rewrite <- (of_numeral_numeral 10 a), <- (of_numeral_numeral 10 b), E by lia. reflexivity. Qed.

Lemma decimal_text_inj N p N' p' r r' : 0 <= N -> 1 <= p -> 0 <= N' -> 1 <= p' ->
  (r = [] \/ exists s, r = ch "E" :: s) -> (r' = [] \/ exists s, r' = ch "E" :: s) ->
  decimal_text N p ++ r = decimal_text N' p' ++ r' -> N = N' /\ p = p' /\ r = r'.
Proof.
  intros HN Hp HN' Hp' Hr Hr' E. pose proof (pow10_pos p ltac:(lia)). pose proof (pow10_pos p' ltac:(lia)).
  assert (Q1 : 0 <= N / 10 ^ p) by (apply Z.div_pos; lia). assert (Q2 : 0 <= N' / 10 ^ p') by (apply Z.div_pos; lia).
  rewrite !decimal_text_split in E by lia. rewrite <- !app_assoc in E. cbn [app] in E.
  destruct (split_digits _ _ _ _ _ dot_not_digit (numeral_dig _ Q1) (numeral_dig _ Q2) E) as [E1 E2]. apply (numeral_inj _ _ Q1 Q2) in E1.
  pose proof (fraction_dig p N) as F1. pose proof (fraction_dig p' N') as F2. rewrite Forall_forall in F1, F2.
  assert (G : fraction p N = fraction p' N' /\ r = r').
  { destruct Hr as [->|(s & ->)], Hr' as [->|(s' & ->)].
    - rewrite !app_nil_r in E2. auto.
    - exfalso. apply E_not_digit. apply F1. rewrite app_nil_r in E2. rewrite E2. apply in_or_app. right. left. reflexivity.
    - exfalso. apply E_not_digit. apply F2. rewrite app_nil_r in E2. rewrite <- E2. apply in_or_app. right. left. reflexivity.
    - destruct (split_digits _ _ _ _ _ E_not_digit (fraction_dig _ _) (fraction_dig _ _) E2) as [-> ->]. auto. }
  destruct G as [G ->]. destruct (fraction_inj p p' N N' ltac:(lia) ltac:(lia) HN HN' G E1) as [-> ->]. auto.
Qed.

Lemma dec_text_inj x y : dec_text x = dec_text y -> x = y.
Proof.
  unfold dec_text. intros E.
  assert (D : forall n, 0 <= n -> forall s, numeral 10 n <> ch "-" :: s).
  { intros n Hn s En. pose proof (numeral_dig n Hn) as F. rewrite En in F. inversion F as [|c l Hc]; subst. unfold is_dig in Hc. change (ch "-") with 45 in Hc. lia. }
  destruct (x <? 0) eqn:Ex, (y <? 0) eqn:Ey; bools.
  - injection E as E. apply numeral_inj in E; lia.
  - exfalso. apply (D y ltac:(lia) (numeral 10 (- x))). symmetry. exact E.
  - exfalso. apply (D x ltac:(lia) (numeral 10 (- y))). exact E.
  - apply numeral_inj in E; lia.
Qed.

Lemma double_text_value v v' t : double_text v t -> double_text v' t -> (v == v')%Q.
Proof.
  intros A B. inversion A as [s R (N & p & A1 & A2 & A3 & A4 & ->) Es|m x s R M1 M2 M3 (N & p & A1 & A2 & A3 & A4 & ->) Es]; subst t;
  inversion B as [s' R' (N' & p' & B1 & B2 & B3 & B4 & ->) Es'|m' x' s' R' M1' M2' M3' (N' & p' & B1 & B2 & B3 & B4 & ->) Es'].
  - rewrite <- (app_nil_r (decimal_text N' p')), <- (app_nil_r (decimal_text N p)) in Es'.
    apply decimal_text_inj in Es' as (-> & -> & _); auto. rewrite A4. symmetry. exact B4.
  - exfalso. rewrite <- (app_nil_r (decimal_text N p)) in Es'. apply decimal_text_inj in Es' as (_ & _ & E); auto; [discriminate|]. right. eexists. reflexivity.
  - exfalso. rewrite <- (app_nil_r (decimal_text N' p')) in Es'. apply decimal_text_inj in Es' as (_ & _ & E); auto; [discriminate|]. right. eexists. reflexivity.
  - apply decimal_text_inj in Es' as (-> & -> & E); auto; try (right; eexists; reflexivity). injection E as E. apply dec_text_inj in E. subst x'.
    rewrite M3, M3', A4, B4. reflexivity.
Qed.

Lemma double_text_head v t : double_text v t -> exists c r, t = c :: r /\ is_dig c.
Proof.
  assert (G : forall N p, 0 <= N -> 1 <= p -> exists c r, decimal_text N p = c :: r /\ is_dig c).
  { intros N p HN Hp. assert (Q : 0 <= N / 10 ^ p) by (apply Z.div_pos; [lia|apply Z.pow_pos_nonneg; lia]). rewrite decimal_text_split by lia.
    pose proof (numeral_nonempty 10 (N / 10 ^ p) ltac:(lia) Q) as Ne. pose proof (numeral_dig _ Q) as F. destruct (numeral 10 (N / 10 ^ p)) as [|c r]; [unfold zlen in Ne; cbn in Ne; lia|].
    inversion F; subst. cbn [app]. eexists c, _. split; [reflexivity|assumption]. }
  intros A. destruct A as [t R (N & p & A1 & A2 & A3 & A4 & ->)|m x t R M1 M2 M3 (N & p & A1 & A2 & A3 & A4 & ->)].
  - apply G; assumption.
  - destruct (G N p A1 A2) as (c & r & -> & Hc). cbn [app]. eexists c, _. split; [reflexivity|exact Hc].
Qed.

Lemma toString_injective b b' t : is_long b -> is_long b' -> magnitude b <= inf_bits -> magnitude b' <= inf_bits ->
  d2d_toString b = Ok t -> d2d_toString b' = Ok t -> b = b'.
Proof.
  intros Hl Hl' Hm Hm' E E'.
  assert (Same : magnitude b = magnitude b' -> (b <? 0) = (b' <? 0) -> b = b').
  { clear - Hl Hl'. unfold magnitude, is_long, long_min, long_max in *. intros M S. destruct (b <? 0) eqn:X, (b' <? 0) eqn:Y; try discriminate; bools.
    - assert (G : forall z, -9223372036854775808 <= z < 0 -> z mod 2 ^ 63 = z + 2 ^ 63) by (clear; intros z Hz; symmetry; apply Z.mod_unique_pos with (q := -1); lia).
      rewrite !G in M by lia. lia.
    - rewrite !Z.mod_small in M by lia. exact M. }
  (* the text without its sign *)
  assert (K : forall b, is_long b -> magnitude b <= inf_bits -> exists c r, d2d_toString b = Ok ((if b <? 0 then [ch "-"] else []) ++ c :: r) /\ c <> ch "-" /\
    (magnitude b = 0 /\ c :: r = txt "0.0" \/ magnitude b = inf_bits /\ c :: r = txt "Infinity" \/
     0 < magnitude b < inf_bits /\ exists v, (0 < v)%Q /\ rounds_to v (magnitude b) /\ double_text v (c :: r))).
  { clear. intros b Hl Hm. assert (0 <= magnitude b) by (apply Z.mod_pos_bound; lia). destruct (toString_special b Hl) as (S1 & S2 & _).
    destruct (Z.eq_dec (magnitude b) 0) as [E0|N0].
    { exists (ch "0"), (txt ".0"). rewrite S1 by exact E0. split; [destruct (b <? 0); reflexivity|]. split; [discriminate|]. left. auto. }
    destruct (Z.eq_dec (magnitude b) inf_bits) as [E1|N1].
    { exists (ch "I"), (txt "nfinity"). rewrite S2 by exact E1. split; [destruct (b <? 0); reflexivity|]. split; [discriminate|]. right. left. auto. }
    destruct (toString_finite b Hl ltac:(lia)) as (f & e & t & R & D & E). destruct (double_text_head _ _ D) as (c & r & -> & Hc).
    exists c, r. split; [exact E|]. split. { intros ->. unfold is_dig in Hc. change (ch "-") with 45 in Hc. lia. }
    right. right. split; [lia|]. exists (dec f e). destruct R as (R1 & R2 & _). split; [apply dec_pos; exact R1|]. split; assumption. }
  destruct (K b Hl Hm) as (c & r & Eb & Hc & Cb). destruct (K b' Hl' Hm') as (c' & r' & Eb' & Hc' & Cb'). clear K.
  assert (St : (if b <? 0 then [ch "-"] else []) ++ c :: r = (if b' <? 0 then [ch "-"] else []) ++ c' :: r') by congruence.
  assert (S0 : (b <? 0) = (b' <? 0) /\ c :: r = c' :: r').
  { destruct (b <? 0), (b' <? 0); cbn [app] in St; split; try reflexivity; try congruence; exfalso; injection St as St1 St2; congruence. }
  destruct S0 as [S0 T]. apply Same; [|exact S0]. rewrite <- T in Cb'. clear - Cb Cb'.
  assert (Z1 : forall v, (0 < v)%Q -> double_text v (txt "0.0") -> False).
  { intros v Hv D. assert (D0 : double_text v (decimal_text 0 1)) by exact D. assert (E : (v == 0)%Q).
    { inversion D0 as [s R (N & p & A1 & A2 & A3 & A4 & ->) Es|m x s R M1 M2 M3 (N & p & A1 & A2 & A3 & A4 & ->) Es].
      - rewrite <- (app_nil_r (decimal_text N p)), <- (app_nil_r (decimal_text 0 1)) in Es. apply decimal_text_inj in Es as (-> & -> & _); auto; try lia. rewrite A4. reflexivity.
      - rewrite <- (app_nil_r (decimal_text 0 1)) in Es. apply decimal_text_inj in Es as (_ & _ & E); auto; try lia; [discriminate|]. right. eexists. reflexivity. }
    rewrite E in Hv. discriminate Hv. }
  assert (Z2 : forall v, double_text v (txt "Infinity") -> False).
  { intros v D. destruct (double_text_head _ _ D) as (c0 & r0 & E & Hd). injection E as E _. subst c0. destruct Hd as [_ Hd]. apply Hd. reflexivity. }
  destruct Cb as [[M1 T1]|[[M1 T1]|[M1 (v & P1 & R1 & D1)]]], Cb' as [[M2 T2]|[[M2 T2]|[M2 (v' & P2 & R2 & D2)]]]; try lia.
  - rewrite T1 in T2. discriminate.
  - exfalso. rewrite T1 in D2. eauto.
  - rewrite T1 in T2. discriminate.
  - exfalso. rewrite T1 in D2. eauto.
  - exfalso. rewrite T2 in D1. eauto.
  - exfalso. rewrite T2 in D1. eauto.
  - apply (rounds_unique v); try lia; [exact R1|]. eapply rounds_eq; [|exact R2]. apply (double_text_value v' v _ D2 D1).
Qed.
