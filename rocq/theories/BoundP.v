(** How long the texts of numbers can get. *)
From Coq Require Import QArith.
From Verif Require Import Base Digits UtilsM SeqM SeqSpec SeqP SeqSubP ContextM CompilerM GrammarSpec IntFormM FormatterM MathM DecimalM FPDecimalM
  DoubleM BigDecM RoundM TraitsM ImplM FmtSpec FmtP FmtP2 DirSpec DecSpec FloatSpec BigSpec FPDecP FloatP DoubleP HexP FloatQ FloatArgP AnnP BigDecP BigGenP
  IntP PropsInt PropsFloat PropsBig WidthP.
Open Scope Z_scope.

(** ** Integers *)

Lemma int_digits_len b n prec p : 2 <= b -> 0 <= n -> match prec with Some k => k <= p | None => True end -> zlen (int_digits b n prec) <= Z.max p (zlen (digits b n)).
Proof.
  intros Hb Hn Hp. unfold int_digits. destruct prec as [k|]; [|rewrite zlen_numeral; lia].
  destruct ((n =? 0) && (k =? 0)); [pose proof (digits_nonempty b n Hb Hn); change (zlen (@nil Z)) with 0; lia|].
  unfold min_digits, zeros. rewrite zlen_app, zlen_rep, zlen_numeral. lia.
Qed.

Lemma pad_number_len q zp pre body : zlen (pad_number q zp pre body) = Z.max (q_width q) (zlen pre + zlen body).
Proof.
  unfold pad_number, justify, zeros, spaces. pose proof (zlen_nonneg pre). pose proof (zlen_nonneg body).
  destruct (zp && negb (q_left q)); [rewrite !zlen_app, zlen_rep; lia|]. destruct (q_left q); rewrite !zlen_app, zlen_rep; lia.
Qed.

Lemma justify_len q t : zlen (justify q t) = Z.max (q_width q) (zlen t).
Proof. unfold justify, spaces. pose proof (zlen_nonneg t). destruct (q_left q); rewrite zlen_app, zlen_rep; lia. Qed.

Lemma force_zero_len ds : zlen (force_zero ds) <= zlen ds + 1.
Proof.
  assert (H : force_zero ds = ds \/ force_zero ds = 48 :: ds).
  { unfold force_zero. destruct ds as [|d r]; [right; reflexivity|]. destruct (Z.eq_dec d 48) as [->|N]; [left; reflexivity|right].
    destruct d as [|d|d]; try reflexivity. repeat (destruct d as [d|d|]; try reflexivity; try lia). }
  destruct H as [-> | ->]; rewrite ?zlen_cons; lia.
Qed.

Definition prec_ge (q : fspec) (p : Z) : Prop := match q_prec q with Some k => k <= p | None => True end.

Lemma j_d_short q z p : prec_ge q p -> zlen (j_d q z) <= Z.max (q_width q) (1 + Z.max p (zlen (digits 10 (Z.abs z)))).
Proof.
  intros Hp. unfold j_d. destruct (d_irregular q z); [rewrite justify_len; pose proof (digits_nonempty 10 (Z.abs z) ltac:(lia) ltac:(lia)); change (zlen (@nil Z)) with 0; lia|].
  unfold c_d. rewrite pad_number_len. pose proof (zlen_sign_text q (z <? 0)). pose proof (int_digits_len 10 (Z.abs z) (q_prec q) p ltac:(lia) ltac:(lia) Hp). lia.
Qed.

Lemma c_u_short q n p : 0 <= n -> prec_ge q p -> zlen (c_u q n) <= Z.max (q_width q) (Z.max p (zlen (digits 10 n))).
Proof.
  intros Hn Hp. unfold c_u. rewrite pad_number_len. change (zlen (@nil Z)) with 0. pose proof (int_digits_len 10 n (q_prec q) p ltac:(lia) Hn Hp). lia.
Qed.

Lemma j_x_short q n p : 0 <= n -> prec_ge q p -> zlen (j_x q n) <= Z.max (q_width q) (2 + Z.max p (zlen (digits 16 n))).
Proof.
  intros Hn Hp. pose proof (digits_nonempty 16 n ltac:(lia) Hn). unfold j_x. destruct (x_irregular q n).
  - rewrite justify_len. unfold min_digits, zeros. rewrite zlen_app, zlen_rep. change (zlen (txt "0")) with 1. lia.
  - unfold c_x. rewrite pad_number_len. pose proof (int_digits_len 16 n (q_prec q) p ltac:(lia) Hn Hp).
    assert (zlen (if q_alt q && negb (n =? 0) then txt "0x" else []) <= 2) by (destruct (q_alt q && negb (n =? 0)); vm_compute; discriminate). lia.
Qed.

Lemma j_o_short q n p : 0 <= n -> prec_ge q p -> zlen (j_o q n) <= Z.max (q_width q) (1 + Z.max p (zlen (digits 8 n))).
Proof.
  intros Hn Hp. pose proof (digits_nonempty 8 n ltac:(lia) Hn). unfold j_o. destruct (o_irregular q n).
  - rewrite justify_len. unfold prec_ge in Hp. destruct (q_prec q) as [k|]; [destruct (k =? 0); [change (zlen (@nil Z)) with 0; lia|]|];
      unfold min_digits, zeros; rewrite zlen_app, zlen_rep; change (zlen (txt "0")) with 1; lia.
  - unfold c_o. rewrite pad_number_len. change (zlen (@nil Z)) with 0. pose proof (int_digits_len 8 n (q_prec q) p ltac:(lia) Hn Hp).
    destruct (q_alt q); [pose proof (force_zero_len (int_digits 8 n (q_prec q)))|]; lia.
Qed.

(** ** Doubles *)

Lemma pow10_gt p : 0 <= p -> 0 < 10 ^ p.
Proof. intros H. apply Z.pow_pos_nonneg; lia. Qed.

Lemma f_integer_part f e p : 0 <= f < 10 ^ 17 -> e <= 292 -> 0 <= p -> 0 <= hup f (- (e + p)) / 10 ^ p < 10 ^ 309.
Proof.
  intros Hf He Hp. pose proof (pow10_gt p Hp) as P. split; [apply Z.div_pos; [apply hup_nonneg'; lia|exact P]|].
  apply Z.div_lt_upper_bound; [exact P|]. unfold hup. destruct (Z.leb_spec (- (e + p)) 0) as [L|L].
  - replace (- - (e + p)) with (e + p) by lia. apply Z.lt_le_trans with (10 ^ 17 * 10 ^ (e + p)); [pose proof (pow10_gt (e + p) ltac:(lia)); nia|].
    rewrite <- !Z.pow_add_r by lia. apply Z.pow_le_mono_r; lia.
  - set (k := - (e + p)) in *. pose proof (pow10_gt k ltac:(lia)) as K. assert (H : 10 ^ k / 2 <= 10 ^ k) by (apply Z.div_le_upper_bound; lia).
    assert (M : (f + 10 ^ k / 2) / 10 ^ k <= f + 1) by (apply Z.div_le_upper_bound; nia).
    assert (10 ^ 17 < 10 ^ 309) by (apply Z.pow_lt_mono_r; lia). nia.
Qed.

Lemma f_body_short q f e : 0 <= f < 10 ^ 17 -> e <= 292 -> 0 <= prec_or 6 q -> zlen (f_body q f e) <= 310 + prec_or 6 q.
Proof.
  intros Hf He Hp. unfold f_body. cbv zeta. pose proof (f_integer_part f e (prec_or 6 q) Hf He Hp) as B.
  pose proof (zlen_with_alt (q_alt q) (hup f (- (e + prec_or 6 q))) (prec_or 6 q) Hp) as W. pose proof (zlen_numeral_lt _ 309 ltac:(lia) B). unfold with_alt in W. lia.
Qed.

Lemma sig0_bounds f e P S X : 0 <= f < 10 ^ 17 -> -325 <= e <= 292 -> 1 <= P -> sig0 f e P = (S, X) -> 0 <= S < 10 ^ P /\ -325 <= X <= 309.
Proof.
  intros Hf He HP. unfold sig0. pose proof (pow10_gt P ltac:(lia)). destruct (Z.eqb_spec f 0) as [F|F]; [intros E; apply pair_eq in E as [<- <-]; lia|].
  intros E. pose proof (sig_right f e P S X ltac:(lia) HP E) as (X0 & N & _ & _ & _ & B). pose proof (pow10_gt (P - 1) ltac:(lia)). split; [lia|].
  destruct (ndigits_bounds f ltac:(lia)) as (N1 & _ & _). assert (N2 : ndigits f <= 17) by (apply digits_len_le; lia).
  unfold FloatSpec.sig in E. cbv zeta in E. destruct (_ =? _); apply pair_eq in E as [_ <-]; lia.
Qed.

Lemma lead_digits S k j : 0 <= S -> 0 <= j -> 1 <= k -> S < 10 ^ (j + k) -> zlen (numeral 10 (S / 10 ^ j)) <= k.
Proof.
  intros HS Hj Hk B. pose proof (pow10_gt j Hj). apply zlen_numeral_lt; [exact Hk|]. split; [apply Z.div_pos; lia|]. apply Z.div_lt_upper_bound; [lia|]. rewrite <- Z.pow_add_r by lia. exact B.
Qed.

Lemma e_body_short q f e : 0 <= f < 10 ^ 17 -> -325 <= e <= 292 -> 0 <= prec_or 6 q -> zlen (e_body q f e) <= 7 + prec_or 6 q.
Proof.
  intros Hf He Hp. unfold e_body. cbv zeta. destruct (sig0 f e (prec_or 6 q + 1)) as [S X] eqn:E. destruct (sig0_bounds f e (prec_or 6 q + 1) S X Hf He ltac:(lia) E) as [BS BX].
  rewrite zlen_app. pose proof (zlen_exp_text X ltac:(lia)). pose proof (zlen_with_alt (q_alt q) S (prec_or 6 q) Hp) as W. unfold with_alt in W.
  pose proof (lead_digits S 1 (prec_or 6 q) ltac:(lia) Hp ltac:(lia) ltac:(lia)). lia.
Qed.

Lemma g_text_len q S p : 0 <= S -> 0 <= p -> zlen (g_text q S p) <= zlen (numeral 10 (S / 10 ^ p)) + 1 + p.
Proof.
  intros HS Hp. unfold g_text. destruct (q_alt q); [rewrite zlen_alt_text by exact Hp; lia|]. pose proof (zlen_short_text S p HS Hp). rewrite zlen_decimal_text in * by exact Hp. destruct (p =? 0); lia.
Qed.

Lemma g_body_short q f e : 0 <= f < 10 ^ 17 -> -325 <= e <= 292 -> 1 <= g_prec q -> zlen (g_body q f e) <= 6 + g_prec q /\ zlen (g_unpadded q f e) <= 6 + g_prec q.
Proof.
  intros Hf He Hp. unfold g_body, g_unpadded. cbv zeta. set (P := g_prec q) in *. clearbody P. destruct (sig0 f e P) as [S X] eqn:E.
  destruct (sig0_bounds f e P S X Hf He Hp E) as [BS BX]. pose proof (zlen_exp_text X ltac:(lia)) as Lx. split.
  - destruct ((-4 <=? X) && (X <? P)) eqn:R.
    + apply andb_prop in R as [R1 R2]. apply Z.leb_le in R1. apply Z.ltb_lt in R2. pose proof (g_text_len q S (P - 1 - X) ltac:(lia) ltac:(lia)) as G.
      destruct (Z_lt_ge_dec X 0) as [N|N].
      * assert (D : zlen (numeral 10 (S / 10 ^ (P - 1 - X))) <= 1).
        { apply lead_digits; try lia. apply Z.lt_le_trans with (10 ^ P); [lia|apply Z.pow_le_mono_r; lia]. }
        lia.
      * assert (D : zlen (numeral 10 (S / 10 ^ (P - 1 - X))) <= X + 1) by (apply lead_digits; try lia; replace (P - 1 - X + (X + 1)) with P by lia; lia). lia.
    + rewrite zlen_app. pose proof (g_text_len q S (P - 1) ltac:(lia) ltac:(lia)) as G. pose proof (lead_digits S 1 (P - 1) ltac:(lia) ltac:(lia) ltac:(lia) ltac:(replace (P - 1 + 1) with P by lia; lia)). lia.
  - rewrite zlen_app. assert (M : zlen (if P =? 1 then decimal_text S 0 else alt_text (S / 10 ^ (P - Z.min (ndigits f) P)) (Z.min (ndigits f) P - 1)) <= P + 1); [|lia].
    assert (N1 : 1 <= ndigits f) by (apply digits_nonempty; lia).
    destruct (Z.eqb_spec P 1) as [P1|P1].
    + rewrite zlen_decimal_text by lia. pose proof (lead_digits S 1 0 ltac:(lia) ltac:(lia) ltac:(lia) ltac:(subst P; lia)). cbn [Z.eqb]. change (0 =? 0) with true. cbn match. lia.
    + set (m := Z.min (ndigits f) P) in *. rewrite zlen_alt_text by lia. pose proof (pow10_gt (P - m) ltac:(lia)). pose proof (pow10_gt (m - 1) ltac:(lia)). rewrite Z.div_div by lia. rewrite <- Z.pow_add_r by lia. replace (P - m + (m - 1)) with (P - 1) by lia.
      pose proof (lead_digits S 1 (P - 1) ltac:(lia) ltac:(lia) ltac:(lia) ltac:(replace (P - 1 + 1) with P by lia; lia)). lia.
Qed.

Lemma bin_exp_short x : -1100 <= x <= 1100 -> zlen (bin_exp_text x) <= 6.
Proof. intros H. unfold bin_exp_text. rewrite !zlen_cons. pose proof (zlen_numeral_lt (Z.abs x) 4 ltac:(lia) ltac:(lia)). lia. Qed.

Lemma hex_lead M k : 0 <= M < 16 * 16 ^ k -> 0 <= k -> zlen (hex_text M k) <= 2 + k.
Proof.
  intros HM Hk. unfold hex_text. rewrite zlen_app, zlen_cons, zlen_hex_fraction by exact Hk. pose proof (pow16_pos k Hk).
  assert (zlen (numeral 16 (M / 16 ^ k)) <= 1); [|lia]. rewrite zlen_numeral. apply digits_len_le; try lia; [apply Z.div_pos; lia|]. apply Z.div_lt_upper_bound; lia.
Qed.

Lemma hex_digits_bounds b P M x : 0 < b < inf_bits -> 1 <= P -> hex_digits b P = (M, x) -> 0 <= M < 2 * 16 ^ P /\ -1100 <= x <= 1100.
Proof.
  intros Hb HP. unfold hex_digits. destruct (bin_parts b) as [c x0] eqn:Ep. destruct (bin_parts_range b c x0 ltac:(lia) Ep) as (Rc & Rx & Cp). specialize (Cp ltac:(lia)).
  replace (c =? 0) with false by lia. cbn [orb]. pose proof (pow16_pos P ltac:(lia)) as P16. destruct (Z.leb_spec 13 P) as [L|L].
  - intros E. apply pair_eq in E as [<- <-]. split; [|lia]. pose proof (pow16_pos (P - 13) ltac:(lia)). assert (E : 16 ^ P = 2 ^ 52 * 16 ^ (P - 13)) by (change (2 ^ 52) with (16 ^ 13); rewrite <- Z.pow_add_r by lia; f_equal; lia). rewrite E. nia.
  - assert (Lg : 2 ^ Z.log2 c <= c < 2 ^ (Z.log2 c + 1)) by (apply Z.log2_spec; lia). pose proof (Z.log2_nonneg c) as L0.
    assert (L1 : Z.log2 c <= 52). { assert (Z.log2 c < 53); [|lia]. apply Z.log2_lt_pow2; lia. }
    set (l := Z.log2 c) in *. clearbody l. cbv zeta. rewrite Z.pow_add_r in Lg by lia. change (2 ^ 1) with 2 in Lg. pose proof (Z.pow_pos_nonneg 2 l ltac:(lia) L0) as Pl.
    pose proof (near_even_range (c * 16 ^ P) (2 ^ l) (2 * 16 ^ P) Pl ltac:(split; nia)) as R.
    destruct (Z.eqb_spec (near_even (c * 16 ^ P) (2 ^ l)) (2 * 16 ^ P)) as [Q|Q]; intros E; apply pair_eq in E as [<- <-]; lia.
Qed.

Lemma a_body_short q b : 0 <= b < inf_bits -> match q_prec q with Some p => 0 <= p | None => True end ->
  zlen (a_body q b) <= 8 + match q_prec q with Some p => Z.max 1 p | None => 13 end.
Proof.
  intros Hb Hp. unfold a_body. destruct (q_prec q) as [p|]; [cbv zeta; destruct (Z.eqb_spec b 0) as [B0|B0]|].
  - rewrite zlen_app. change (zlen (bin_exp_text 0)) with 3. pose proof (pow16_pos (Z.max 1 p) ltac:(lia)). pose proof (hex_lead 0 (Z.max 1 p) ltac:(lia) ltac:(lia)). lia.
  - destruct (hex_digits b (Z.max 1 p)) as [M x] eqn:E. destruct (hex_digits_bounds b (Z.max 1 p) M x ltac:(lia) ltac:(lia) E) as [BM BX]. rewrite zlen_app.
    pose proof (bin_exp_short x BX). pose proof (pow16_pos (Z.max 1 p) ltac:(lia)). pose proof (hex_lead M (Z.max 1 p) ltac:(lia) ltac:(lia)). lia.
  - destruct (bin_parts b) as [c x] eqn:Ep. destruct (bin_parts_range b c x Hb Ep) as (Rc & Rx & _). pose proof (drop_hex_spec 12 c ltac:(lia)) as D. destruct (FloatSpec.drop_hex 13 c) as [G k].
    destruct D as (K & E & HG). change (Z.of_nat 13) with 13 in *. rewrite zlen_app. pose proof (bin_exp_short x ltac:(lia)).
    pose proof (pow16_pos k ltac:(lia)) as P1. pose proof (pow16_pos (13 - k) ltac:(lia)) as P2. assert (16 ^ k * 16 ^ (13 - k) = 2 ^ 52) by (rewrite <- Z.pow_add_r by lia; replace (k + (13 - k)) with 13 by lia; reflexivity).
    pose proof (hex_lead G k ltac:(nia) ltac:(lia)). lia.
Qed.
