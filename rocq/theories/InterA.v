(** C104: %a at the level of texts. *)
From Verif Require Import Base Digits ContextM CompilerM SeqSpec FmtSpec FmtP DecSpec FloatSpec FPDecP HexP BoundP WholeSpec FlagP InterSpec InterP InterP2 InterP3 InterE.
Open Scope Z_scope.

Definition hex_field (q : fspec) (neg : bool) (t : list Z) : list Z := pad_number q (q_zero q) (sign_text q neg ++ txt "0x") t.
Lemma hex_field_eq q neg b : j_a q neg b = hex_field q neg (a_body q b). Proof. reflexivity. Qed.
Definition a_filled (q : fspec) : bool := q_zero q && negb (q_left q) && (shortest_hex q <? q_width q).
Definition a_seen (q : fspec) : bool := q_left q || a_filled q || (q_width q <=? longest_hex q).
Lemma fewest_pos q : 1 <= fewest_hex q.
Proof. unfold fewest_hex. destruct (q_prec q); lia. Qed.
Lemma fewest_most q : fewest_hex q <= most_hex q.
Proof. unfold fewest_hex, most_hex. destruct (q_prec q); lia. Qed.

(** ** The same texts *)
Lemma plainest_a_field q t : 3 <= zlen t -> justify (plainest_a q) t = justify q t.
Proof. intros H. symmetry. rewrite !justify_just. unfold plainest_a. cbv zeta. cbn [q_width q_left]. apply just_plainest; lia. Qed.
Lemma plainest_a_body q b : a_body (plainest_a q) b = a_body q b.
Proof.
  unfold a_body. change (q_prec (plainest_a q)) with (match q_prec q with Some p => Some (Z.max 1 p) | None => None end). destruct (q_prec q) as [p|]; [|reflexivity].
  replace (Z.max 1 (Z.max 1 p)) with (Z.max 1 p) by lia. reflexivity.
Qed.
Lemma plainest_a_finite q neg t : fewest_hex q + 5 <= zlen t <= most_hex q + 8 -> hex_field (plainest_a q) neg t = hex_field q neg t.
Proof.
  intros Ht. pose proof (sign_len q neg) as Ls. pose proof (zlen_nonneg (sign_text q neg)) as L0. pose proof (fewest_pos q) as Lf. pose proof (fewest_most q) as Lm.
  assert (Lx : zlen (txt "0x") = 2) by reflexivity.
  destruct (a_seen q) eqn:V.
  - assert (Sg : sign_text (plainest_a q) neg = sign_text q neg).
    { unfold sign_text. change (q_plus (plainest_a q)) with (q_plus q). change (q_space (plainest_a q)) with (q_space q && negb (q_plus q) && a_seen q). rewrite V. destruct neg, (q_plus q), (q_space q); reflexivity. }
    unfold hex_field, pad_number. rewrite Sg. clear Sg V.
    change (q_zero (plainest_a q)) with (q_zero q && negb (q_left q) && (shortest_hex q <? q_width q)).
    change (q_left (plainest_a q)) with (q_left q && (3 <? q_width q)). change (q_width (plainest_a q)) with (width_above 3 (q_width q)).
    assert (J : justify (plainest_a q) ((sign_text q neg ++ txt "0x") ++ t) = justify q ((sign_text q neg ++ txt "0x") ++ t)) by (apply plainest_a_field; rewrite !zlen_app; lia).
    unfold shortest_hex.
    destruct (q_zero q && negb (q_left q)) eqn:Z0; cbn [andb]; [|exact J].
    apply andb_true_iff in Z0 as [_ Z0]. apply negb_true_iff in Z0. rewrite Z0. cbn [andb negb]. rewrite andb_true_r. destruct (Z.ltb_spec ((if q_plus q || q_space q then 1 else 0) + 4 + fewest_hex q + 3) (q_width q)).
    + unfold width_above. destruct (Z.leb_spec (q_width q) 3); [|reflexivity]. exfalso. destruct (q_plus q || q_space q); lia.
    + rewrite J. rewrite justify_fits by (rewrite !zlen_app; lia). rewrite zeros_neg by (rewrite zlen_app; lia). reflexivity.
  - pose proof V as V'. unfold a_seen in V. apply orb_false_iff in V as [V V3]. apply orb_false_iff in V as [V1 V2]. apply Z.leb_gt in V3. unfold a_filled in V2. rewrite V1 in V2. cbn [negb] in V2. rewrite andb_true_r in V2.
    unfold longest_hex, shortest_hex in *.
    assert (Z0 : q_zero q = false).
    { apply andb_false_iff in V2 as [V2|V2]; [exact V2|]. apply Z.ltb_ge in V2. exfalso. destruct (q_plus q || q_space q); lia. }
    unfold hex_field, pad_number. change (q_zero (plainest_a q)) with (q_zero q && negb (q_left q) && (shortest_hex q <? q_width q)). rewrite Z0. cbn [andb].
    rewrite plainest_a_field by (rewrite !zlen_app; pose proof (zlen_nonneg (sign_text (plainest_a q) neg)); lia).
    assert (Sp : q_space (plainest_a q) = false).
    { change (q_space (plainest_a q)) with (q_space q && negb (q_plus q) && a_seen q). rewrite V'. apply andb_false_r. }
    unfold sign_text. rewrite Sp. change (q_plus (plainest_a q)) with (q_plus q). destruct neg, (q_plus q); try reflexivity. destruct (q_space q); [|reflexivity].
    unfold justify. rewrite V1. rewrite <- !app_assoc. change (txt " " ++ txt "0x" ++ t) with (32 :: (txt "0x" ++ t)). cbn [app]. symmetry. apply blank_joins. rewrite zlen_app. lia.
Qed.

(** ** How long they are *)
Lemma bin_exp_least x : 3 <= zlen (bin_exp_text x).
Proof. unfold bin_exp_text. rewrite !zlen_cons. pose proof (numeral_nonempty 10 (Z.abs x) ltac:(lia) ltac:(lia)). lia. Qed.
Lemma hex_text_least M k : 0 <= M -> 0 <= k -> 2 + k <= zlen (hex_text M k).
Proof.
  intros HM Hk. unfold hex_text. rewrite zlen_app, zlen_cons, zlen_hex_fraction by exact Hk. pose proof (pow16_pos k Hk).
  pose proof (numeral_nonempty 16 (M / 16 ^ k) ltac:(lia) ltac:(apply Z.div_pos; lia)). lia.
Qed.
Lemma a_body_long q b : 0 <= b < inf_bits -> fewest_hex q + 5 <= zlen (a_body q b).
Proof.
  intros Hb. unfold a_body, fewest_hex. destruct (q_prec q) as [p|]; [cbv zeta; destruct (Z.eqb_spec b 0) as [B0|B0]|].
  - rewrite zlen_app. pose proof (bin_exp_least 0). pose proof (hex_text_least 0 (Z.max 1 p) ltac:(lia) ltac:(lia)). lia.
  - destruct (hex_digits b (Z.max 1 p)) as [M x] eqn:E. destruct (hex_digits_bounds b (Z.max 1 p) M x ltac:(lia) ltac:(lia) E) as [BM BX]. rewrite zlen_app.
    pose proof (bin_exp_least x). pose proof (hex_text_least M (Z.max 1 p) ltac:(lia) ltac:(lia)). lia.
  - destruct (bin_parts b) as [c x] eqn:Ep. destruct (bin_parts_range b c x Hb Ep) as (Rc & _). pose proof (drop_hex_spec 12 c ltac:(lia)) as D. destruct (FloatSpec.drop_hex 13 c) as [G k].
    destruct D as (K & _ & HG). rewrite zlen_app. pose proof (bin_exp_least x). pose proof (hex_text_least G k HG ltac:(lia)). lia.
Qed.
Lemma a_body_len q b : prec_fine q -> 0 <= b < inf_bits -> fewest_hex q + 5 <= zlen (a_body q b) <= most_hex q + 8.
Proof. intros Hp Hb. pose proof (a_body_long q b Hb). pose proof (a_body_short q b Hb Hp). unfold most_hex. lia. Qed.
Lemma plainest_a_same q neg b : prec_fine q -> 0 <= b < inf_bits -> j_a (plainest_a q) neg b = j_a q neg b.
Proof. intros Hp Hb. rewrite !hex_field_eq, plainest_a_body. apply plainest_a_finite, a_body_len; assumption. Qed.

(** ** What tells them apart *)
Fixpoint after_dot (t : list Z) : list Z := match t with [] => [] | c :: r => if c =? 46 then r else after_dot r end.
(** characters after the point, without blanks *)
Definition tail_len (t : list Z) : Z := zlen (after_dot t) - count 32 (after_dot t).
Lemma after_dot_upper t : after_dot (map ascii_upper t) = map ascii_upper (after_dot t).
Proof.
  induction t as [|x t IH]; [reflexivity|]. cbn [map after_dot]. destruct (upper_keeps x) as [-> |[B ->]]; [destruct (x =? 46); [reflexivity|exact IH]|].
  destruct (Z.eqb_spec (x - 32) 46), (Z.eqb_spec x 46); lia || exact IH.
Qed.
Lemma tail_upper (up : bool) t u : (if up then map ascii_upper t else t) = (if up then map ascii_upper u else u) -> tail_len t = tail_len u.
Proof.
  intros E. destruct up; [|subst; reflexivity]. apply (f_equal tail_len) in E. unfold tail_len in *. rewrite !after_dot_upper, !count_upper', !zlen_map in E by lia. exact E.
Qed.
Lemma after_dot_app a r : count 46 a = 0 -> after_dot (a ++ 46 :: r) = r.
Proof.
  induction a as [|x a IH]; intros H; [reflexivity|]. cbn [count app after_dot] in *. assert (0 <= count 46 a) by (clear; induction a as [|y a IH]; cbn [count]; [lia|destruct (y =? 46); lia]).
  destruct (Z.eqb_spec x 46); [lia|]. apply IH. lia.
Qed.
Lemma sign_count q c : c <> 32 -> c <> 43 -> count c (sign_text q false) = 0.
Proof.
  intros N1 N2. assert (O : forall a, a <> c -> count c [a] = 0) by (intros a Ha; cbn [count]; destruct (Z.eqb_spec a c); [contradiction|reflexivity]).
  unfold sign_text. destruct (q_plus q), (q_space q); try reflexivity; (apply (O 43) || apply (O 32)); lia.
Qed.
Lemma tail_field q d r : d <> 46 -> tail_len (hex_field q false (d :: 46 :: r)) = zlen r - count 32 r.
Proof.
  intros Hd. assert (D : count 46 [d] = 0) by (cbn [count]; destruct (Z.eqb_spec d 46); [contradiction|reflexivity]).
  assert (P : count 46 (sign_text q false ++ txt "0x") = 0) by (rewrite count_app, sign_count by lia; reflexivity).
  assert (A : forall a b, count 46 a = 0 -> tail_len (a ++ 46 :: r ++ spaces b) = zlen r - count 32 r).
  { intros a b Ha. unfold tail_len. rewrite after_dot_app by exact Ha. rewrite zlen_app, count_app. unfold spaces. change (ch " ") with 32. rewrite count_rep. cbn [Z.eqb Pos.eqb]. rewrite zlen_rep. lia. }
  unfold hex_field, pad_number. set (pre := sign_text q false ++ txt "0x") in *. destruct (q_zero q && negb (q_left q)).
  - set (n := q_width q - _ - _). pose proof (A (pre ++ zeros n ++ [d]) 0) as H. change (spaces 0) with (@nil Z) in H. rewrite app_nil_r, <- !app_assoc in H. apply H.
    rewrite !count_app, P, D. unfold zeros. rewrite count_rep. reflexivity.
  - unfold justify. set (n := q_width q - _). destruct (q_left q).
    + pose proof (A (pre ++ [d]) n) as H. rewrite <- !app_assoc in *. apply H. rewrite count_app, P, D. reflexivity.
    + pose proof (A (spaces n ++ pre ++ [d]) 0) as H. change (spaces 0) with (@nil Z) in H. rewrite app_nil_r, <- !app_assoc in H. apply H.
      rewrite !count_app, P, D. unfold spaces. rewrite count_rep. reflexivity.
Qed.

Lemma hex_count q t c : c <> 32 -> count c (hex_field q false t) = count c (sign_text q false) + count c (txt "0x") + count c t +
  (if (c =? 48) && (q_zero q && negb (q_left q)) then Z.max 0 (q_width q - zlen (sign_text q false) - 2 - zlen t) else 0).
Proof.
  intros Hc. unfold hex_field, pad_number. destruct (q_zero q && negb (q_left q)).
  - rewrite !count_app, zlen_app. unfold zeros. rewrite count_rep. change (ch "0") with 48. change (zlen (txt "0x")) with 2. rewrite andb_true_r, (Z.eqb_sym 48 c). destruct (c =? 48); lia.
  - rewrite andb_false_r, justify_just, count_just, !count_app by exact Hc. lia.
Qed.
Lemma hex_len q t : zlen (hex_field q false t) = Z.max (q_width q) (zlen (sign_text q false) + 2 + zlen t).
Proof.
  unfold hex_field, pad_number. destruct (q_zero q && negb (q_left q)); [rewrite !zlen_app, zeros_len; change (zlen (txt "0x")) with 2; pose proof (zlen_nonneg t); lia|].
  rewrite justify_just, just_len, !zlen_app. change (zlen (txt "0x")) with 2. lia.
Qed.
Lemma hex_first q t : q_left q = true \/ q_zero q && negb (q_left q) = true -> blank_first (hex_field q false t) = q_space q && negb (q_plus q).
Proof.
  intros H. unfold hex_field, pad_number. destruct H as [H|H]; rewrite H.
  - cbn [negb]. rewrite andb_false_r. unfold justify. rewrite H. unfold sign_text. destruct (q_plus q), (q_space q); reflexivity.
  - unfold sign_text. destruct (q_plus q), (q_space q); reflexivity.
Qed.

(** 0, 0x1.1111111111111p+0 and the least number above 0 *)
Definition hex_ones : Z := 4607482658775175441.
Definition zero_frac (q : fspec) : list Z := rep 48 (fewest_hex q) ++ txt "p+0".
Lemma fixdigs_zero b k : fixdigs b k 0 = repeat 0 k.
Proof.
  induction k as [|k IH]; [reflexivity|]. cbn [fixdigs]. rewrite Zdiv.Zdiv_0_l, Zdiv.Zmod_0_l. rewrite IH. clear. induction k as [|k IH]; [reflexivity|]. cbn. f_equal. exact IH.
Qed.
Lemma zero_body q : a_body q 0 = 48 :: 46 :: zero_frac q.
Proof.
  unfold a_body, zero_frac, fewest_hex. destruct (q_prec q) as [p|]; [|reflexivity]. cbv zeta. change (0 =? 0) with true. cbv iota. unfold hex_text. rewrite Zdiv.Zdiv_0_l. change (numeral 16 0) with [48].
  unfold hex_fraction. rewrite fixdigs_zero. cbn [app]. do 2 f_equal. change (bin_exp_text 0) with (txt "p+0"). f_equal. unfold rep. generalize (Z.to_nat (Z.max 1 p)). clear. intros k. induction k as [|k IH]; [reflexivity|]. cbn [repeat map]. rewrite IH. reflexivity.
Qed.
Lemma zero_body_len q : zlen (a_body q 0) = fewest_hex q + 5.
Proof. rewrite zero_body. unfold zero_frac. rewrite !zlen_cons, zlen_app, zlen_rep. change (zlen (txt "p+0")) with 3. pose proof (fewest_pos q). lia. Qed.
Lemma zero_body_tail q : tail_len (hex_field q false (a_body q 0)) = fewest_hex q + 3.
Proof.
  rewrite zero_body, tail_field by lia. unfold zero_frac. rewrite zlen_app, count_app, zlen_rep, count_rep. cbn [Z.eqb Pos.eqb]. change (zlen (txt "p+0")) with 3. change (count 32 (txt "p+0")) with 0.
  pose proof (fewest_pos q). lia.
Qed.
Lemma ones_none q : q_prec q = None -> tail_len (hex_field q false (a_body q hex_ones)) = 16.
Proof. intros E. assert (B : a_body q hex_ones = 49 :: 46 :: txt "1111111111111p+0") by (unfold a_body; rewrite E; vm_compute; reflexivity). rewrite B, tail_field by lia. reflexivity. Qed.
Lemma ones_one q p : q_prec q = Some p -> Z.max 1 p = 1 -> tail_len (hex_field q false (a_body q hex_ones)) = 4.
Proof. intros E M. assert (B : a_body q hex_ones = 49 :: 46 :: txt "1p+0") by (unfold a_body; rewrite E, M; vm_compute; reflexivity). rewrite B, tail_field by lia. reflexivity. Qed.
Lemma tiny_len q : prec_fine q -> zlen (a_body q 1) = most_hex q + 8.
Proof.
  intros Hp. unfold a_body, most_hex. destruct (q_prec q) as [p|]; [|reflexivity]. cbv zeta. change (1 =? 0) with false. cbv iota. unfold hex_digits. change (bin_parts 1) with (1, -1022). cbv iota beta. change (1 =? 0) with false. cbn [orb].
  set (P := Z.max 1 p). assert (HP : 1 <= P) by lia. clearbody P. pose proof (pow16_pos P ltac:(lia)) as P16. destruct (Z.leb_spec 13 P) as [L|L].
  - rewrite zlen_app. change (zlen (bin_exp_text (-1022))) with 6. unfold hex_text. rewrite zlen_app, zlen_cons, zlen_hex_fraction by lia. rewrite Z.mul_1_l, Z.div_small; [change (zlen (numeral 16 0)) with 1; lia|].
    split; [apply Z.pow_nonneg; lia|apply Z.pow_lt_mono_r; lia].
  - change (Z.log2 1) with 0. change (2 ^ 0) with 1. rewrite Z.mul_1_l. assert (N : near_even (16 ^ P) 1 = 16 ^ P) by (unfold near_even; cbv zeta; rewrite Z.div_1_r, Z.mod_1_r; reflexivity). rewrite N.
    destruct (Z.eqb_spec (16 ^ P) (2 * 16 ^ P)); [lia|]. rewrite zlen_app. change (zlen (bin_exp_text (-1022 - 52 + 0))) with 6. unfold hex_text. rewrite zlen_app, zlen_cons, zlen_hex_fraction by lia. rewrite Z.div_same by lia. change (zlen (numeral 16 1)) with 1. lia.
Qed.

Lemma hex_filled q : count 48 (hex_field q false (a_body q 0)) = 3 + fewest_hex q + (if a_filled q then q_width q - shortest_hex q else 0).
Proof.
  rewrite hex_count, sign_count by lia. cbn [Z.eqb Pos.eqb andb]. rewrite zero_body_len, zero_body. unfold zero_frac. cbn [count]. rewrite count_app, count_rep. cbn [Z.eqb Pos.eqb]. change (count 48 (txt "0x")) with 1. change (count 48 (txt "p+0")) with 1.
  assert (S : zlen (sign_text q false) = if q_plus q || q_space q then 1 else 0) by (unfold sign_text; destruct (q_plus q), (q_space q); reflexivity). rewrite S.
  pose proof (fewest_pos q). unfold a_filled, shortest_hex. destruct (q_zero q && negb (q_left q)); cbn [andb]; [|lia]. destruct (Z.ltb_spec ((if q_plus q || q_space q then 1 else 0) + 4 + fewest_hex q + 3) (q_width q)); lia.
Qed.

Lemma plainest_a_unique q q' : prec_fine q -> prec_fine q' -> 0 <= q_width q -> 0 <= q_width q' ->
  ealike (justify q (txt "NaN")) (justify q' (txt "NaN")) ->
  (forall b, b = 0 \/ b = 1 -> ealike (hex_field q false (a_body q b)) (hex_field q' false (a_body q' b))) ->
  (forall b, b = 0 \/ b = hex_ones -> tail_len (hex_field q false (a_body q b)) = tail_len (hex_field q' false (a_body q' b))) ->
  plainest_a q = plainest_a q'.
Proof.
  intros Hp Hp' Hw Hw' Hn Hz Ht.
  pose proof (Ht 0 ltac:(auto)) as T0. pose proof (Ht hex_ones ltac:(auto)) as T1. clear Ht. rewrite !zero_body_tail in T0.
  assert (Pp : match q_prec q with Some p => Some (Z.max 1 p) | None => None end = match q_prec q' with Some p => Some (Z.max 1 p) | None => None end).
  { unfold fewest_hex in T0. destruct (q_prec q) as [p|] eqn:E, (q_prec q') as [p'|] eqn:E'; [f_equal; lia| | |reflexivity]; exfalso.
    - rewrite (ones_one q p E ltac:(lia)), (ones_none q' E') in T1. discriminate T1.
    - rewrite (ones_none q E), (ones_one q' p' E' ltac:(lia)) in T1. discriminate T1. }
  clear T1. assert (Mo : most_hex q = most_hex q') by (unfold most_hex; destruct (q_prec q), (q_prec q'); try discriminate Pp; [injection Pp; auto|reflexivity]).
  assert (Few : fewest_hex q = fewest_hex q') by lia. clear T0.
  assert (Sl : forall q, zlen (sign_text q false) = if q_plus q || q_space q then 1 else 0) by (intros r; unfold sign_text; destruct (q_plus r), (q_space r); reflexivity).
  assert (Pl0 : forall q, count 43 (sign_text q false) = if q_plus q then 1 else 0) by (intros r; unfold sign_text; destruct (q_plus r), (q_space r); reflexivity).
  assert (Pl : q_plus q = q_plus q').
  { pose proof (ea_count _ _ (Hz 0 ltac:(auto)) 43 ltac:(lia)) as E. rewrite !hex_count, !Pl0, !zero_body in E by lia. unfold zero_frac in E. rewrite Few in E. cbn [Z.eqb Pos.eqb andb] in E. destruct (q_plus q), (q_plus q'); lia || reflexivity. }
  pose proof (ea_len _ _ Hn) as N1. pose proof (ea_last _ _ Hn) as N2. rewrite !justify_just, !just_len in N1. change (zlen (txt "NaN")) with 3 in N1.
  rewrite !justify_just, !just_blank_last in N2 by (reflexivity || discriminate). change (zlen (txt "NaN")) with 3 in N2. clear Hn.
  pose proof (fewest_pos q) as Fp. pose proof (fewest_most q) as Fm.
  assert (Fl : a_filled q = a_filled q').
  { pose proof (ea_count _ _ (Hz 0 ltac:(auto)) 48 ltac:(lia)) as C. rewrite !hex_filled in C. destruct (a_filled q) eqn:X, (a_filled q') eqn:Y; try reflexivity; exfalso.
    - unfold a_filled in X. rewrite !andb_true_iff in X. destruct X as [_ X]. apply Z.ltb_lt in X. lia.
    - unfold a_filled in Y. rewrite !andb_true_iff in Y. destruct Y as [_ Y]. apply Z.ltb_lt in Y. lia. }
  assert (Lg : longest_hex q = longest_hex q') by (unfold longest_hex; lia).
  assert (Lg3 : 3 < longest_hex q) by (unfold longest_hex; lia).
  assert (Sp : q_space q && negb (q_plus q) && a_seen q = q_space q' && negb (q_plus q') && a_seen q').
  { unfold a_seen. rewrite <- Fl, <- Pl, <- Lg. destruct (q_plus q) eqn:Q; [rewrite !andb_false_r; reflexivity|]. cbn [negb]. rewrite !andb_true_r.
    assert (Long : q_width q <= longest_hex q -> q_width q' <= longest_hex q -> q_space q = q_space q').
    { intros W1 W2. pose proof (ea_len _ _ (Hz 1 ltac:(auto))) as E. rewrite !hex_len, !tiny_len, !Sl, <- Pl, Q in E by assumption. cbn [orb] in E. unfold longest_hex in W1, W2.
      destruct (q_space q), (q_space q'); reflexivity || lia. }
    assert (First : q_left q = true \/ q_zero q && negb (q_left q) = true -> q_left q' = true \/ q_zero q' && negb (q_left q') = true -> q_space q = q_space q').
    { intros W1 W2. pose proof (ea_first _ _ (Hz 0 ltac:(auto))) as E. rewrite !hex_first in E by assumption. rewrite <- Pl, Q in E. cbn [negb] in E. rewrite !andb_true_r in E. exact E. }
    assert (FZ : a_filled q = true -> q_zero q && negb (q_left q) = true) by (unfold a_filled; intros X; apply andb_true_iff in X as [X _]; exact X).
    assert (FZ' : a_filled q = true -> q_zero q' && negb (q_left q') = true) by (rewrite Fl; unfold a_filled; intros X; apply andb_true_iff in X as [X _]; exact X).
    destruct (Z_le_gt_dec (q_width q) 3) as [Wd|Wd].
    - rewrite Long by lia. destruct (q_space q'); cbn [andb]; [|reflexivity]. replace (q_width q <=? longest_hex q) with true by (symmetry; apply Z.leb_le; lia).
      replace (q_width q' <=? longest_hex q) with true by (symmetry; apply Z.leb_le; lia). rewrite !orb_true_r. reflexivity.
    - assert (Ew : q_width q' = q_width q) by lia. rewrite Ew in *. replace (3 <? q_width q) with true in N2 by (symmetry; apply Z.ltb_lt; lia). rewrite !andb_true_r in N2. rewrite <- N2.
      destruct (q_left q) eqn:Ql; [rewrite !orb_true_l, !andb_true_r; apply First; left; congruence|]. cbn [orb].
      destruct (a_filled q) eqn:Qf; [rewrite !orb_true_l, !andb_true_r; apply First; right; [apply FZ|apply FZ']; reflexivity|]. cbn [orb].
      destruct (Z.leb_spec (q_width q) (longest_hex q)); [rewrite !andb_true_r; apply Long; lia|rewrite !andb_false_r; reflexivity]. }
  unfold plainest_a. cbv zeta. fold (a_filled q) (a_filled q') (a_seen q) (a_seen q'). rewrite Sp, N2, Fl, Pl, Pp. f_equal. apply above_unique; lia.
Qed.
