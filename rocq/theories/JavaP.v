(** Proofs for C99: integers, characters and texts. *)
From Coq Require Import QArith Qabs Qpower Lqa Lia.
From Verif Require Import Base Digits SeqM SeqSpec ContextM CompilerM GrammarSpec FormatterM BigDecM TraitsM ImplM FmtSpec FmtP DecSpec RoundP FloatSpec BigSpec FPDecP DirSpec ScaleSpec ValueSpec WholeSpec
  ScaleP FloatQ CastP DoubleP HexP ReadSpec ReadP ReadFSpec ReadFP ReadFP2 ReadFP3 SigP IntP AgainP2 AgainP3 PropsFloat PropsRead ScanP3 PortSpec PortP PortP2 JavaSpec.
Open Scope Z_scope.

(** ** Padding *)

Lemma map_rep {A B} (f : A -> B) x n : map f (rep x n) = rep (f x) n.
Proof. unfold rep. induction (Z.to_nat n) as [|k IH]; [reflexivity|]. cbn [repeat map]. rewrite IH. reflexivity. Qed.
Lemma case_pad s q z pre body : in_case s (pad_number q z pre body) = pad_number q z (in_case s pre) (in_case s body).
Proof.
  unfold pad_number. destruct (z && negb (q_left q)).
  - unfold in_case. destruct (is_upper s); [|reflexivity]. rewrite !map_app. unfold zeros. rewrite map_rep. unfold zlen. rewrite !map_length. reflexivity.
  - rewrite case_justify. unfold in_case. destruct (is_upper s); [rewrite map_app|]; reflexivity.
Qed.

(** a sign in front of a number, and none *)
Lemma sign_pad q pre body c t : 0 <= q_width q -> ~ (q_left q = true /\ q_zero q = true) -> c <> 32 -> pre ++ body = c :: t -> hd_error body <> Some 32 -> body <> [] ->
  (pad_number q (q_zero q) pre body = pad_number q (q_zero q) (sign_text q false ++ pre) body <-> ~ sign_seen q (zlen pre + zlen body)).
Proof.
  intros Hw Hl Hc Hh Hb Nb. unfold sign_text, sign_seen. destruct (q_plus q) eqn:Ep.
  - split; [|intros N; exfalso; tauto]. intros E. exfalso. revert E. unfold pad_number. destruct (q_zero q && negb (q_left q)).
    + intros E. apply (f_equal (cnt 43)) in E. unfold zeros in E. rewrite !cnt_app, !cnt_rep in E. change (43 =? ch "0") with false in E. change (cnt 43 (txt "+")) with 1 in E. cbn iota in E. lia.
    + intros E. apply (f_equal (cnt 43)) in E. rewrite !cnt_justify, !cnt_app in E by lia. change (cnt 43 (txt "+")) with 1 in E. lia.
  - destruct (q_space q) eqn:Es; [|cbn [app]; split; [intros _ [F|[F _]]; discriminate|reflexivity]].
    unfold pad_number. destruct (q_zero q) eqn:Ez; cbn [andb].
    + destruct (q_left q) eqn:El; [exfalso; tauto|]. cbn [negb]. split; [|intros N; exfalso; tauto]. intros E. exfalso.
      destruct pre as [|d pre].
      * cbn [app] in E. unfold zeros, rep in E. destruct (Z.to_nat (q_width q - zlen [] - zlen body)) as [|k]; [|discriminate E]. cbn [repeat app] in E. rewrite E in Hb. apply Hb. reflexivity.
      * cbn [app] in E, Hh. injection Hh as -> _. injection E as E _. contradiction.
    + rewrite Hh. change ((txt " " ++ pre) ++ body) with (32 :: pre ++ body). rewrite Hh, (justify_blank q t c Hc Hw).
      replace (zlen pre + zlen body) with (zlen (c :: t)) by (rewrite <- Hh, zlen_app; reflexivity).
      split; intros N F; apply N; [destruct F as [F|[_ [F|[F|F]]]]; try discriminate; [left|right]; assumption|right; split; [reflexivity|tauto]].
Qed.

(** ** Integers *)

Lemma d_java q z : q_prec q = None -> j_d q z = pad_number q (q_zero q) (sign_text q (z <? 0)) (numeral 10 (Z.abs z)).
Proof. intros E. unfold j_d, d_irregular, c_d, no_prec, int_digits. rewrite E, !andb_true_r. cbn [andb]. rewrite andb_false_r. reflexivity. Qed.

Lemma numeral_head b n : 2 <= b <= 16 -> 0 <= n -> exists c t, numeral b n = c :: t /\ 48 <= c.
Proof.
  intros Hb Hn. pose proof (numeral_nonempty b n ltac:(lia) Hn) as L. pose proof (numeral_hex b n Hb Hn) as H. destruct (numeral b n) as [|c t]; [exfalso; apply L; reflexivity|].
  exists c, t. split; [reflexivity|]. apply Forall_inv in H. unfold hexdigit in H. lia.
Qed.

Lemma upper_up c : 48 <= c -> 48 <= ascii_upper c.
Proof. intros H. unfold ascii_upper. destruct ((97 <=? c) && (c <=? 122)) eqn:E; [|exact H]. apply andb_prop in E as [A B]. apply Z.leb_le in A, B. lia. Qed.
Lemma case_head s c t : 48 <= c -> exists d u, in_case s (c :: t) = d :: u /\ 48 <= d.
Proof. intros H. unfold in_case. destruct (is_upper s); [|eauto]. cbn [map]. eexists _, _. split; [reflexivity|]. apply upper_up, H. Qed.
Lemma case_len s t : zlen (in_case s t) = zlen t.
Proof. unfold in_case. destruct (is_upper s); [|reflexivity]. unfold zlen. rewrite map_length. reflexivity. Qed.
Lemma case_app s a b : in_case s (a ++ b) = in_case s a ++ in_case s b.
Proof. unfold in_case. destruct (is_upper s); [apply map_app|reflexivity]. Qed.
Lemma case_sign s q neg : in_case s (sign_text q neg) = sign_text q neg.
Proof. unfold in_case, sign_text. destruct (is_upper s), neg, (q_plus q), (q_space q); reflexivity. Qed.

Lemma cnt_nonneg c t : 0 <= cnt c t. Proof. unfold cnt. apply zlen_nonneg. Qed.

(** %x of [n] *)
Lemma x_java s q n : 0 <= q_width q -> ~ (q_left q = true /\ q_zero q = true) -> q_prec q = None -> s = Sx \/ s = SX -> 0 <= n ->
  (in_case s (j_x q n) = in_case s (pad_number q (q_zero q) (sign_text q false ++ hex_prefix q) (numeral 16 n)) <->
   ~ (q_alt q = true /\ n = 0 \/ sign_seen q (zlen (hex_prefix q) + zlen (numeral 16 n)))).
Proof.
  intros Hw Hl Ep Hs Hn. destruct (numeral_head 16 n ltac:(lia) Hn) as (c & t & En & Hc).
  assert (D : (q_alt q = true /\ n = 0) \/ ~ (q_alt q = true /\ n = 0)) by (destruct (q_alt q), (Z.eq_dec n 0); intuition discriminate). destruct D as [[Ea ->]|D].
  - split; [|intros N; exfalso; tauto]. intros E. exfalso.
    assert (K : exists k, (k = 120 \/ k = 88) /\ (k = 88 <-> is_upper s = true) /\ in_case s (hex_prefix q) = [48; k]).
    { unfold hex_prefix. rewrite Ea. destruct Hs as [-> | ->]; [exists 120|exists 88]; split; try lia; (split; [|reflexivity]); cbn; intuition discriminate. }
    destruct K as (k & K & _ & Ek). rewrite case_pad, case_app, case_sign, Ek in E. change (numeral 16 0) with (txt "0") in *.
    apply (f_equal (cnt k)) in E. rewrite cnt_pad, !cnt_app in E by lia. replace (in_case s (txt "0")) with (txt "0") in E by (destruct Hs as [-> | ->]; reflexivity).
    assert (X : cnt k (in_case s (j_x q 0)) = 0).
    { assert (Z0 : in_case s (txt "0") = txt "0") by (destruct Hs as [-> | ->]; reflexivity).
      assert (Zn : forall n, in_case s (zeros n) = zeros n) by (intros n; destruct Hs as [-> | ->]; unfold in_case, zeros; cbn [is_upper]; rewrite ?map_rep; reflexivity).
      assert (N48 : k <> 32 /\ k <> 48 /\ (k =? ch "0") = false) by (destruct K as [-> | ->]; repeat split; discriminate). destruct N48 as (N1 & N2 & N3).
      unfold j_x, c_x, x_irregular, no_prec. rewrite Ep, Ea. cbn [andb Z.eqb negb]. change (int_digits 16 0 None) with (txt "0"). destruct (q_zero q && negb (q_left q)).
      - rewrite case_justify, cnt_justify by exact N1. unfold min_digits. rewrite case_app, Zn, Z0, cnt_app. unfold zeros. rewrite cnt_rep, N3. destruct K as [-> | ->]; reflexivity.
      - rewrite case_pad, cnt_pad, Z0 by assumption. destruct Hs as [-> | ->], K as [-> | ->]; reflexivity. }
    rewrite X in E. assert (Y : cnt k [48; k] = 1) by (destruct K as [-> | ->]; reflexivity). rewrite Y in E. pose proof (cnt_nonneg k (sign_text q false)). pose proof (cnt_nonneg k (txt "0")). lia.
  - assert (E : j_x q n = pad_number q (q_zero q) (hex_prefix q) (numeral 16 n)).
    { unfold j_x, x_irregular, c_x, no_prec, int_digits, hex_prefix. rewrite Ep, !andb_true_r. destruct (Z.eqb_spec n 0) as [->|Nz].
      - destruct (q_alt q); [exfalso; tauto|reflexivity].
      - rewrite andb_false_r. cbn [andb negb]. rewrite andb_true_r. reflexivity. }
    rewrite E, !case_pad, case_app, case_sign. destruct (case_head s c t Hc) as (d & u & Ed & Hd). rewrite <- (case_len s (hex_prefix q)), <- (case_len s (numeral 16 n)).
    assert (H : exists e v, in_case s (hex_prefix q) ++ in_case s (numeral 16 n) = e :: v /\ e <> 32).
    { rewrite En, Ed. unfold hex_prefix. destruct (q_alt q).
      - destruct Hs as [-> | ->]; eexists _, _; (split; [reflexivity|discriminate]).
      - replace (in_case s []) with (@nil Z) by (unfold in_case; destruct (is_upper s); reflexivity). exists d, u. split; [reflexivity|lia]. }
    destruct H as (e & v & H & He). rewrite (sign_pad q _ _ e v Hw Hl He H) by (rewrite En, Ed; first [discriminate|cbn; intros F; injection F; lia]). tauto.
Qed.

(** %o of [n] *)
Lemma rep_swap (x : Z) n t : 0 <= n -> rep x n ++ x :: t = x :: rep x n ++ t.
Proof. intros H. change (x :: t) with ([x] ++ t). rewrite app_assoc. change [x] with (rep x 1). rewrite <- rep_add by lia. rewrite (Z.add_comm n 1), rep_add by lia. reflexivity. Qed.
Lemma o_java q n : 0 <= q_width q -> (q_left q = true \/ q_zero q = true -> 0 < q_width q) -> ~ (q_left q = true /\ q_zero q = true) -> ~ (q_plus q = true /\ q_space q = true) ->
  q_prec q = None -> 0 <= n ->
  (j_o q n = pad_number q (q_zero q) (sign_text q false ++ octal_prefix q) (numeral 8 n) <->
   ~ (~ (n = 0 /\ q_alt q = true /\ q_zero q = true /\ q_space q = true /\ 3 <= q_width q) /\
      (q_alt q = true /\ n = 0 \/ sign_seen q (zlen (octal_prefix q) + zlen (numeral 8 n))))).
Proof.
  intros Hw Hz Hl Hps Ep Hn. destruct (numeral_head 8 n ltac:(lia) Hn) as (c & t & En & Hc).
  assert (D : (q_alt q = true /\ n = 0) \/ ~ (q_alt q = true /\ n = 0)) by (destruct (q_alt q), (Z.eq_dec n 0); intuition discriminate). destruct D as [[Ea ->]|D].
  - enough (G : j_o q 0 = pad_number q (q_zero q) (sign_text q false ++ octal_prefix q) (numeral 8 0) <-> q_zero q = true /\ q_space q = true /\ 3 <= q_width q).
    { rewrite G. destruct (q_zero q), (q_space q), (Z_le_gt_dec 3 (q_width q)); intuition (try discriminate; try lia). }
    unfold j_o, o_irregular, no_prec, octal_prefix. rewrite Ep, Ea. cbn [andb Z.eqb negb orb]. change (numeral 8 0) with (txt "0") in *.
    destruct (q_zero q) eqn:Ez.
    + destruct (q_left q) eqn:El; [exfalso; tauto|]. specialize (Hz (or_intror eq_refl)). cbn [andb negb]. unfold pad_number. rewrite El. cbn [andb negb].
      rewrite zlen_app. change (zlen (txt "0")) with 1. unfold sign_text. destruct (q_plus q) eqn:Eq; [|destruct (q_space q) eqn:Es].
      * split; [|intros (_ & F & _); exfalso; tauto]. intros E. exfalso. apply (f_equal (cnt 43)) in E. rewrite cnt_justify, !cnt_app in E by lia. unfold min_digits in E. rewrite cnt_app in E. unfold zeros in E. rewrite !cnt_rep in E. cbv in E. discriminate E.
      * change (zlen (txt " ")) with 1. split.
        -- intros E. apply (f_equal (cnt 48)) in E. rewrite cnt_justify, cnt0_min, !cnt_app, cnt0_zeros in E by lia. change (cnt 48 (txt "0")) with 1 in E. change (cnt 48 (txt " ")) with 0 in E. repeat split; lia.
        -- intros (_ & _ & W). unfold justify, min_digits. rewrite El. rewrite zlen_app. change (zlen (txt "0")) with 1. rewrite zeros_one by lia.
           replace (zlen (zeros (q_width q - 1 - 1))) with (q_width q - 1 - 1) by (unfold zeros; rewrite zlen_rep; lia).
           replace (q_width q - (q_width q - 1 - 1 + 1)) with 1 by lia. change (spaces 1) with (txt " "). rewrite <- app_assoc. f_equal. rewrite zeros_one by lia.
           change (txt "0" ++ zeros (q_width q - (1 + 1) - 1 + 1)) with (zeros 1 ++ zeros (q_width q - (1 + 1) - 1 + 1)). unfold zeros. rewrite <- rep_add by lia. f_equal. lia.
      * split; [|intros (_ & F & _); discriminate]. intros E. exfalso.
        apply (f_equal (cnt 48)) in E. rewrite cnt_justify, cnt0_min, !cnt_app, cnt0_zeros in E by lia. change (cnt 48 (txt "0")) with 1 in E. change (cnt 48 []) with 0 in E. change (zlen []) with 0 in E. lia.
    + split; [intros E; exfalso|intros (F & _); discriminate].
      cbn [andb] in E. unfold c_o, no_prec in E. rewrite Ep, Ez, Ea in E. change (force_zero (int_digits 8 0 None)) with (txt "0") in E. unfold pad_number in E. cbn [andb app] in E.
      apply (f_equal (cnt 48)) in E. rewrite !cnt_justify, !cnt_app in E by lia. change (cnt 48 (txt "0")) with 1 in E. pose proof (cnt_nonneg 48 (sign_text q false)). lia.
  - assert (E : j_o q n = pad_number q (q_zero q) (octal_prefix q) (numeral 8 n)).
    { unfold j_o, o_irregular, c_o, no_prec, int_digits, octal_prefix. rewrite Ep, !andb_true_r. cbn [negb orb]. destruct (Z.eqb_spec n 0) as [->|Nz].
      - destruct (q_alt q); [exfalso; tauto|reflexivity].
      - rewrite andb_false_r. cbn [andb]. destruct (q_alt q); [|reflexivity]. destruct (numeral_head_nonzero 8 n ltac:(lia) ltac:(lia)) as (d & r & Ed & Nd).
        assert (F : force_zero (numeral 8 n) = 48 :: numeral 8 n) by (pose proof (force_zero_pad n 0 ltac:(lia)) as F; unfold min_digits, zeros, rep in F; replace (Z.to_nat (0 - zlen (numeral 8 n))) with O in F by (pose proof (zlen_nonneg (numeral 8 n)); lia);
          replace (Z.to_nat (0 - 1 - zlen (numeral 8 n))) with O in F by (pose proof (zlen_nonneg (numeral 8 n)); lia); exact F).
        rewrite F. unfold pad_number. destruct (q_zero q && negb (q_left q)); [|reflexivity]. change (zlen []) with 0. change (zlen (txt "0")) with 1.
        replace (zlen (48 :: numeral 8 n)) with (zlen (numeral 8 n) + 1) by (unfold zlen; cbn [length]; lia). cbn [app].
        replace (q_width q - 0 - (zlen (numeral 8 n) + 1)) with (q_width q - 1 - zlen (numeral 8 n)) by lia. set (k := q_width q - 1 - zlen (numeral 8 n)). change (txt "0") with [48].
        destruct (Z_lt_le_dec k 0) as [L|L]; [unfold zeros, rep; replace (Z.to_nat k) with O by lia; reflexivity|]. apply (rep_swap 48 k (numeral 8 n) L). }
    rewrite E. assert (H : exists e v, octal_prefix q ++ numeral 8 n = e :: v /\ e <> 32).
    { rewrite En. unfold octal_prefix. destruct (q_alt q); [eexists _, _; split; [reflexivity|discriminate]|]. exists c, t. split; [reflexivity|lia]. }
    destruct H as (e & v & H & He). rewrite (sign_pad q _ _ e v Hw Hl He H) by (rewrite En; first [discriminate|cbn; intros F; injection F; lia]). tauto.
Qed.

(** ** Characters *)

Lemma two_units q a b c : a <> 32 -> b <> 32 -> a <> b -> justify q [a; b] <> justify q [c].
Proof.
  intros Ha Hb Hn E. assert (F : forall k, k <> 32 -> cnt k [a; b] = cnt k [c]) by (intros k Hk; rewrite <- (cnt_justify k q [a; b]), E, cnt_justify by exact Hk; reflexivity).
  pose proof (F a Ha) as Fa. pose proof (F b Hb) as Fb. unfold cnt in Fa, Fb. cbn [filter] in Fa, Fb. rewrite Z.eqb_refl in Fa. rewrite Z.eqb_refl in Fb.
  destruct (Z.eqb_spec a b); [contradiction|]. destruct (Z.eqb_spec b a); [congruence|]. destruct (Z.eqb_spec a c), (Z.eqb_spec b c); try congruence; discriminate.
Qed.

Lemma c_java q z : 0 <= z <= 1114111 -> (justify q [z mod 2 ^ 16] = justify q (utf16 z) <-> ~ 65535 < z).
Proof.
  intros Hz. unfold utf16. destruct (Z.ltb_spec z 65536) as [L|L].
  - rewrite Z.mod_small by (change (2 ^ 16) with 65536; lia). split; [lia|reflexivity].
  - split; [|lia]. intros E. exfalso. symmetry in E. revert E. pose proof (Z.mod_pos_bound (z - 65536) 1024 ltac:(lia)) as B. pose proof (Z.div_mod (z - 65536) 1024 ltac:(lia)) as D. apply two_units; lia.
Qed.
