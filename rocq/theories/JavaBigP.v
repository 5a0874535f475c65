(** Proofs for C99: BigDecimals under %e and %g. *)
From Coq Require Import QArith Lqa Lia.
From Verif Require RoundP.
From Verif Require Import Base Digits CompilerM FormatterM BigDecM TraitsM FmtSpec FmtP DecSpec FloatSpec BigSpec FPDecP BigDecP BigGenP PropsBig WholeSpec
  FloatQ SigP ReadSpec ReadFSpec ReadFP ReadFP2 BigReadP PortSpec PortP2 PortP3 JavaSpec JavaP JavaP2.
Open Scope Z_scope.

Lemma abs_zero u : Z.abs u =? 0 = (u =? 0).
Proof. destruct (Z.eqb_spec u 0) as [->|N]; [reflexivity|]. apply Z.eqb_neq. lia. Qed.

(** ** Digits *)

Lemma big_digits u sc P : 1 <= P -> exists S X, java_digits (dec (Z.abs u) (- sc)) P S X /\ 0 <= S /\ (u = 0 -> S = 0 /\ X = 0) /\ (u <> 0 -> sig (Z.abs u) (- sc) P = (S, X)).
Proof.
  intros HP. destruct (Z.eq_dec u 0) as [->|N].
  - exists 0, 0. split; [left; split; [apply dec_zero|split; reflexivity]|]. split; [lia|]. split; [split; reflexivity|congruence].
  - destruct (sig (Z.abs u) (- sc) P) as [S X] eqn:E. pose proof (sig_right (Z.abs u) (- sc) P S X ltac:(lia) HP E) as H. exists S, X. split; [right; exact H|]. split; [|split; [congruence|reflexivity]].
    destruct H as (? & ? & _ & _ & _ & B). pose proof (Z.pow_pos_nonneg 10 (P - 1) ltac:(lia) ltac:(lia)). lia.
Qed.
Lemma big_digits_of u sc P S X : 1 <= P -> java_digits (dec (Z.abs u) (- sc)) P S X -> 0 <= S /\ (u = 0 -> S = 0 /\ X = 0) /\ (u <> 0 -> sig (Z.abs u) (- sc) P = (S, X)).
Proof.
  intros HP H. destruct (big_digits u sc P HP) as (S' & X' & H' & B). destruct (java_digits_unique _ _ _ _ _ _ HP H H') as [-> ->]. exact B.
Qed.
Lemma big_positive u sc : u <> 0 -> ~ (dec (Z.abs u) (- sc) == 0)%Q.
Proof. intros N E. pose proof (dec_decade (Z.abs u) (- sc) ltac:(lia)) as [D _]. pose proof (RoundP.ten_pos (ndigits (Z.abs u) + - sc - 1)). lra. Qed.
Lemma leading_zero sc X : leading (dec (Z.abs 0) (- sc)) X <-> X = 0.
Proof.
  split; [intros [[_ ->]|[A _]]; [reflexivity|]|intros ->; left; split; [apply dec_zero|reflexivity]]. exfalso. pose proof (RoundP.ten_pos X). assert (E : (dec (Z.abs 0) (- sc) == 0)%Q) by apply dec_zero. lra.
Qed.
Lemma leading_is u sc X : u <> 0 -> (leading (dec (Z.abs u) (- sc)) X <-> X = ndigits (Z.abs u) - sc - 1).
Proof.
  intros N. split.
  - intros [[E _]|H]; [exfalso; exact (big_positive u sc N E)|exact (decade_digits u sc X N H)].
  - intros ->. right. pose proof (dec_decade (Z.abs u) (- sc) ltac:(lia)) as D.
    replace (ndigits (Z.abs u) - sc - 1)%Z with (ndigits (Z.abs u) + - sc - 1)%Z by lia. replace (ndigits (Z.abs u) + - sc - 1 + 1)%Z with (ndigits (Z.abs u) + - sc)%Z by lia. exact D.
Qed.

(** ** %e *)

Lemma pointed_reads q w neg S p e x : 0 <= S -> 0 <= p -> exp_reads 10 (ch "e") e x -> read_float 10 (ch "e") (finite_text w neg (pointed q S p ++ e)) = Some (neg, S, p, x).
Proof. intros HS Hp He. unfold pointed. exact (finite_reads w neg (q_alt q) S p e x HS Hp He). Qed.

(** "e+9" is seen not to be "e+09" *)
Lemma nine_differs s q neg B : in_case s (finite_text q neg (B ++ txt "e+9")) <> in_case s (finite_text q neg (B ++ exp_text 9)).
Proof.
  unfold finite_text, pad_number. change (exp_text 9) with (txt "e+09"). destruct (q_zero q && negb (q_left q)).
  - intros E. rewrite !app_assoc, !case_app in E. apply (f_equal (fun t => nth 1 (rev t) 0)) in E. rewrite !rev_app_distr in E.
    unfold in_case in E. destruct (is_upper s); discriminate E.
  - intros E. apply (f_equal (cnt 48)) in E. rewrite !cnt_case, !cnt_justify, !cnt_app in E by lia. change (cnt 48 (txt "e+9")) with 0 in E. change (cnt 48 (txt "e+09")) with 1 in E. lia.
Qed.

Lemma e_dec_java s q u sc S X : 0 <= prec_or 6 q -> java_digits (dec (Z.abs u) (- sc)) (prec_or 6 q + 1) S X ->
  (in_case s (b_e q (u <? 0) (Z.abs u) (- sc)) = in_case s (finite_text q (u <? 0) (pointed q S (prec_or 6 q) ++ exp_text X)) <->
   ~ (u = 0 /\ sc <> 0 \/ u <> 0 /\ X = 9 /\ kept (Z.abs u) (prec_or 6 q + 1) = 10)).
Proof.
  intros Hp HS. destruct (big_digits_of u sc (prec_or 6 q + 1) S X ltac:(lia) HS) as (S0 & Hz & Hn). unfold b_e, be_body. cbv zeta. rewrite abs_zero. destruct (Z.eqb_spec u 0) as [->|N].
  - destruct (Hz eq_refl) as [-> ->]. change (if q_alt q then alt_text 0 (prec_or 6 q) else decimal_text 0 (prec_or 6 q)) with (pointed q 0 (prec_or 6 q)). split.
    + intros E. apply (f_equal (read_float 10 (ch "e"))) in E. rewrite !case_read10 in E. rewrite !(pointed_reads q q _ _ _ _ _ S0 Hp (exp_text_reads _)) in E. injection E as E. intros [[_ F]|[F _]]; [apply F; clear - E; destruct sc; [reflexivity|discriminate E|discriminate E]|exact (F eq_refl)].
    + intros F. assert (sc = 0) as -> by (destruct (Z.eq_dec sc 0) as [E|E]; [exact E|exfalso; apply F; left; split; [reflexivity|exact E]]). reflexivity.
  - rewrite (Hn N). change (if q_alt q then alt_text S (prec_or 6 q) else decimal_text S (prec_or 6 q)) with (pointed q S (prec_or 6 q)). unfold big_exp_text.
    destruct (Z.eqb_spec X 9) as [->|N9]; cbn [andb]; [|split; [intros _ [F|F]; lia|reflexivity]].
    destruct (Z.eqb_spec (kept (Z.abs u) (prec_or 6 q + 1)) 10) as [K|K]; [|split; [intros _ [F|F]; lia|reflexivity]].
    split; [intros E; exfalso; exact (nine_differs _ _ _ _ E)|intros F; exfalso; apply F; right; repeat split; assumption].
Qed.

(** ** %g *)

Lemma short_reads w neg N j e x : 0 <= N -> exp_reads 10 (ch "e") e x ->
  read_float 10 (ch "e") (finite_text w neg (short_text N j ++ e)) = Some (neg, fst (drop_zeros (Z.to_nat j) N), snd (drop_zeros (Z.to_nat j) N), x).
Proof.
  intros HN He. pose proof (drop_bounds (Z.to_nat j) N HN) as [B1 B2]. unfold short_text. destruct (drop_zeros (Z.to_nat j) N) as [M r]. cbn [fst snd] in *.
  exact (finite_reads w neg false M r e x B1 B2 He).
Qed.

(** nothing is lost where nothing is cut *)
Lemma cut_loss_none N j : 0 <= j -> drop_zeros (Z.to_nat j) N = (N, j) -> cut_loss N j = 0.
Proof. intros Hj E. unfold cut_loss. rewrite E, Z.eqb_refl. reflexivity. Qed.

Lemma drop_snd_le k N : snd (drop_zeros k N) <= Z.of_nat k.
Proof. revert N. induction k as [|k IH]; intros N; [cbn; lia|]. cbn [drop_zeros]. destruct (N mod 10 =? 0); [specialize (IH (N / 10)); lia|cbn [snd]; lia]. Qed.
Lemma drop_same N j : 0 <= j -> snd (drop_zeros (Z.to_nat j) N) = j -> drop_zeros (Z.to_nat j) N = (N, j).
Proof.
  intros Hj. destruct (Z.to_nat j) as [|k] eqn:Ek; [intros _; cbn; f_equal; lia|]. cbn [drop_zeros]. destruct (N mod 10 =? 0); cbn [snd]; [|intros _; f_equal; lia].
  pose proof (drop_snd_le k (N / 10)). lia.
Qed.

(** the length of a padded number *)
Lemma finite_len q neg B : zlen (finite_text q neg B) = Z.max (q_width q) (zlen (sign_text q neg) + zlen B).
Proof.
  unfold finite_text, pad_number, justify. pose proof (zlen_nonneg B). pose proof (zlen_nonneg (sign_text q neg)). destruct (q_zero q && negb (q_left q)); [|destruct (q_left q)];
    rewrite !zlen_app; unfold zeros, spaces; rewrite zlen_rep; rewrite ?zlen_app; lia.
Qed.
Lemma widen_sign q n neg : sign_text (widen q n) neg = sign_text q neg. Proof. reflexivity. Qed.
Lemma widen_seen q n neg B : 0 <= n -> (zlen (finite_text (widen q n) neg B) = zlen (finite_text q neg B) <-> n = 0 \/ q_width q + n <= zlen (sign_text q neg) + zlen B).
Proof. intros Hn. rewrite !finite_len, widen_sign. cbn [widen q_width]. lia. Qed.
Lemma widen_same q n neg B : 0 <= n -> n = 0 \/ q_width q + n <= zlen (sign_text q neg) + zlen B -> finite_text (widen q n) neg B = finite_text q neg B.
Proof.
  intros Hn [->|H]; [rewrite widen_0; reflexivity|]. unfold finite_text, pad_number. cbn [widen q_left q_width q_zero]. rewrite widen_sign. destruct (q_zero q && negb (q_left q)).
  - unfold zeros. rewrite !rep_nonpos by lia. reflexivity.
  - rewrite !justify_full; [reflexivity|rewrite zlen_app; lia|cbn [widen q_width]; rewrite zlen_app; lia].
Qed.

Lemma plain_spec q X : (plain_style q X = true -> -4 <= X < g_prec q) /\ (plain_style q X = false -> ~ -4 <= X < g_prec q).
Proof.
  unfold plain_style. split; intros H.
  - apply andb_prop in H as [A B]. apply Z.leb_le in A. apply Z.ltb_lt in B. lia.
  - intros [A B]. apply Z.leb_le in A. apply Z.ltb_lt in B. rewrite A, B in H. discriminate H.
Qed.
Lemma g_java_reads q neg S X : 0 <= S -> 1 <= g_prec q ->
  read_float 10 (ch "e") (g_java q neg S X) = Some (neg, S, if plain_style q X then g_prec q - 1 - X else g_prec q - 1, if plain_style q X then 0 else X).
Proof.
  intros HS HP. unfold g_java. fold (plain_style q X). destruct (plain_style q X) eqn:E.
  - apply plain_spec in E. pose proof (finite_reads q neg false S (g_prec q - 1 - X) [] 0 HS ltac:(lia) no_exp_reads) as R. cbv iota in R. rewrite app_nil_r in R. exact R.
  - exact (finite_reads q neg false S (g_prec q - 1) (exp_text X) X HS ltac:(lia) (exp_text_reads X)).
Qed.

(** one digit carried over *)
Lemma carried a sc S X : 0 < a -> sig a (- sc) 1 = (S, X) -> ndigits a - sc - 1 < X -> X < 0 ->
  S = 1 /\ X = ndigits a - sc /\ bg_fixed a (- sc) 1 = (10, 1 - X) /\ cut_loss 10 (1 - X) = 1 - X.
Proof.
  intros Ha ES HX X0. unfold sig in ES. cbv zeta in ES. change (10 ^ 1) with 10 in ES. destruct (Z.eqb_spec (hup a (ndigits a - 1)) 10) as [E|E]; injection ES as <- <-; [|lia].
  split; [reflexivity|]. split; [lia|]. split.
  - unfold bg_fixed. cbv zeta. destruct (Z.leb_spec (ndigits a) 1) as [L|L].
    + exfalso. destruct (ndigits_bounds a Ha) as (N1 & _ & B2). assert (N : ndigits a = 1) by lia. rewrite N in E, B2. unfold hup in E. cbn [Z.sub Z.leb Z.opp] in E. change (1 - 1 <=? 0) with true in E. cbv iota in E. change (10 ^ - (1 - 1)) with 1 in E. change (10 ^ 1) with 10 in B2. lia.
    + rewrite E. change (10 ^ 1) with 10. replace (- - sc <? ndigits a) with false by (symmetry; apply Z.ltb_ge; lia). rewrite andb_false_r. f_equal. lia.
  - set (p := 1 - (ndigits a + - sc)). assert (Hp : 2 <= p) by (unfold p; lia). clearbody p. unfold cut_loss. destruct (Z.to_nat p) as [|[|k]] eqn:Ek; [lia|lia|].
    change (drop_zeros (Datatypes.S (Datatypes.S k)) 10) with (1, Z.of_nat (Datatypes.S k)). replace (Z.of_nat (Datatypes.S k)) with (p - 1) by lia.
    replace (p - 1 =? p) with false by (symmetry; apply Z.eqb_neq; lia). replace (p - 1 =? 0) with false by (symmetry; apply Z.eqb_neq; lia). cbn [orb].
    change (ndigits 10) with 2. replace (p <? 2) with false by (symmetry; apply Z.ltb_ge; lia). lia.
Qed.

Lemma one_len p : 0 < p -> zlen (decimal_text 1 p) = p + 2.
Proof.
  intros Hp. unfold decimal_text. replace (p =? 0) with false by (symmetry; apply Z.eqb_neq; lia). rewrite Z.div_small by (pose proof (proj1 (Z.pow_gt_1 10 p ltac:(lia)) Hp); lia).
  rewrite zlen_app, zlen_cons, zlen_fraction. change (zlen (numeral 10 0)) with 1. lia.
Qed.

Lemma g_dec_java s q u sc S X : q_alt q = false -> 1 <= g_prec q -> java_digits (dec (Z.abs u) (- sc)) (g_prec q) S X -> (u = 0 -> sc = 0) ->
  let X0 := if u =? 0 then 0 else ndigits (Z.abs u) - sc - 1 in
  (in_case s (b_g q (u <? 0) (Z.abs u) (- sc)) = in_case s (g_java q (u <? 0) S X) <->
   ~ (S mod 10 = 0 /\ (if plain_style q X then X + 1 < g_prec q else 1 < g_prec q) \/
      plain_style q X0 <> plain_style q X \/
      g_prec q = 1 /\ X0 < X /\ -4 <= X < 0 /\ zlen (sign_text q (u <? 0)) + 1 < q_width q)).
Proof.
  intros Ha HP HS Hsc X0. destruct (big_digits_of u sc (g_prec q) S X HP HS) as (S0 & Hz & Hn). pose proof (g_java_reads q (u <? 0) S X S0 HP) as RJ.
  assert (Rd : forall t t' : list Z, in_case s t = in_case s t' -> read_float 10 (ch "e") t = read_float 10 (ch "e") t') by (intros t t' E; apply (f_equal (read_float 10 (ch "e"))) in E; rewrite !case_read10 in E; exact E).
  assert (Ln : forall t t' : list Z, in_case s t = in_case s t' -> zlen t = zlen t') by (intros t t' E; apply (f_equal (@zlen Z)) in E; rewrite !case_len in E; exact E).
  unfold b_g, bg_parts. rewrite Ha. cbv zeta. destruct (Z.eqb_spec u 0) as [->|N].
  - rewrite (Hsc eq_refl) in *. destruct (Hz eq_refl) as [-> ->]. change (Z.abs 0) with 0. change (- 0) with 0. change (bg_positional 0 0 (g_prec q)) with true. cbv iota.
    assert (B : bg_fixed 0 0 (g_prec q) = (0, 0)) by (unfold bg_fixed; change (ndigits 0) with 1; replace (1 <=? g_prec q) with true by (symmetry; apply Z.leb_le; lia); reflexivity). rewrite B.
    change (cut_loss 0 0) with 0. rewrite widen_0. change (0 <? 0) with false in *. assert (Pl : plain_style q 0 = true) by (unfold plain_style; cbn [Z.leb Z.compare andb]; apply Z.ltb_lt; lia).
    unfold X0. rewrite Pl in *. split.
    + intros E. apply Rd in E. rewrite RJ in E. pose proof (short_reads q false 0 0 [] 0 ltac:(lia) no_exp_reads) as R. rewrite app_nil_r in R. rewrite R in E. cbn [drop_zeros Z.to_nat fst snd] in E. apply (f_equal (fun o => match o with Some (_, _, p, _) => p | None => 0 end)) in E. cbv beta iota in E. intros [[_ F]|[F|(F & F' & _)]]; [lia|exact (F eq_refl)|lia].
    + intros F. assert (E1 : g_prec q = 1) by (destruct (Z.eq_dec (g_prec q) 1) as [E|E]; [exact E|exfalso; apply F; left; split; [reflexivity|lia]]).
      unfold g_java. fold (plain_style q 0). rewrite Pl, E1. reflexivity.
  - assert (Pa : 0 < Z.abs u) by lia. specialize (Hn N). unfold X0. clear Hz X0. set (X0 := ndigits (Z.abs u) - sc - 1).
    assert (Bp : bg_positional (Z.abs u) (- sc) (g_prec q) = plain_style q X0).
    { unfold bg_positional, plain_style. rewrite abs_zero. replace (u =? 0) with false by (symmetry; apply Z.eqb_neq; exact N). do 2 f_equal; unfold X0; lia. }
    assert (XX : X = X0 /\ S = hup (Z.abs u) (ndigits (Z.abs u) - g_prec q) \/ X = X0 + 1 /\ S = 10 ^ (g_prec q - 1)).
    { unfold sig in Hn. cbv zeta in Hn. destruct (_ =? _); injection Hn as <- <-; [right|left]; (split; [unfold X0; lia|reflexivity]). }
    rewrite Bp. destruct (plain_style q X0) eqn:P0.
    + apply plain_spec in P0. assert (Hp : 0 <= g_prec q - ndigits (Z.abs u) + sc) by (unfold X0 in P0; lia). pose proof (fixed_value (Z.abs u) sc (g_prec q) Pa HP Hp) as Fv.
      destruct (plain_style q X) eqn:P1.
      * apply plain_spec in P1. pose proof (fixed_short (Z.abs u) sc (g_prec q) S X Pa HP Hn ltac:(lia)) as Fs.
        pose proof (carried (Z.abs u) sc S X Pa) as Car. destruct (bg_fixed (Z.abs u) (- sc) (g_prec q)) as [M j] eqn:Ef. destruct Fv as (V1 & V2 & V3).
        pose proof (cut_loss_bound M j V1 ltac:(lia)) as Cb. pose proof (cut_loss_nonneg M j ltac:(lia)) as C0.
        pose proof (short_reads (widen q (cut_loss M j)) (u <? 0) M j [] 0 ltac:(lia) no_exp_reads) as R. rewrite app_nil_r in R. unfold short_text in *. rewrite Fs in *.
        set (p := g_prec q - 1 - X) in *. assert (Hp0 : 0 <= p) by (unfold p; lia). unfold g_java. fold (plain_style q X).
        assert (Pj : plain_style q X = true) by (unfold plain_style; apply andb_true_intro; split; [apply Z.leb_le|apply Z.ltb_lt]; lia). rewrite Pj. fold p.
        assert (Car' : g_prec q = 1 -> X0 < X -> X < 0 -> S = 1 /\ p = - X /\ cut_loss M j = 1 - X).
        { intros E1 E2 E3. rewrite E1 in *. unfold X0 in E2. destruct (Car Hn E2 E3) as (A1 & A2 & A3 & A4). rewrite Ef in A3. injection A3 as -> ->. split; [exact A1|]. split; [unfold p; lia|exact A4]. }
        split.
        -- intros E [[F1 F2]|[F|(F1 & F2 & F3 & F4)]].
           ++ apply Rd in E. unfold g_java in RJ. fold (plain_style q X) in RJ. rewrite Pj in RJ. fold p in RJ. rewrite R, RJ in E. injection E as E1 E2.
              assert (D : drop_zeros (Z.to_nat p) S = (S, Z.of_nat (Z.to_nat p))) by (destruct (drop_zeros (Z.to_nat p) S); cbn [fst snd] in *; rewrite Z2Nat.id by exact Hp0; congruence).
              apply drop_one in D as [D|D]; [unfold p in *; lia|exact (D F1)].
           ++ exact (F eq_refl).
           ++ destruct (Car' F1 F2 (proj2 F3)) as (-> & Ep & Ec). apply Ln in E. rewrite Ec in E.
              assert (D : drop_zeros (Z.to_nat p) 1 = (1, p)) by (rewrite <- (Z2Nat.id p) at 2 by exact Hp0; apply drop_one; right; discriminate). rewrite D in E.
              apply widen_seen in E; [|lia]. rewrite one_len in E by lia. lia.
        -- intros F. assert (D : drop_zeros (Z.to_nat p) S = (S, p)).
           { rewrite <- (Z2Nat.id p) at 2 by exact Hp0. apply drop_one. destruct (Z.eq_dec p 0) as [->|Np]; [left; reflexivity|right]. intros E. apply F. left. split; [exact E|unfold p in *; lia]. }
           rewrite D in *. f_equal. apply widen_same; [exact C0|]. destruct Cb as [_ Cb]. destruct (Z.eq_dec p 0) as [Ep|Np]; [left; exact (Cb Ep)|].
           destruct XX as [[E1 E2]|[E1 E2]].
           ++ left. assert (j = p). { pose proof (drop_snd_le (Z.to_nat j) M) as L. rewrite Fs in L. cbn [snd] in L. unfold p, X0 in *. lia. } subst j. apply cut_loss_none; [exact Hp0|]. rewrite Fs. f_equal.
              rewrite E2, <- V3. replace (g_prec q - ndigits (Z.abs u) + sc - p) with 0 by (unfold p, X0 in *; lia). rewrite Z.pow_0_r. lia.
           ++ right. assert (G1 : g_prec q = 1).
              { destruct (Z.eq_dec (g_prec q) 1) as [G|G]; [exact G|exfalso]. apply F. left. split; [|unfold p in *; lia]. rewrite E2. replace (g_prec q - 1) with (Z.succ (g_prec q - 2)) by lia. rewrite Z.pow_succ_r by lia. rewrite Z.mul_comm. apply Z.mod_mul. lia. }
              assert (X < 0) by (unfold p in *; lia). destruct (Car' G1 ltac:(lia) H) as (-> & Ep & Ec). rewrite Ec, one_len by lia.
              destruct (Z_lt_le_dec (zlen (sign_text q (u <? 0)) + 1) (q_width q)) as [L|L]; [exfalso; apply F; right; right; repeat split; try assumption; lia|lia].
      * apply plain_spec in P1. destruct (bg_fixed (Z.abs u) (- sc) (g_prec q)) as [M j]. destruct Fv as (V1 & V2 & V3). split; [|intros F; exfalso; apply F; right; left; discriminate].
        intros E. exfalso. apply Rd in E. rewrite RJ in E. pose proof (short_reads (widen q (cut_loss M j)) (u <? 0) M j [] 0 ltac:(lia) no_exp_reads) as R. rewrite app_nil_r in R. rewrite R in E. injection E as _ _ E. lia.
    + apply plain_spec in P0. destruct (sci_short (Z.abs u) sc (g_prec q) S X Pa HP Hn) as (B1 & B2 & B3 & B4). rewrite B1. rewrite abs_zero. replace (u =? 0) with false by (symmetry; apply Z.eqb_neq; exact N).
      set (k := kept (Z.abs u) (g_prec q)) in *. set (D := S / 10 ^ (g_prec q - k)) in *. pose proof (pow10_pos (g_prec q - k) ltac:(lia)) as Pk. assert (D0 : 0 <= D) by nia.
      pose proof (short_reads (widen q (cut_loss D (k - 1))) (u <? 0) D (k - 1) _ X D0 (big_exp_reads (Z.abs u) (g_prec q) X)) as R.
      destruct (plain_style q X) eqn:P1.
      * apply plain_spec in P1. split; [|intros F; exfalso; apply F; right; left; discriminate]. intros E. exfalso. apply Rd in E. rewrite RJ in E. rewrite R in E. injection E as _ _ E. lia.
      * assert (Ex : big_exp_text (Z.abs u) (g_prec q) X = exp_text X).
        { unfold big_exp_text. fold k. destruct (Z.eqb_spec X 9) as [E9|]; [|reflexivity]. destruct (Z.eqb_spec k 10) as [E10|]; [|reflexivity]. exfalso. apply plain_spec in P1. lia. }
        rewrite Ex in *. assert (Fs : drop_zeros (Z.to_nat (k - 1)) D = drop_zeros (Z.to_nat (g_prec q - 1)) S).
        { rewrite B2. replace (g_prec q - 1) with (k - 1 + (g_prec q - k)) by lia. symmetry. apply dropz_shift; lia. }
        rewrite Fs in R. unfold g_java. fold (plain_style q X). rewrite P1. unfold g_java in RJ. fold (plain_style q X) in RJ. rewrite P1 in RJ. split.
        -- intros E [[F1 F2]|[F|(_ & _ & F3 & _)]]; [|exact (F eq_refl)|].
           ++ apply Rd in E. rewrite R, RJ in E. injection E as E1 E2.
              assert (Dz : drop_zeros (Z.to_nat (g_prec q - 1)) S = (S, Z.of_nat (Z.to_nat (g_prec q - 1)))) by (destruct (drop_zeros (Z.to_nat (g_prec q - 1)) S); cbn [fst snd] in *; rewrite Z2Nat.id by lia; congruence).
              apply drop_one in Dz as [Dz|Dz]; [lia|exact (Dz F1)].
           ++ apply plain_spec in P1. lia.
        -- intros F. assert (Dz : drop_zeros (Z.to_nat (g_prec q - 1)) S = (S, g_prec q - 1)).
           { rewrite <- (Z2Nat.id (g_prec q - 1)) at 2 by lia. apply drop_one. destruct (Z.eq_dec (g_prec q) 1) as [G|G]; [left; rewrite G; reflexivity|right]. intros E. apply F. left. split; [exact E|lia]. }
           pose proof (drop_snd_le (Z.to_nat (k - 1)) D) as L. rewrite Fs, Dz in L. cbn [snd] in L. assert (Ek : k = g_prec q) by lia.
           assert (ED : D = S) by (rewrite B2; rewrite Ek, Z.sub_diag, Z.pow_0_r; lia). unfold short_text. rewrite Fs, Dz, ED, Ek. rewrite cut_loss_none by (try lia; exact Dz). rewrite widen_0. reflexivity.
Qed.
