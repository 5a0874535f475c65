(** Proofs for C98: when the texts are those of C. *)
From Coq Require Import QArith Qabs Qpower Lqa Lia.
From Verif Require Import Base Digits SeqM SeqSpec ContextM CompilerM GrammarSpec FormatterM TraitsM ImplM FmtSpec FmtP DecSpec RoundP FloatSpec BigSpec FPDecP DirSpec ScaleSpec ValueSpec WholeSpec
  ScaleP FloatQ CastP DoubleP HexP ReadSpec ReadP ReadFSpec ReadFP ReadFP2 ReadFP3 SigP IntP AgainP2 AgainP3 PropsFloat PropsRead ScanP3 PortSpec PortP.
Open Scope Z_scope.

(** ** Counting a character *)

Definition cnt (c : Z) (t : list Z) : Z := zlen (filter (Z.eqb c) t).
Lemma cnt_app c a b : cnt c (a ++ b) = cnt c a + cnt c b.
Proof. unfold cnt. rewrite filter_app. apply zlen_app. Qed.
Lemma cnt_rep c d n : cnt c (rep d n) = if c =? d then Z.max 0 n else 0.
Proof.
  unfold cnt, rep. transitivity (if c =? d then Z.of_nat (Z.to_nat n) else 0); [|destruct (c =? d); lia].
  induction (Z.to_nat n) as [|k IH]; cbn [repeat filter]; [destruct (c =? d); reflexivity|].
  destruct (c =? d); [|exact IH]. unfold zlen in *. cbn [length]. lia.
Qed.
Lemma cnt_upper k t : k < 65 \/ 122 < k -> cnt k (map ascii_upper t) = cnt k t.
Proof.
  intros H. unfold cnt, zlen. f_equal. induction t as [|c t IH]; [reflexivity|]. cbn [map filter]. rewrite (Z.eqb_sym k (ascii_upper c)), (upper_eq c k H), (Z.eqb_sym c k).
  destruct (k =? c); cbn [length]; rewrite IH; reflexivity.
Qed.
Lemma cnt_case k s t : k < 65 \/ 122 < k -> cnt k (in_case s t) = cnt k t.
Proof. intros H. unfold in_case. destruct (is_upper s); [apply cnt_upper; exact H|reflexivity]. Qed.
Lemma cnt_justify k q t : k <> 32 -> cnt k (justify q t) = cnt k t.
Proof.
  intros H. assert (E : (k =? ch " ") = false) by (apply Z.eqb_neq; exact H). unfold justify, spaces. destruct (q_left q); rewrite cnt_app, cnt_rep, E; lia.
Qed.
Lemma cnt_pad k q zp pre body : k <> 32 -> k <> 48 -> cnt k (pad_number q zp pre body) = cnt k pre + cnt k body.
Proof.
  intros H H0. unfold pad_number. destruct (zp && negb (q_left q)); [|rewrite cnt_justify, cnt_app by exact H; reflexivity].
  assert (E : (k =? ch "0") = false) by (apply Z.eqb_neq; exact H0). unfold zeros. rewrite !cnt_app, cnt_rep, E. lia.
Qed.
Lemma cnt_none (P : Z -> Prop) k t : Forall P t -> ~ P k -> cnt k t = 0.
Proof.
  intros F N. induction F as [|c t Hc F IH]; [reflexivity|]. unfold cnt in *. cbn [filter]. destruct (Z.eqb_spec k c) as [->|]; [tauto|exact IH].
Qed.

(** ** Integers *)

Lemma d_port q z : 0 <= q_width q -> (j_d q z = c_d q z <-> ~ departs Sd q (CInt z)).
Proof.
  intros Hw. unfold j_d, d_irregular, departs. destruct (Z.eqb_spec z 0) as [->|Nz]; [|cbn [andb]; split; [intros _ [E _]; lia|reflexivity]].
  destruct (q_prec q) as [[|p|p]|] eqn:Ep; cbn [andb]; try (split; [intros _ (_ & E & _); discriminate|reflexivity]).
  destruct (q_space q) eqn:Es; cbn [andb]; [|split; [intros _ (_ & _ & _ & E & _); discriminate|reflexivity]].
  destruct (q_plus q) eqn:El; cbn [andb negb]; [split; [intros _ (_ & _ & E & _); discriminate|reflexivity]|].
  assert (C : c_d q 0 = justify q (txt " ")).
  { unfold c_d, pad_number, no_prec, int_digits, sign_text. rewrite Ep, Es, El, andb_false_r. reflexivity. }
  rewrite C. unfold justify. change (zlen []) with 0. change (zlen (txt " ")) with 1. split.
  - intros E (_ & _ & _ & _ & W). rewrite W in E. destruct (q_left q); discriminate E.
  - intros N. assert (W : 1 <= q_width q) by (destruct (Z.eq_dec (q_width q) 0); [exfalso; tauto|lia]).
    rewrite app_nil_r. cbn [app]. replace (q_width q - 0) with (1 + (q_width q - 1)) by lia. unfold spaces.
    destruct (q_left q); [rewrite rep_add by lia; reflexivity|]. replace (1 + (q_width q - 1)) with (q_width q - 1 + 1) by lia. rewrite rep_add by lia. reflexivity.
Qed.

Lemma zeros_one n : 0 <= n -> zeros n ++ txt "0" = zeros (n + 1).
Proof. intros H. unfold zeros. rewrite rep_add by lia. reflexivity. Qed.
Lemma cnt0_zeros n : cnt 48 (zeros n) = Z.max 0 n.
Proof. unfold zeros. rewrite cnt_rep. reflexivity. Qed.
Lemma cnt0_min p : cnt 48 (min_digits p (txt "0")) = Z.max 1 p.
Proof. unfold min_digits. rewrite cnt_app, cnt0_zeros. change (zlen (txt "0")) with 1. change (cnt 48 (txt "0")) with 1. lia. Qed.

Lemma x_port s q n : 0 <= q_width q -> s = Sx \/ s = SX -> (in_case s (j_x q n) = in_case s (c_x q n) <-> ~ departs s q (CUns n)).
Proof.
  intros Hw Hs. unfold j_x, x_irregular.
  assert (D : departs s q (CUns n) <-> n = 0 /\ q_alt q = true /\ q_prec q = None /\ q_zero q = true /\ q_left q = false /\ 2 <= q_width q) by (destruct Hs as [-> | ->]; cbn [departs]; tauto).
  rewrite D. clear D.
  destruct (q_alt q) eqn:Ea; cbn [andb]; [|split; [intros _ (_ & E & _); discriminate|reflexivity]].
  destruct (Z.eqb_spec n 0) as [->|Nz]; cbn [andb]; [|split; [intros _ (E & _); lia|reflexivity]].
  destruct (q_prec q) as [p|] eqn:Ep; unfold no_prec; rewrite Ep; cbn [andb]; [split; [intros _ (_ & _ & E & _); discriminate|reflexivity]|].
  destruct (q_zero q) eqn:Ez; cbn [andb]; [|split; [intros _ (_ & _ & _ & E & _); discriminate|reflexivity]].
  destruct (q_left q) eqn:El; cbn [andb negb]; [split; [intros _ (_ & _ & _ & _ & E & _); discriminate|reflexivity]|].
  assert (C : c_x q 0 = zeros (q_width q - 1) ++ txt "0").
  { unfold c_x, pad_number, no_prec, int_digits. rewrite Ep, Ez, El, Ea. cbn [andb negb Z.eqb app]. change (zlen []) with 0. change (numeral 16 0) with (txt "0"). change (zlen (txt "0")) with 1. rewrite Z.sub_0_r. reflexivity. }
  rewrite C. split.
  - intros E (_ & _ & _ & _ & _ & W). apply (f_equal (cnt 48)) in E. rewrite !cnt_case, cnt_justify, cnt0_min, cnt_app, cnt0_zeros in E by lia. change (cnt 48 (txt "0")) with 1 in E. lia.
  - intros N. assert (W : q_width q = 0 \/ q_width q = 1) by (destruct (Z_lt_le_dec (q_width q) 2); [lia|exfalso; tauto]). f_equal. unfold justify. rewrite El.
    destruct W as [-> | ->]; reflexivity.
Qed.

Lemma o_port q n : 0 <= q_width q -> (forall p, q_prec q = Some p -> 0 <= p) -> (j_o q n = c_o q n <-> ~ departs So q (CUns n)).
Proof.
  intros Hw Hp. unfold j_o, o_irregular. cbn [departs].
  destruct (q_alt q) eqn:Ea; cbn [andb]; [|split; [intros _ (_ & E & _); discriminate|reflexivity]].
  destruct (Z.eqb_spec n 0) as [->|Nz]; cbn [andb]; [|split; [intros _ (E & _); lia|reflexivity]].
  destruct (q_prec q) as [p|] eqn:Ep; unfold no_prec; rewrite Ep; cbn [negb orb].
  - specialize (Hp p eq_refl).
    assert (C : c_o q 0 = justify q (if p =? 0 then txt "0" else min_digits p (txt "0"))).
    { unfold c_o, pad_number, no_prec, int_digits. rewrite Ep, Ea, andb_false_r. cbn [andb Z.eqb app]. f_equal. change (numeral 8 0) with (txt "0"). destruct (Z.eqb_spec p 0) as [|Np]; [reflexivity|].
      unfold min_digits. change (zlen (txt "0")) with 1. rewrite zeros_one by lia. unfold zeros, rep. destruct (Z.to_nat (p - 1 + 1)) eqn:En; [lia|reflexivity]. }
    rewrite C. split.
    + intros E (_ & _ & N). apply (f_equal (cnt 48)) in E. rewrite !cnt_justify in E by lia. destruct (Z.eqb_spec p 0) as [|Np]; [discriminate E|]. rewrite !cnt0_min in E. lia.
    + intros N. assert (p = 1) as -> by (destruct (Z.eq_dec p 1); [assumption|exfalso; tauto]). reflexivity.
  - destruct (q_zero q) eqn:Ez; cbn [andb]; [|split; [intros _ (_ & _ & E & _); discriminate|reflexivity]].
    destruct (q_left q) eqn:El; cbn [andb negb]; [split; [intros _ (_ & _ & _ & E & _); discriminate|reflexivity]|].
    assert (C : c_o q 0 = zeros (q_width q - 1) ++ txt "0").
    { unfold c_o, pad_number, no_prec, int_digits. rewrite Ep, Ez, El, Ea. cbn [andb negb app]. change (force_zero (numeral 8 0)) with (txt "0"). change (zlen []) with 0. change (zlen (txt "0")) with 1. rewrite Z.sub_0_r. reflexivity. }
    rewrite C. split.
    + intros E (_ & _ & _ & _ & W). apply (f_equal (cnt 48)) in E. rewrite cnt_justify, cnt0_min, cnt_app, cnt0_zeros in E by lia. change (cnt 48 (txt "0")) with 1 in E. lia.
    + intros N. assert (W : q_width q = 0 \/ q_width q = 1) by (destruct (Z_lt_le_dec (q_width q) 2); [lia|exfalso; tauto]). unfold justify. rewrite El.
      destruct W as [-> | ->]; reflexivity.
Qed.

(** ** Infinities and NaN *)

Lemma justify_blank q t c : c <> 32 -> 0 <= q_width q -> (justify q (c :: t) = justify q (32 :: c :: t) <-> ~ (q_left q = true \/ q_width q <= zlen (c :: t))).
Proof.
  intros Hc Hw. unfold justify. replace (zlen (32 :: c :: t)) with (zlen (c :: t) + 1) by (unfold zlen; cbn [length]; lia). set (k := zlen (c :: t)). destruct (q_left q).
  - split; [intros E; cbn [app] in E; injection E as E _; lia|intros N; exfalso; apply N; left; reflexivity].
  - split.
    + intros E [F|F]; [discriminate|]. unfold spaces, rep in E. replace (Z.to_nat (q_width q - k)) with O in E by lia. replace (Z.to_nat (q_width q - (k + 1))) with O in E by lia.
      cbn [repeat app] in E. injection E as E _. lia.
    + intros N. assert (L : k < q_width q) by (destruct (Z_lt_le_dec k (q_width q)); [assumption|exfalso; apply N; right; assumption]).
      replace (q_width q - k) with (q_width q - (k + 1) + 1) by lia. unfold spaces. rewrite rep_add by lia. rewrite <- app_assoc. reflexivity.
Qed.

Lemma case_justify s q t : in_case s (justify q t) = justify q (in_case s t).
Proof. unfold in_case. destruct (is_upper s); [apply (upper_justify q t)|reflexivity]. Qed.
Lemma lower_case s t : is_upper s = false -> in_case s t = t.
Proof. intros E. unfold in_case. rewrite E. reflexivity. Qed.
Lemma upper_case s t : is_upper s = true -> in_case s t = map ascii_upper t.
Proof. intros E. unfold in_case. rewrite E. reflexivity. Qed.

Lemma inf_port s q neg w : 0 <= q_width q -> w = txt "inf" \/ w = txt "infinity" ->
  (in_case s (j_inf q neg) = in_case s (justify q (sign_text q neg ++ w)) <-> w = txt "infinity" /\ is_upper s = true /\ ~ (neg = false /\ blank_sign q 8)).
Proof.
  intros Hw Hi. unfold j_inf. rewrite !case_justify. destruct (is_upper s) eqn:U.
  - rewrite !upper_case by exact U. destruct Hi as [-> | ->].
    + split; [|intros (E & _); discriminate]. intros E. exfalso. apply (f_equal (cnt 84)) in E. rewrite !cnt_justify in E by lia. unfold sign_text in E. destruct neg, (q_plus q), (q_space q); discriminate E.
    + assert (G : (justify q (map ascii_upper ((if neg then txt "-" else if q_plus q then txt "+" else []) ++ txt "Infinity")) = justify q (map ascii_upper (sign_text q neg ++ txt "infinity")) <-> ~ (neg = false /\ blank_sign q 8))).
      { unfold sign_text, blank_sign. destruct neg; [split; [intros _ [E _]; discriminate|reflexivity]|]. destruct (q_plus q); [split; [intros _ (_ & E & _); discriminate|reflexivity]|].
        destruct (q_space q); [|split; [intros _ (_ & _ & E & _); discriminate|reflexivity]].
        pose proof (justify_blank q (txt "NFINITY") (ch "I") ltac:(discriminate) Hw) as B. change (zlen (ch "I" :: txt "NFINITY")) with 8 in B.
        cbn [app]. change (map ascii_upper (txt "Infinity")) with (ch "I" :: txt "NFINITY"). change (map ascii_upper (txt " " ++ txt "infinity")) with (32 :: ch "I" :: txt "NFINITY"). rewrite B. tauto. }
      rewrite G. tauto.
  - rewrite !lower_case by exact U. split; [|intros (_ & E & _); discriminate]. intros E. exfalso. apply (f_equal (cnt 73)) in E. rewrite !cnt_justify in E by lia.
    unfold sign_text in E. destruct Hi as [-> | ->], neg, (q_plus q), (q_space q); discriminate E.
Qed.

Lemma nan_port s q u : 0 <= q_width q -> nan_tail u ->
  (in_case s (c_nan q) = in_case s (justify q (sign_text q false ++ txt "nan" ++ u)) <-> u = [] /\ is_upper s = true /\ q_plus q = false /\ ~ blank_sign q 3).
Proof.
  intros Hw Hu. unfold c_nan. rewrite !case_justify.
  assert (T : u <> [] -> 0 < cnt 40 u).
  { destruct Hu as [->|(cs & -> & _)]; [tauto|]. intros _. rewrite !cnt_app. change (cnt 40 (txt "(")) with 1. change (cnt 40 (txt ")")) with 0. unfold cnt. pose proof (zlen_nonneg (filter (Z.eqb 40) cs)). lia. }
  assert (U0 : justify q (in_case s (txt "NaN")) = justify q (in_case s (sign_text q false ++ txt "nan" ++ u)) -> u = []).
  { intros E. apply (f_equal (cnt 40)) in E. rewrite !cnt_justify, !cnt_case, !cnt_app in E by lia. change (cnt 40 (txt "NaN")) with 0 in E. change (cnt 40 (txt "nan")) with 0 in E.
    assert (S : 0 <= cnt 40 (sign_text q false)) by (unfold cnt; apply zlen_nonneg). destruct u as [|c u]; [reflexivity|]. specialize (T ltac:(discriminate)). lia. }
  assert (P : (justify q (in_case s (txt "NaN")) = justify q (in_case s (sign_text q false ++ txt "nan" ++ [])) <-> is_upper s = true /\ q_plus q = false /\ ~ blank_sign q 3)).
  { destruct (is_upper s) eqn:U.
    - rewrite !upper_case by exact U. unfold sign_text, blank_sign. destruct (q_plus q).
      + split; [|intros (_ & E & _); discriminate]. intros E. exfalso. apply (f_equal (cnt 43)) in E. rewrite !cnt_justify in E by lia. discriminate E.
      + destruct (q_space q).
        * pose proof (justify_blank q (txt "AN") (ch "N") ltac:(discriminate) Hw) as B. change (zlen (ch "N" :: txt "AN")) with 3 in B.
          change (map ascii_upper (txt "NaN")) with (ch "N" :: txt "AN"). change (map ascii_upper (txt " " ++ txt "nan" ++ [])) with (32 :: ch "N" :: txt "AN"). rewrite B. tauto.
        * split; [intros _; split; [reflexivity|]; split; [reflexivity|intros (_ & E & _); discriminate]|reflexivity].
    - rewrite !lower_case by exact U. split; [|intros (E & _); discriminate]. intros E. exfalso. apply (f_equal (cnt 78)) in E. rewrite !cnt_justify in E by lia.
      unfold sign_text in E. destruct (q_plus q), (q_space q); discriminate E. }
  split.
  - intros E. pose proof (U0 E) as ->. split; [reflexivity|]. apply P. exact E.
  - intros [-> H]. apply P. exact H.
Qed.
