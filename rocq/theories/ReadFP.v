(** Reading back floating-point texts. *)
From Coq Require Import QArith Lqa.
From Verif Require Import Base Digits SeqSpec ReadSpec ReadP FmtSpec FmtP DirSpec DecSpec FloatSpec FPDecP FloatP ReadFSpec.
Open Scope Z_scope.

(** ** runs of digits *)
Definition Dig (base c : Z) : Prop := is_digit base c = true.

Lemma run_app base ds r : Forall (Dig base) ds -> match r with c :: _ => is_digit base c = false | [] => True end ->
  digits_run base (ds ++ r) = (ds, r).
Proof.
  intros H Hr. induction H as [|c t Hc _ IH]; cbn [app].
  - destruct r as [|c r]; [reflexivity|]. cbn [digits_run]. rewrite Hr. reflexivity.
  - cbn [digits_run]. unfold Dig in Hc. rewrite Hc, IH. reflexivity.
Qed.

Lemma run_all base ds : Forall (Dig base) ds -> digits_run base ds = (ds, []).
Proof. intros H. rewrite <- (app_nil_r ds) at 1. apply run_app; [exact H|exact I]. Qed.

Lemma dig10 c : is_dig c -> Dig 10 c.
Proof.
  unfold is_dig, Dig, is_digit. intros H. replace (48 <=? c) with true by (symmetry; apply Z.leb_le; lia).
  replace (c <=? 57) with true by (symmetry; apply Z.leb_le; lia). reflexivity.
Qed.
Lemma digs10 l : Forall is_dig l -> Forall (Dig 10) l. Proof. apply Forall_impl, dig10. Qed.
Lemma dig16 c : hexdigit c -> Dig 16 c.
Proof.
  unfold hexdigit, Dig, is_digit. intros [H|H].
  - replace (48 <=? c) with true by (symmetry; apply Z.leb_le; lia).
    replace (c <=? 57) with true by (symmetry; apply Z.leb_le; lia). reflexivity.
  - replace (97 <=? c) with true by (symmetry; apply Z.leb_le; lia).
    replace (c <=? 102) with true by (symmetry; apply Z.leb_le; lia). cbn [andb orb Z.eqb Pos.eqb]. apply orb_true_r.
Qed.
Lemma digs16 l : Forall hexdigit l -> Forall (Dig 16) l. Proof. apply Forall_impl, dig16. Qed.
Lemma dig_hexdigit c : is_dig c -> hexdigit c. Proof. unfold is_dig, hexdigit. lia. Qed.
Lemma digs_hexdigit l : Forall is_dig l -> Forall hexdigit l. Proof. apply Forall_impl, dig_hexdigit. Qed.

(** ** blanks *)
Lemma skip_spaces n t : skip_blanks (spaces n ++ t) = skip_blanks t.
Proof. unfold spaces, rep. induction (Z.to_nat n) as [|k IH]; [reflexivity|exact IH]. Qed.
Lemma skip_all n : skip_blanks (spaces n) = [].
Proof. rewrite <- (app_nil_r (spaces n)), skip_spaces. reflexivity. Qed.

(** ** a number without blanks, followed by blanks *)

(** what the reader does after the sign *)
Definition read_body (base mark : Z) (neg : bool) (t : list Z) : option (bool * Z * Z * Z) :=
  match read_prefix base t with
  | None => None
  | Some t =>
      let (i, t) := digits_run base t in
      let (f, t) := read_fraction base t in
      match i, read_exponent mark t with
      | _ :: _, Some (x, t) => match skip_blanks t with [] => Some (neg, read_digits base (i ++ f), zlen f, x) | _ => None end
      | _, _ => None
      end
  end.
Lemma read_float_body base mark t : read_float base mark t = let (neg, t) := read_sign (skip_blanks t) in read_body base mark neg t.
Proof. reflexivity. Qed.

(** a body read from its zero-padded form, with blanks after it *)
Definition body_reads (base mark : Z) (body : list Z) (N k x : Z) : Prop :=
  forall neg z n, read_body base mark neg ((if base =? 16 then txt "0x" else []) ++ zeros z ++ body ++ spaces n) = Some (neg, N, k, x).

Definition starts (base : Z) (body : list Z) : Prop := match body with c :: _ => is_digit base c = true | [] => False end.

Lemma digit_no_sign base c t : is_digit base c = true -> read_sign (skip_blanks (c :: t)) = (false, c :: t).
Proof.
  intros H. cbn [skip_blanks]. assert (48 <= c).
  { unfold is_digit in H. apply orb_prop in H as [H|H]; [bools; lia|]. apply andb_prop in H as [_ H]. apply orb_prop in H as [H|H]; bools; lia. }
  replace (c =? 32) with false by (symmetry; apply Z.eqb_neq; lia). cbn [read_sign].
  replace (c =? 45) with false by (symmetry; apply Z.eqb_neq; lia). replace (c =? 43) with false by (symmetry; apply Z.eqb_neq; lia). reflexivity.
Qed.

Lemma read_sign_text q neg base c t : is_digit base c = true ->
  read_sign (skip_blanks (sign_text q neg ++ c :: t)) = (neg, c :: t).
Proof.
  intros H. unfold sign_text. destruct neg; [reflexivity|]. destruct (q_plus q); [reflexivity|].
  destruct (q_space q); [change (skip_blanks (txt " " ++ c :: t)) with (skip_blanks (c :: t))|cbn [app]]; apply (digit_no_sign base); exact H.
Qed.

Lemma read_sign_digits q neg base t : starts base t -> read_sign (skip_blanks (sign_text q neg ++ t)) = (neg, t).
Proof. intros H. destruct t as [|c t]; [destruct H|]. apply (read_sign_text q neg base). exact H. Qed.

Lemma starts_app base a b : starts base a -> starts base (a ++ b).
Proof. destruct a; [intros []|exact (fun H => H)]. Qed.
Lemma starts_zeros base z t : starts base t -> starts base (zeros z ++ t).
Proof. intros H. unfold zeros, rep. destruct (Z.to_nat z); [exact H|reflexivity]. Qed.

(** a padded number reads as its body *)
Lemma read_padded base mark q zp neg body N k x : starts 10 body -> body_reads base mark body N k x ->
  read_float base mark (pad_number q zp (sign_text q neg ++ (if base =? 16 then txt "0x" else [])) body) = Some (neg, N, k, x).
Proof.
  intros Hs Hb. rewrite read_float_body. unfold pad_number.
  assert (S : forall z n, starts 10 ((if base =? 16 then txt "0x" else []) ++ zeros z ++ body ++ spaces n)).
  { intros z n. destruct (base =? 16); [reflexivity|]. cbn [app]. apply starts_zeros, starts_app. exact Hs. }
  destruct (zp && negb (q_left q)).
  - rewrite <- app_assoc. specialize (S (q_width q - zlen (sign_text q neg ++ (if base =? 16 then txt "0x" else [])) - zlen body) 0).
    change (spaces 0) with (@nil Z) in S. rewrite app_nil_r in S. rewrite (read_sign_digits q neg 10) by exact S.
    pose proof (Hb neg (q_width q - zlen (sign_text q neg ++ (if base =? 16 then txt "0x" else [])) - zlen body) 0) as E.
    change (spaces 0) with (@nil Z) in E. rewrite app_nil_r in E. exact E.
  - unfold justify. set (w := q_width q - _). destruct (q_left q).
    + rewrite <- !app_assoc. specialize (S 0 w). change (zeros 0) with (@nil Z) in S. cbn [app] in S.
      rewrite (read_sign_digits q neg 10) by exact S. exact (Hb neg 0 w).
    + rewrite skip_spaces, <- app_assoc. specialize (S 0 0). change (zeros 0) with (@nil Z) in S. change (spaces 0) with (@nil Z) in S. cbn [app] in S.
      rewrite app_nil_r in S. rewrite (read_sign_digits q neg 10) by exact S.
      pose proof (Hb neg 0 0) as E. change (zeros 0) with (@nil Z) in E. change (spaces 0) with (@nil Z) in E. cbn [app] in E.
      rewrite app_nil_r in E. exact E.
Qed.

(** ** bodies: digits, fraction, exponent *)

Definition frac (b p N : Z) : list Z := map digit_char (fixdigs b (Z.to_nat p) N).

Lemma frac_hex b p N : 2 <= b <= 16 -> Forall hexdigit (frac b p N).
Proof.
  intros Hb. apply Forall_forall. intros c Hc. apply in_map_iff in Hc as (d & <- & Hd).
  pose proof (fixdigs_ok b (Z.to_nat p) N ltac:(lia)) as Ho. unfold digits_ok in Ho. rewrite Forall_forall in Ho.
  apply Ho in Hd. unfold digit_char, hexdigit. destruct (d <? 10) eqn:E; bools; lia.
Qed.
Lemma zlen_frac b p N : 0 <= p -> zlen (frac b p N) = p.
Proof. intros H. unfold frac. rewrite zlen_map, fixdigs_length. lia. Qed.

Lemma val_chars b ds : 2 <= b <= 16 -> digits_ok b ds -> map digit_val (map digit_char ds) = ds.
Proof.
  intros Hb H. rewrite map_map. rewrite <- (map_id ds) at 2. apply map_ext_in. intros d Hd. apply digit_val_char.
  unfold digits_ok in H. rewrite Forall_forall in H. apply H in Hd. lia.
Qed.

Lemma read_split b N p z : 2 <= b <= 16 -> 0 <= N -> 0 <= p -> read_digits b ((zeros z ++ numeral b (N / b ^ p)) ++ frac b p N) = N.
Proof.
  intros Hb HN Hp. rewrite <- app_assoc, read_zeros. assert (HB : 0 < b ^ p) by (apply Z.pow_pos_nonneg; lia).
  assert (HD : 0 <= N / b ^ p) by (apply Z.div_pos; lia).
  rewrite read_numeral by (apply Forall_app; split; [apply numeral_hex|apply frac_hex]; lia).
  unfold of_numeral. rewrite map_app. unfold numeral, frac.
  rewrite !(val_chars b) by (try lia; first [apply digits_digits_ok|apply fixdigs_ok]; lia).
  rewrite of_digits_app, digits_value, fixdigs_length, fixdigs_value, Z2Nat.id by lia. rewrite (Z.div_mod N (b ^ p)) at 3 by lia. ring.
Qed.

Lemma numeral_ne b n : 2 <= b -> 0 <= n -> numeral b n <> [].
Proof.
  intros Hb Hn E. assert (L : zlen (numeral b n) = 0) by (rewrite E; reflexivity). unfold numeral in L. rewrite zlen_map in L.
  pose proof (digits_nonempty b n ltac:(lia) Hn). lia.
Qed.

(** [t] reads as an exponent *)
Definition exp_reads (base mark : Z) (t : list Z) (x : Z) : Prop :=
  (forall n, read_exponent mark (t ++ spaces n) = Some (x, spaces n)) /\
  match t with c :: _ => is_digit base c = false /\ c <> 46 | [] => True end.

Lemma exp_stop base mark t x n : exp_reads base mark t x ->
  match t ++ spaces n with c :: _ => is_digit base c = false /\ c <> 46 | [] => True end.
Proof.
  intros [_ H]. destruct t as [|c t]; [|exact H]. cbn [app]. unfold spaces, rep. destruct (Z.to_nat n); [exact I|].
  cbn [repeat]. split; [|discriminate]. unfold is_digit. change (ch " ") with 32. cbn. apply andb_false_r.
Qed.

Lemma body_split base mark N p dot e x : base = 10 \/ base = 16 -> 0 <= N -> 0 <= p -> (dot = false -> p = 0) -> exp_reads base mark e x ->
  body_reads base mark (numeral base (N / base ^ p) ++ (if dot then ch "." :: frac base p N else []) ++ e) N p x.
Proof.
  intros Hb HN Hp Hd He neg z n. assert (B : 2 <= base <= 16) by lia. assert (HB : 0 < base ^ p) by (apply Z.pow_pos_nonneg; lia).
  assert (HD : 0 <= N / base ^ p) by (apply Z.div_pos; lia).
  assert (DG : forall l, Forall hexdigit l -> base = 16 -> Forall (Dig base) l) by (intros l Hl ->; apply digs16; exact Hl).
  assert (D1 : Forall (Dig base) (zeros z ++ numeral base (N / base ^ p))).
  { destruct Hb as [E|E].
    - subst. apply digs10. apply Forall_app. split; [|apply numeral_dig; lia]. apply Forall_forall. intros c Hc. apply in_rep in Hc. subst. unfold is_dig. cbn. lia.
    - apply DG; [|exact E]. apply Forall_app. split; [apply zeros_hex|apply numeral_hex; lia]. }
  assert (D2 : Forall (Dig base) (frac base p N)).
  { destruct Hb as [E|E]; [subst; apply digs10, fraction_dig|]. apply DG; [apply frac_hex; lia|exact E]. }
  set (I0 := zeros z ++ numeral base (N / base ^ p)) in *.
  assert (NE : I0 <> []) by (unfold I0; intros E; apply app_eq_nil in E as [_ E]; revert E; apply numeral_ne; lia).
  assert (RP : read_prefix base ((if base =? 16 then txt "0x" else []) ++ zeros z ++ (numeral base (N / base ^ p) ++ (if dot then ch "." :: frac base p N else []) ++ e) ++ spaces n) =
    Some (I0 ++ (if dot then ch "." :: frac base p N else []) ++ e ++ spaces n)).
  { unfold I0. rewrite <- !app_assoc. unfold read_prefix. destruct (base =? 16); reflexivity. }
  unfold read_body. rewrite RP. pose proof (exp_stop _ _ _ _ n He) as St. destruct He as [He _].
  assert (St1 : match e ++ spaces n with c :: _ => is_digit base c = false | [] => True end) by (destruct (e ++ spaces n); [exact I|apply St]).
  assert (Rd : read_digits base (I0 ++ frac base p N) = N) by (apply read_split; lia).
  destruct dot.
  - cbn [app]. rewrite run_app by first [exact D1|destruct Hb as [->| ->]; reflexivity]. cbn [read_fraction]. change (ch "." =? 46) with true. cbv iota.
    rewrite run_app by first [exact D2|exact St1]. destruct I0 as [|c0 I0]; [congruence|].
    rewrite He, skip_all, Rd, zlen_frac by lia. reflexivity.
  - cbn [app]. rewrite run_app by first [exact D1|exact St1].
    assert (RF : read_fraction base (e ++ spaces n) = ([], e ++ spaces n)).
    { unfold read_fraction. destruct (e ++ spaces n) as [|c r]; [reflexivity|]. destruct St as [_ St]. apply Z.eqb_neq in St. rewrite St. reflexivity. }
    rewrite RF. destruct I0 as [|c0 I0]; [congruence|]. rewrite He, skip_all. specialize (Hd eq_refl). subst p. change (frac base 0 N) with (@nil Z) in Rd. rewrite Rd. reflexivity.
Qed.

(** ** decimal bodies *)
Lemma read_exp_text x n : read_exponent (ch "e") (exp_text x ++ spaces n) = Some (x, spaces n).
Proof.
  unfold exp_text. assert (D : Forall is_dig (min_digits 2 (numeral 10 (Z.abs x)))).
  { unfold min_digits. apply Forall_app. split; [|apply numeral_dig; lia]. apply Forall_forall. intros c Hc. apply in_rep in Hc. subst. unfold is_dig. cbn. lia. }
  assert (R : read_digits 10 (min_digits 2 (numeral 10 (Z.abs x))) = Z.abs x).
  { unfold min_digits. rewrite read_zeros, read_numeral by (apply numeral_hex; lia). apply of_numeral_numeral; lia. }
  set (ds := min_digits 2 _) in *.
  assert (Ne : ds <> []).
  { intros E. assert (L : zlen ds = 0) by (rewrite E; reflexivity). unfold ds, min_digits in L. rewrite zlen_app in L. unfold zeros in L.
    rewrite zlen_rep in L. pose proof (zlen_nonneg (numeral 10 (Z.abs x))). lia. }
  cbn [app read_exponent]. rewrite Z.eqb_refl. cbn [orb].
  assert (Run : digits_run 10 (ds ++ spaces n) = (ds, spaces n)).
  { apply run_app; [apply digs10; exact D|]. unfold spaces, rep. destruct (Z.to_nat n); [exact I|reflexivity]. }
  destruct (x <? 0) eqn:Ex; cbn [read_sign]; [change (ch "-" =? 45) with true|change (ch "+" =? 45) with false; change (ch "+" =? 43) with true];
    cbv iota; rewrite Run; destruct ds as [|d0 ds]; try congruence; rewrite R; bools; do 2 f_equal; lia.
Qed.

Lemma read_no_exp n : read_exponent (ch "e") (spaces n) = Some (0, spaces n).
Proof. unfold spaces, rep. destruct (Z.to_nat n); reflexivity. Qed.


Lemma exp_text_reads x : exp_reads 10 (ch "e") (exp_text x) x.
Proof. split; [intros n; apply read_exp_text|]. split; [reflexivity|discriminate]. Qed.
Lemma no_exp_reads : exp_reads 10 (ch "e") [] 0.
Proof. split; [intros n; apply read_no_exp|exact I]. Qed.

Lemma decimal_reads N p e x : 0 <= N -> 0 <= p -> exp_reads 10 (ch "e") e x -> body_reads 10 (ch "e") (decimal_text N p ++ e) N p x.
Proof.
  intros HN Hp He. unfold decimal_text. rewrite <- app_assoc.
  replace (if p =? 0 then [] else ch "." :: fraction p N) with (if negb (p =? 0) then ch "." :: frac 10 p N else []) by (destruct (p =? 0); reflexivity).
  apply body_split; try assumption; [left; reflexivity|]. destruct (Z.eqb_spec p 0); [auto|discriminate].
Qed.
Lemma alt_reads N p e x : 0 <= N -> 0 <= p -> exp_reads 10 (ch "e") e x -> body_reads 10 (ch "e") (alt_text N p ++ e) N p x.
Proof.
  intros HN Hp He. unfold alt_text, decimal_text. rewrite <- !app_assoc.
  replace (numeral 10 (N / 10 ^ p) ++ (if p =? 0 then [] else ch "." :: fraction p N) ++ (if p =? 0 then txt "." else []) ++ e)
    with (numeral 10 (N / 10 ^ p) ++ (if true then ch "." :: frac 10 p N else []) ++ e).
  - apply (body_split 10 (ch "e") N p true e x); try assumption; [left; reflexivity|discriminate].
  - f_equal. destruct (Z.eqb_spec p 0) as [->|]; [reflexivity|]. reflexivity.
Qed.

Lemma starts_digits N p r : 0 <= N -> 0 <= p -> starts 10 (numeral 10 (N / 10 ^ p) ++ r).
Proof.
  intros HN Hp. assert (HB : 0 < 10 ^ p) by (apply Z.pow_pos_nonneg; lia). assert (HD : 0 <= N / 10 ^ p) by (apply Z.div_pos; lia).
  apply starts_app. pose proof (numeral_dig (N / 10 ^ p) HD) as F. pose proof (numeral_ne 10 (N / 10 ^ p) ltac:(lia) HD) as Ne.
  destruct (numeral 10 (N / 10 ^ p)) as [|c l]; [congruence|]. inversion F; subst. apply dig10. assumption.
Qed.
Lemma decimal_starts N p e : 0 <= N -> 0 <= p -> starts 10 (decimal_text N p ++ e).
Proof. intros. unfold decimal_text. rewrite <- app_assoc. apply starts_digits; assumption. Qed.
Lemma alt_starts N p e : 0 <= N -> 0 <= p -> starts 10 (alt_text N p ++ e).
Proof. intros. unfold alt_text. rewrite <- app_assoc. apply decimal_starts; assumption. Qed.

(** the text of a finite number reads as that number *)
Lemma finite_reads q neg (alt : bool) N p e x : 0 <= N -> 0 <= p -> exp_reads 10 (ch "e") e x ->
  read_float 10 (ch "e") (finite_text q neg ((if alt then alt_text N p else decimal_text N p) ++ e)) = Some (neg, N, p, x).
Proof.
  intros HN Hp He. unfold finite_text. rewrite <- (app_nil_r (sign_text q neg)).
  apply (read_padded 10 (ch "e")); destruct alt; [apply alt_starts|apply decimal_starts|apply alt_reads|apply decimal_reads]; assumption.
Qed.

(** ** hexadecimal bodies *)
Lemma bin_exp_reads x : exp_reads 16 (ch "p") (bin_exp_text x) x.
Proof.
  split; [|split; [reflexivity|discriminate]]. intros n. unfold bin_exp_text.
  pose proof (numeral_dig (Z.abs x) ltac:(lia)) as D. pose proof (numeral_ne 10 (Z.abs x) ltac:(lia) ltac:(lia)) as Ne.
  assert (R : read_digits 10 (numeral 10 (Z.abs x)) = Z.abs x) by (rewrite read_numeral by (apply numeral_hex; lia); apply of_numeral_numeral; lia).
  set (ds := numeral 10 (Z.abs x)) in *. cbn [app read_exponent]. rewrite Z.eqb_refl. cbn [orb].
  assert (Run : digits_run 10 (ds ++ spaces n) = (ds, spaces n)).
  { apply run_app; [apply digs10; exact D|]. unfold spaces, rep. destruct (Z.to_nat n); [exact I|reflexivity]. }
  destruct (x <? 0) eqn:Ex; cbn [read_sign]; [change (ch "-" =? 45) with true|change (ch "+" =? 45) with false; change (ch "+" =? 43) with true];
    cbv iota; rewrite Run; destruct ds as [|d0 ds]; try congruence; rewrite R; bools; do 2 f_equal; lia.
Qed.

Lemma hex_reads q neg M k x : 0 <= M < 2 * 16 ^ k -> 0 <= k ->
  read_float 16 (ch "p") (pad_number q (q_zero q) (sign_text q neg ++ txt "0x") (hex_text M k ++ bin_exp_text x)) = Some (neg, M, k, x).
Proof.
  intros HM Hk. assert (HB : 0 < 16 ^ k) by (apply Z.pow_pos_nonneg; lia). apply (read_padded 16 (ch "p")).
  - unfold hex_text. rewrite <- app_assoc. apply starts_app.
    assert (E : M / 16 ^ k = 0 \/ M / 16 ^ k = 1) by (assert (0 <= M / 16 ^ k) by (apply Z.div_pos; lia); assert (M / 16 ^ k < 2) by (apply Z.div_lt_upper_bound; lia); lia).
    destruct E as [-> | ->]; reflexivity.
  - unfold hex_text. rewrite <- app_assoc. change (ch "." :: hex_fraction k M) with (if true then ch "." :: frac 16 k M else []).
    apply (body_split 16 (ch "p") M k true); [right; reflexivity|lia|exact Hk|discriminate|apply bin_exp_reads].
Qed.

(** ** upper case *)
Lemma upper_eq c k : (k < 65 \/ 122 < k) -> (ascii_upper c =? k) = (c =? k).
Proof. intros H. unfold ascii_upper. destruct ((97 <=? c) && (c <=? 122)) eqn:E; [|reflexivity]. bools. destruct (Z.eqb_spec (c - 32) k), (Z.eqb_spec c k); lia. Qed.

Lemma upper_digit base c : base = 10 \/ base = 16 -> is_digit base (ascii_upper c) = is_digit base c.
Proof.
  intros Hb. unfold ascii_upper, is_digit. destruct ((97 <=? c) && (c <=? 122)) eqn:E; [|reflexivity]. bools.
  replace (c <=? 57) with false by (symmetry; apply Z.leb_gt; lia). replace (c - 32 <=? 57) with false by (symmetry; apply Z.leb_gt; lia).
  replace (97 <=? c) with true by (symmetry; apply Z.leb_le; lia). replace (97 <=? c - 32) with false by (symmetry; apply Z.leb_gt; lia).
  replace (65 <=? c) with true by (symmetry; apply Z.leb_le; lia). replace (65 <=? c - 32) with true by (symmetry; apply Z.leb_le; lia).
  replace (c <=? 70) with false by (symmetry; apply Z.leb_gt; lia). rewrite !andb_false_r. destruct (base =? 16); [|reflexivity]. cbn [andb orb].
  rewrite orb_false_r. destruct (Z.leb_spec (c - 32) 70), (Z.leb_spec c 102); try reflexivity; lia.
Qed.

Lemma upper_run base t : base = 10 \/ base = 16 ->
  digits_run base (map ascii_upper t) = (map ascii_upper (fst (digits_run base t)), map ascii_upper (snd (digits_run base t))).
Proof.
  intros Hb. induction t as [|c t IH]; [reflexivity|]. cbn [map digits_run]. rewrite upper_digit by exact Hb.
  destruct (is_digit base c); [|reflexivity]. rewrite IH. destruct (digits_run base t). reflexivity.
Qed.
Lemma run_digits base t : Forall (Dig base) (fst (digits_run base t)).
Proof.
  induction t as [|c t IH]; cbn [digits_run]; [constructor|]. destruct (is_digit base c) eqn:E; [|constructor].
  destruct (digits_run base t) as [d r]. cbn [fst] in *. constructor; assumption.
Qed.
Lemma hexval_upper_aux c : 97 <= c -> c <= 102 -> hexval (c - 32) = hexval c.
Proof.
  intros H1 H2. pose proof (hexval_upper c (or_intror (conj H1 H2))) as E. unfold ascii_upper in E.
  replace ((97 <=? c) && (c <=? 122)) with true in E by (symmetry; apply andb_true_intro; split; apply Z.leb_le; lia). exact E.
Qed.
Lemma upper_hexval base c : Dig base c -> hexval (ascii_upper c) = hexval c.
Proof.
  intros H. unfold ascii_upper. destruct ((97 <=? c) && (c <=? 122)) eqn:E; [|reflexivity]. bools. apply hexval_upper_aux; [lia|].
  unfold Dig, is_digit in H. apply orb_prop in H as [H|H]; [bools; lia|]. apply andb_prop in H as [_ H]. apply orb_prop in H as [H|H]; bools; lia.
Qed.
Lemma upper_read b base t : Forall (Dig base) t -> read_digits b (map ascii_upper t) = read_digits b t.
Proof.
  intros H. unfold read_digits. rewrite fold_map. apply fold_ext. intros a c Hc. rewrite Forall_forall in H. rewrite (upper_hexval base) by auto. reflexivity.
Qed.
Lemma upper_blanks t : skip_blanks (map ascii_upper t) = map ascii_upper (skip_blanks t).
Proof. induction t as [|c t IH]; [reflexivity|]. cbn [map skip_blanks]. rewrite upper_eq by lia. destruct (c =? 32); [exact IH|reflexivity]. Qed.
Lemma upper_sign t : read_sign (map ascii_upper t) = (fst (read_sign t), map ascii_upper (snd (read_sign t))).
Proof. destruct t as [|c t]; [reflexivity|]. cbn [map read_sign]. rewrite !upper_eq by lia. destruct (c =? 45); [reflexivity|]. destruct (c =? 43); reflexivity. Qed.
Lemma upper_prefix base t : read_prefix base (map ascii_upper t) = option_map (map ascii_upper) (read_prefix base t).
Proof.
  unfold read_prefix. destruct (base =? 16); [|reflexivity]. destruct t as [|z [|x r]]; [reflexivity|reflexivity|]. cbn [map]. rewrite upper_eq by lia.
  assert (E : ((ascii_upper x =? 120) || (ascii_upper x =? 88)) = ((x =? 120) || (x =? 88))).
  { unfold ascii_upper. destruct ((97 <=? x) && (x <=? 122)) eqn:E; [|reflexivity]. bools.
    destruct (Z.eqb_spec (x - 32) 120), (Z.eqb_spec (x - 32) 88), (Z.eqb_spec x 120), (Z.eqb_spec x 88); try reflexivity; lia. }
  rewrite E. destruct ((z =? 48) && _); reflexivity.
Qed.
Lemma upper_fraction base t : base = 10 \/ base = 16 ->
  read_fraction base (map ascii_upper t) = (map ascii_upper (fst (read_fraction base t)), map ascii_upper (snd (read_fraction base t))).
Proof. intros Hb. destruct t as [|c t]; [reflexivity|]. cbn [map read_fraction]. rewrite upper_eq by lia. destruct (c =? 46); [apply upper_run; exact Hb|reflexivity]. Qed.
Lemma fraction_digits base t : Forall (Dig base) (fst (read_fraction base t)).
Proof. destruct t as [|c t]; [constructor|]. cbn [read_fraction]. destruct (c =? 46); [apply run_digits|constructor]. Qed.
Lemma upper_exponent mark t : 97 <= mark <= 122 ->
  read_exponent mark (map ascii_upper t) = match read_exponent mark t with Some (x, r) => Some (x, map ascii_upper r) | None => None end.
Proof.
  intros Hm. destruct t as [|c t]; [reflexivity|]. cbn [map read_exponent].
  assert (E : ((ascii_upper c =? mark) || (ascii_upper c =? mark - 32)) = ((c =? mark) || (c =? mark - 32))).
  { unfold ascii_upper. destruct ((97 <=? c) && (c <=? 122)) eqn:E; [|reflexivity]. bools.
    destruct (Z.eqb_spec (c - 32) mark), (Z.eqb_spec (c - 32) (mark - 32)), (Z.eqb_spec c mark), (Z.eqb_spec c (mark - 32)); try reflexivity; lia. }
  rewrite E. destruct ((c =? mark) || (c =? mark - 32)); [|reflexivity]. rewrite upper_sign. destruct (read_sign t) as [neg r]. cbn [fst snd].
  rewrite upper_run by (left; reflexivity). pose proof (run_digits 10 r) as D. destruct (digits_run 10 r) as [d r']. cbn [fst snd] in *.
  destruct d as [|d0 d]; [reflexivity|]. cbn [map]. change (ascii_upper d0 :: map ascii_upper d) with (map ascii_upper (d0 :: d)). rewrite (upper_read 10 10) by exact D. reflexivity.
Qed.

Lemma upper_reads base mark t : base = 10 \/ base = 16 -> 97 <= mark <= 122 -> read_float base mark (map ascii_upper t) = read_float base mark t.
Proof.
  intros Hb Hm. rewrite !read_float_body. rewrite upper_blanks, upper_sign. destruct (read_sign (skip_blanks t)) as [neg r]. cbn [fst snd].
  unfold read_body. rewrite upper_prefix. destruct (read_prefix base r) as [r1|]; [|reflexivity]. cbn [option_map].
  rewrite upper_run by exact Hb. pose proof (run_digits base r1) as D1. destruct (digits_run base r1) as [i r2]. cbn [fst snd] in *.
  rewrite upper_fraction by exact Hb. pose proof (fraction_digits base r2) as D2. destruct (read_fraction base r2) as [f r3]. cbn [fst snd] in *.
  rewrite upper_exponent by exact Hm. destruct i as [|c i]; [reflexivity|]. cbn [map].
  destruct (read_exponent mark r3) as [[x r4]|]; [|reflexivity]. rewrite upper_blanks. destruct (skip_blanks r4); [|reflexivity]. cbn [map].
  change ((ascii_upper c :: map ascii_upper i) ++ map ascii_upper f) with (map ascii_upper (c :: i) ++ map ascii_upper f). rewrite <- map_app, zlen_map.
  rewrite (upper_read base base) by (apply Forall_app; split; assumption). reflexivity.
Qed.
