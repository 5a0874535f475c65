(** Proofs for C97: the scanner, and reading the words it finds. *)
From Coq Require Import QArith.
From Verif Require Import Base Digits SeqM SeqSpec ContextM CompilerM GrammarSpec FormatterM MathM DecimalM BigDecM TraitsM ImplM
  FmtSpec DecSpec FloatSpec BigSpec DirSpec LoopSpec ExactSpec ScaleSpec ValueSpec WholeSpec ReadSpec ReadFSpec ReadP ScanSpec ScanP.
Open Scope Z_scope.

(** ** Blanks *)

Lemma skip_spaces n t : skip_blanks (spaces n ++ t) = skip_blanks t.
Proof. unfold spaces, rep. induction (Z.to_nat n) as [|k IH]; [reflexivity|]. exact IH. Qed.
Lemma skip_app u t : skip_blanks (u ++ t) = match skip_blanks u with [] => skip_blanks t | c :: r => (c :: r) ++ t end.
Proof. induction u as [|c u IH]; [reflexivity|]. cbn [app skip_blanks]. destruct (c =? 32); [exact IH|reflexivity]. Qed.
Lemma skip_nonblank c t : c <> 32 -> skip_blanks (c :: t) = c :: t.
Proof. intros N. cbn [skip_blanks]. apply Z.eqb_neq in N. rewrite N. reflexivity. Qed.
Lemma skip_twice t : skip_blanks (skip_blanks t) = skip_blanks t.
Proof. induction t as [|c t IH]; [reflexivity|]. cbn [skip_blanks]. destruct (c =? 32) eqn:E; [exact IH|]. cbn [skip_blanks]. rewrite E. reflexivity. Qed.
Lemma skip_only n : skip_blanks (spaces n) = [].
Proof. rewrite <- (app_nil_r (spaces n)), skip_spaces. reflexivity. Qed.

(** ** The scanner finds the words *)

Section Scanning.
  Variable W : Z -> bool.
  Hypothesis W_blank : W 32 = false.

  Lemma scan_blanks ds t t' : skip_blanks t = skip_blanks t' -> scan W ds t = scan W ds t'.
  Proof. intros E. destruct ds as [|[u|s c] ds]; cbn [scan]; rewrite E; reflexivity. Qed.

  Lemma strip_self u t : strip_text u (u ++ t) = Some t.
  Proof. induction u as [|c u IH]; [reflexivity|]. cbn [app strip_text]. rewrite Z.eqb_refl. exact IH. Qed.

  (** [t] does not go on with a word *)
  Definition stops (t : list Z) : Prop := match t with [] => True | c :: _ => W c = false end.
  Lemma word_run_stop w t : forallb W w = true -> stops t -> word_run W (w ++ t) = (w, t).
  Proof.
    intros H S. induction w as [|c w IH]; cbn [app].
    - destruct t as [|c t]; [reflexivity|]. cbn [word_run]. rewrite S. reflexivity.
    - cbn [forallb] in H. apply andb_prop in H as [H1 H2]. cbn [word_run]. rewrite H1, (IH H2). reflexivity.
  Qed.
  Lemma stops_spaces n t : stops t -> stops (spaces n ++ t).
  Proof. intros S. unfold spaces, rep. destruct (Z.to_nat n); [exact S|]. exact W_blank. Qed.

  Lemma worded_scan J ds args ws : worded W J ds args ws -> separated W ds ->
    exists t, says J ds args t None /\ scan W ds t = Some ws /\ (match ds with Fixed (c :: _) :: _ => hd_error t = Some c | [] => t = [] | _ => True end).
  Proof.
    intros H. induction H as [args|u ds args ws H IH|s c args t rest w ds ws P F H IH]; intros S.
    - exists []. split; [constructor|]. split; reflexivity.
    - destruct (IH S) as (t & Y & C & _). exists (u ++ t). split; [apply (sy_piece J _ _ args u args t None); [constructor|exact Y]|]. split.
      + cbn [scan]. rewrite skip_app. destruct (skip_blanks u) as [|d r] eqn:E.
        * cbn [strip_text]. rewrite (scan_blanks ds _ t); [exact C|apply skip_twice].
        * rewrite strip_self. exact C.
      + destruct u; [exact I|reflexivity].
    - cbn [separated] in S. destruct S as [S1 S2]. destruct (IH S2) as (t' & Y & C & E). exists (t ++ t').
      split; [apply (sy_piece J _ _ args t rest t' None); assumption|]. split; [|exact I]. destruct F as (N & F & a & b & ->).
      assert (St : stops t').
      { destruct ds as [|[[|d u]|s' c'] ds]; try contradiction; [subst t'; exact I|]. destruct t' as [|d' t']; [discriminate|]. cbn in E |- *. congruence. }
      cbn [scan]. rewrite <- !app_assoc, skip_spaces. destruct w as [|d w]; [tauto|]. cbn [app].
      rewrite skip_nonblank. 2:{ intros ->. cbn [forallb] in F. rewrite W_blank in F. discriminate. }
      change (d :: w ++ spaces b ++ t') with ((d :: w) ++ spaces b ++ t'). rewrite (word_run_stop _ _ F (stops_spaces b t' St)).
      rewrite (scan_blanks ds _ t'); [|apply skip_spaces]. rewrite C. reflexivity.
  Qed.

  Lemma worded_length J ds args ws : worded W J ds args ws -> length ws = length (convs ds).
  Proof. intros H. induction H; cbn [convs length]; congruence. Qed.

  (** ** Reading a word is reading the field *)

  Lemma drop_word w : forallb W w = true -> drop_spaces w = w.
  Proof.
    intros H. induction w as [|c w IH]; [reflexivity|]. cbn [forallb] in H. apply andb_prop in H as [H1 H2]. cbn [drop_spaces filter].
    destruct (Z.eqb_spec c 32) as [-> |]; [congruence|]. cbn [negb]. f_equal. exact (IH H2).
  Qed.
  Lemma drop_field t w : field W t w -> drop_spaces t = drop_spaces w.
  Proof. intros (_ & _ & a & b & ->). rewrite !drop_app, !drop_spaces_spaces, app_nil_r. reflexivity. Qed.
  Lemma read_integer_field s t w : field W t w -> read_integer s t = read_integer s w.
  Proof. intros H. apply drop_field in H. unfold read_integer, read_int, read_uint. rewrite H. reflexivity. Qed.
End Scanning.

Lemma run_spaces base t n : base = 10 \/ base = 16 -> digits_run base (t ++ spaces n) = let (d, r) := digits_run base t in (d, r ++ spaces n).
Proof.
  intros Hb. induction t as [|c t IH].
  - cbn [app digits_run]. unfold spaces, rep. destruct (Z.to_nat n); [reflexivity|]. cbn [repeat digits_run app]. destruct Hb as [-> | ->]; reflexivity.
  - cbn [app digits_run]. destruct (is_digit base c); [|reflexivity]. rewrite IH. destruct (digits_run base t). reflexivity.
Qed.
Lemma sign_spaces t n : read_sign (t ++ spaces n) = let (b, r) := read_sign t in (b, r ++ spaces n).
Proof.
  destruct t as [|c t]; cbn [app read_sign].
  - unfold spaces, rep. destruct (Z.to_nat n); reflexivity.
  - destruct (c =? 45); [reflexivity|]. destruct (c =? 43); reflexivity.
Qed.
Lemma spaces_case n : spaces n = [] \/ exists k, spaces n = 32 :: spaces k.
Proof.
  destruct (Z_le_gt_dec n 0) as [L|L]; [left; apply rep_nonpos, L|]. right. exists (n - 1).
  unfold spaces. replace n with (n - 1 + 1) at 1 by lia. rewrite rep_succ by lia. reflexivity.
Qed.
Lemma prefix_spaces base t n : base = 10 \/ base = 16 ->
  read_prefix base (t ++ spaces n) = match read_prefix base t with Some r => Some (r ++ spaces n) | None => None end.
Proof.
  intros [-> | ->]; [reflexivity|]. unfold read_prefix. cbn [Z.eqb Pos.eqb]. destruct t as [|z [|x r]]; cbn [app].
  - destruct (spaces_case n) as [-> |[k ->]]; [reflexivity|]. destruct (spaces_case k) as [-> |[j ->]]; reflexivity.
  - destruct (spaces_case n) as [-> |[k ->]]; [reflexivity|]. cbn. rewrite Bool.andb_false_r. reflexivity.
  - destruct (_ && _); reflexivity.
Qed.
Lemma fraction_spaces base t n : base = 10 \/ base = 16 ->
  read_fraction base (t ++ spaces n) = let (f, r) := read_fraction base t in (f, r ++ spaces n).
Proof.
  intros Hb. destruct t as [|c t]; cbn [app].
  - destruct (spaces_case n) as [-> |[k ->]]; reflexivity.
  - cbn [read_fraction]. destruct (c =? 46); [apply run_spaces, Hb|reflexivity].
Qed.
Lemma exponent_spaces mark t n : 97 <= mark <= 122 ->
  read_exponent mark (t ++ spaces n) = match read_exponent mark t with Some (x, r) => Some (x, r ++ spaces n) | None => None end.
Proof.
  intros Hm. destruct t as [|c t]; cbn [app].
  - destruct (spaces_case n) as [-> |[k ->]]; [reflexivity|]. cbn [read_exponent].
    destruct (Z.eqb_spec 32 mark); [lia|]. destruct (Z.eqb_spec 32 (mark - 32)); [lia|]. reflexivity.
  - cbn [read_exponent]. destruct (_ || _); [|reflexivity]. rewrite sign_spaces. destruct (read_sign t) as [neg r].
    rewrite run_spaces by (left; reflexivity). destruct (digits_run 10 r) as [[|d ds] r']; reflexivity.
Qed.
Lemma read_float_trailing base mark t n : base = 10 \/ base = 16 -> 97 <= mark <= 122 -> read_float base mark (t ++ spaces n) = read_float base mark t.
Proof.
  intros Hb Hm. unfold read_float.
  assert (E : read_sign (skip_blanks (t ++ spaces n)) = (let (b, r) := read_sign (skip_blanks t) in (b, r ++ spaces n)) \/
              skip_blanks t = [] /\ skip_blanks (t ++ spaces n) = []).
  { rewrite skip_app. destruct (skip_blanks t) as [|c r]; [right; split; [reflexivity|apply skip_only]|left; apply (sign_spaces (c :: r))]. }
  destruct E as [E|[E E']]; [|rewrite E, E'; reflexivity]. rewrite E. destruct (read_sign (skip_blanks t)) as [neg t1].
  rewrite prefix_spaces by exact Hb. destruct (read_prefix base t1) as [t2|]; [|reflexivity].
  rewrite run_spaces by exact Hb. destruct (digits_run base t2) as [i t3]. rewrite fraction_spaces by exact Hb. destruct (read_fraction base t3) as [f t4].
  destruct i as [|d i]; [reflexivity|]. rewrite exponent_spaces by exact Hm. destruct (read_exponent mark t4) as [[x t5]|]; [|reflexivity].
  rewrite skip_app. destruct (skip_blanks t5); [rewrite skip_only; reflexivity|reflexivity].
Qed.
Lemma read_float_leading base mark t n : read_float base mark (spaces n ++ t) = read_float base mark t.
Proof. unfold read_float. rewrite skip_spaces. reflexivity. Qed.
Lemma read_float_field W base mark t w : base = 10 \/ base = 16 -> 97 <= mark <= 122 -> field W t w -> read_float base mark t = read_float base mark w.
Proof. intros Hb Hm (_ & _ & a & b & ->). rewrite read_float_leading. apply read_float_trailing; assumption. Qed.
