(** C101: compiling a format takes work linear in its length, whether it succeeds or not. *)
From Verif Require Import Base Digits UtilsM ContextM CompilerM CostM CostP.

(** For every format: the counting compiler gives the compiler's answer, with at most four steps for a character; and at least one when it succeeds. *)
Theorem C101_compile_is_linear :
  forall (dtf_valid : list Z -> bool) (source : list Z),
    snd (k_compile dtf_valid source) = compile dtf_valid source
    /\ fst (k_compile dtf_valid source) <= 4 * zlen source
    /\ (forall l, compile dtf_valid source = Ok l -> zlen source <= fst (k_compile dtf_valid source)).
Proof.
  intros dtf source. pose proof (snd_compile dtf source) as E. pose proof (Zle_0_nat (List.length source)) as Hn. fold (zlen source) in Hn.
  pose proof (proj1 (loop_cost dtf source (S (List.length source))) 0 [] ltac:(lia)) as W. fold (k_compile dtf source) in W.
  destruct (k_compile dtf source) as [m r]; cbn [fst snd] in *. subst r. split; [reflexivity|].
  destruct (compile dtf source) as [l|e]; cbn [within] in W; split; try lia; intros; try lia. discriminate.
Qed.
Print Assumptions C101_compile_is_linear.

(** *** Four is the best factor: the formats %t%t...%t need a step less than four times their length. *)

Fixpoint times (k : nat) : list Z :=
  match k with O => [] | S k => ch "%" :: ch "t" :: times k end.

Lemma times_at k i : (i < k)%nat -> znth (times k) (2 * Z.of_nat i) = Some (ch "%") /\ znth (times k) (2 * Z.of_nat i + 1) = Some (ch "t").
Proof.
  revert i. induction k as [|k IH]; intros i H; [lia|]. unfold znth in *.
  destruct (Z.ltb_spec (2 * Z.of_nat i) 0); [lia|]. destruct (Z.ltb_spec (2 * Z.of_nat i + 1) 0); [lia|].
  destruct i as [|i]; [split; reflexivity|]. specialize (IH i ltac:(lia)).
  destruct (Z.ltb_spec (2 * Z.of_nat i) 0); [lia|]. destruct (Z.ltb_spec (2 * Z.of_nat i + 1) 0); [lia|].
  replace (Z.to_nat (2 * Z.of_nat (S i))) with (S (S (Z.to_nat (2 * Z.of_nat i)))) by lia.
  replace (Z.to_nat (2 * Z.of_nat (S i) + 1)) with (S (S (Z.to_nat (2 * Z.of_nat i + 1)))) by lia. exact IH.
Qed.

Lemma times_len k : zlen (times k) = 2 * Z.of_nat k.
Proof. unfold zlen. induction k as [|k IH]; [reflexivity|]. cbn [times List.length]. lia. Qed.

Lemma slice_none {A} (l : list A) i : slice l i i = [].
Proof. unfold slice. rewrite Z.sub_diag. reflexivity. Qed.

Section Times.
  Variable dtf_valid : list Z -> bool.
  Variable k : nat.
  Notation src := (times k).

  Lemma times_pct i : (i < k)%nat -> sourceAt src (2 * Z.of_nat i) = Ok (ch "%") /\ endOfSource src (2 * Z.of_nat i) = false.
  Proof.
    intros H. unfold sourceAt, endOfSource. rewrite (proj1 (times_at k i H)), times_len. split; [reflexivity|]. apply Z.leb_gt. lia.
  Qed.

  Lemma times_t i : (i < k)%nat -> sourceAt src (2 * Z.of_nat i + 1) = Ok (ch "t") /\ endOfSource src (2 * Z.of_nat i + 1) = false.
  Proof.
    intros H. unfold sourceAt, endOfSource. rewrite (proj2 (times_at k i H)), times_len. split; [reflexivity|]. apply Z.leb_gt. lia.
  Qed.

  Lemma times_directive i :
    (i < k)%nat ->
    exists a, k_directive dtf_valid src (2 * Z.of_nat i + 1) = (if Nat.eqb (S i) k then 5 else 6, Ok (a, 2 * Z.of_nat (S i))).
  Proof.
    intros H. destruct (times_t i H) as [Ht He]. unfold k_directive, fuel0.
    cbn [k_flags]. rewrite He. unfold k_at at 1. rewrite Ht. cbn [steps cbind]. change (flag_of_char (ch "t")) with (@None flag). cbn [free cbind].
    unfold k_width, k_check, checkSource, fuel0. rewrite He. cbn [free cbind]. unfold k_at at 1. rewrite Ht. cbn [steps cbind]. change (ch "t" =? ch "*") with false. cbn iota.
    cbn [k_digits]. rewrite He. unfold k_at at 1. rewrite Ht. cbn [steps cbind]. change (isNotDigit (ch "t")) with true. cbn [free cbind].
    unfold k_number, k_substring. rewrite slice_none. cbn [steps cbind free]. change (zlen (@nil Z)) with 0.
    unfold k_precision. rewrite He. unfold k_at at 1. rewrite Ht. cbn [steps cbind]. change (ch "t" =? ch ".") with false. cbn [negb free cbind].
    unfold k_spec, k_check, checkSource. rewrite He. cbn [free cbind]. unfold k_at at 1. rewrite Ht. cbn [steps cbind]. 
    change (spec_of_char (ch "t")) with (Some St). cbn [free cbind isDateTimeSpec].
    replace (2 * Z.of_nat i + 1 + 1) with (2 * Z.of_nat (S i)) by lia. unfold k_date.
    destruct (Nat.eqb_spec (S i) k) as [E|E].
    - assert (endOfSource src (2 * Z.of_nat (S i)) = true) as -> by (unfold endOfSource; rewrite times_len; apply Z.leb_le; lia).
      cbn [free cbind]. eexists. reflexivity.
    - destruct (times_pct (S i)) as [Hp ->]; [lia|]. unfold k_at at 1. rewrite Hp. cbn [steps cbind]. change (ch "%" =? ch "{") with false. cbn [negb free cbind].
      eexists. reflexivity.
  Qed.

  Lemma times_loop j i fuel acc :
    (i + j = k)%nat -> (2 * j < fuel)%nat -> (0 < j)%nat ->
    exists l, k_parseNext dtf_valid src fuel (2 * Z.of_nat i) acc = (8 * Z.of_nat j - 1, Ok l).
  Proof.
    revert i fuel acc. induction j as [|j IH]; intros i fuel acc Hk Hf Hj; [lia|].
    destruct fuel as [|fuel]; [lia|]. destruct fuel as [|fuel]; [lia|]. rewrite k_parseNext_S.
    destruct (times_pct i) as [Hp ->]; [lia|]. unfold k_at at 1. rewrite Hp. cbn [steps cbind]. change (ch "%" =? ch "%") with true. cbn iota.
    rewrite k_forPattern_S. destruct (times_t i) as [Ht He]; [lia|]. unfold k_check, checkSource. rewrite He. cbn [free cbind].
    unfold k_at at 1. rewrite Ht. cbn [steps cbind]. change (ch "t" =? ch "%") with false. cbn iota.
    destruct (times_directive i) as [a ->]; [lia|]. cbn [cbind]. destruct (Nat.eqb_spec (S i) k) as [E|E].
    - assert (j = 0)%nat as -> by lia. destruct fuel as [|fuel]; [lia|]. rewrite k_parseNext_S.
      assert (endOfSource src (2 * Z.of_nat (S i)) = true) as -> by (unfold endOfSource; rewrite times_len; apply Z.leb_le; lia).
      eexists. reflexivity.
    - destruct (IH (S i) fuel (acc ++ [a])) as [l ->]; [lia|lia|lia|]. eexists. f_equal. lia.
  Qed.
End Times.

Theorem C101_factor_is_sharp :
  forall (dtf_valid : list Z -> bool) (k : nat),
    (0 < k)%nat ->
    exists source, zlen source = 2 * Z.of_nat k /\ (exists l, compile dtf_valid source = Ok l) /\ fst (k_compile dtf_valid source) = 4 * zlen source - 1.
Proof.
  intros dtf k Hk. exists (times k). rewrite times_len. split; [reflexivity|].
  destruct (times_loop dtf k k 0 (S (List.length (times k))) []) as [l E]; [lia| |lia|].
  { pose proof (times_len k) as L. unfold zlen in L. lia. }
  change (2 * Z.of_nat 0) with 0 in E. fold (k_compile dtf (times k)) in E. split.
  - exists l. rewrite <- snd_compile, E. reflexivity.
  - rewrite E. cbn [fst]. lia.
Qed.
Print Assumptions C101_factor_is_sharp.

(** *** Literal text: its first character is looked at twice, the others once, and all are copied. *)

Lemma findPct_free t r : ~ In (ch "%") t -> findPct (t ++ ch "%" :: r) = Some (zlen t) /\ findPct t = None.
Proof.
  induction t as [|c t IH]; intros H; [split; reflexivity|]. cbn [app findPct]. destruct (Z.eqb_spec c (ch "%")) as [->|N]; [exfalso; apply H; left; reflexivity|].
  destruct IH as [-> ->]; [intros Hin; apply H; right; exact Hin|]. split; [|reflexivity]. cbn [option_map]. f_equal. unfold zlen. cbn [List.length]. lia.
Qed.

Theorem C101_literal_text :
  forall (dtf_valid : list Z -> bool) c t,
    ~ In (ch "%") (c :: t) ->
    k_compile dtf_valid (c :: t) = (2 * zlen (c :: t) + 1, Ok [Fixed (c :: t)])
    /\ k_compile dtf_valid ((c :: t) ++ txt "%%") = (2 * zlen (c :: t) + 3, Ok [Fixed (c :: t); Fixed (txt "%")]).
Proof.
  intros dtf c t H. assert ((c =? ch "%") = false) as Hc by (apply Z.eqb_neq; intros ->; apply H; left; reflexivity).
  pose proof (findPct_free (c :: t) (txt "%") H) as [F1 F2]. change (ch "%" :: txt "%") with (txt "%%") in F1.
  assert (0 < zlen (c :: t)) as Hz by (unfold zlen; cbn [List.length]; lia). split.
  - unfold k_compile. rewrite k_parseNext_S. unfold k_at, k_indexOf, k_substring, endOfSource. destruct (Z.leb_spec (zlen (c :: t)) 0); [lia|].
    change (sourceAt (c :: t) 0) with (Ok c). cbn [steps cbind]. rewrite Hc. unfold indexOfPercent. change (skipn (Z.to_nat 0) (c :: t)) with (c :: t). rewrite F2.
    cbn [option_map cbind steps free]. rewrite slice_full. cbn [app]. f_equal. lia.
  - set (src := (c :: t) ++ txt "%%") in *. assert (zlen src = zlen (c :: t) + 2) as L by (unfold src, zlen; rewrite app_length; cbn [List.length txt]; lia).
    unfold k_compile. replace (List.length src) with (S (S (List.length (c :: t)))) by (unfold zlen in L; cbn [List.length] in *; lia).
    rewrite k_parseNext_S. unfold k_at at 1. unfold k_indexOf, endOfSource. destruct (Z.leb_spec (zlen src) 0); [lia|].
    change (sourceAt src 0) with (Ok c). cbn [steps cbind]. rewrite Hc. unfold indexOfPercent. change (skipn (Z.to_nat 0) src) with src. rewrite F1.
    cbn [option_map cbind steps free]. rewrite Z.add_0_l.
    unfold k_substring at 1. cbn [steps cbind]. rewrite k_forPattern_S. unfold k_check, checkSource, endOfSource. destruct (Z.leb_spec (zlen src) (zlen (c :: t) + 1)); [lia|].
    cbn [free cbind]. unfold k_at at 1. unfold sourceAt.
    assert (znth src (zlen (c :: t) + 1) = Some (ch "%")) as -> .
    { unfold src, znth. destruct (Z.ltb_spec (zlen (c :: t) + 1) 0); [lia|]. rewrite nth_error_app2 by (unfold zlen; lia).
      replace (Z.to_nat (zlen (c :: t) + 1) - List.length (c :: t))%nat with 1%nat by (unfold zlen; lia). reflexivity. }
    cbn [steps cbind]. change (ch "%" =? ch "%") with true. cbn iota. cbn [List.length]. rewrite k_parseNext_S. unfold endOfSource.
    destruct (Z.leb_spec (zlen src) (zlen (c :: t) + 1 + 1)); [|lia]. cbn [free cbind].
    assert (slice src 0 (zlen (c :: t)) = c :: t) as ->.
    { unfold slice. rewrite Z.sub_0_r. change (skipn (Z.to_nat 0) src) with src. unfold src, zlen. rewrite Nat2Z.id. rewrite firstn_app, firstn_all, Nat.sub_diag. cbn [firstn]. apply app_nil_r. }
    f_equal. lia.
Qed.
Print Assumptions C101_literal_text.

Definition any_pattern (_ : list Z) : bool := true.

(** %d costs seven steps: '%'; then 'd' as possible second '%', flag, '*', digit, '.' and specifier. *)
Example C101_example :
  fst (k_compile any_pattern (txt "%d")) = 7
  /\ k_compile any_pattern (txt "%--d") = (4, Err (Syntax DuplicateFlag 2))
  /\ fst (k_compile any_pattern (txt "%99999999999d")) = 38
  /\ fst (k_compile any_pattern (txt "%t%t%t%t")) = 31
  /\ fst (k_compile any_pattern (txt "no directive at all")) = 39.
Proof. vm_compute. repeat split; reflexivity. Qed.
