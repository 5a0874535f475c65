(** Proofs for C110. *)
From Verif Require Import Base Digits UtilsM SeqM SeqSpec SeqP ContextM CompilerM GrammarSpec CompilerP2 IntFormM FormatterM TraitsM ImplM ImplP
  LoopSpec LoopP OwnSpec.

Lemma setWidth_prec c w c' : setWidth c w = Ok c' -> c_prec c' = c_prec c.
Proof. unfold setWidth. destruct (checkValue _ _); cbn [bind]; [|discriminate]. intros E. injection E as <-. reflexivity. Qed.

Definition one (b : bool) : nat := if b then 1%nat else 0%nat.
(** a piece looks at its own arguments only *)
Lemma resolve_local c args n : n = Nat.add (one (c_width c =? PRECEDING)) (one (c_prec c =? PRECEDING)) ->
  resolveCtx c args = match resolveCtx c (firstn n args) with Ok (c', _) => Ok (c', skipn n args) | Err e => Err e end.
Proof.
  intros ->. unfold resolveCtx, isPrecedingWidth. destruct (c_width c =? PRECEDING) eqn:W.
  - destruct args as [|x args]; [destruct (c_prec c =? PRECEDING); reflexivity|]. cbn [one Nat.add firstn skipn nextInt].
    destruct (t_asInt x) as [w|e]; [|reflexivity]. cbn [bind].
    assert (K : forall r, (forall c', r = Ok c' -> c_prec c' = c_prec c) ->
      (let* (c0, it) := (let* c' := r in Ok (c', args)) in if isPrecedingPrecision c0 then let* (p, it0) := nextInt it in let* c1 := setPrecision c0 (if 0 <=? p then p else UNSET) in Ok (c1, it0) else Ok (c0, it)) =
      match (let* (c0, it) := (let* c' := r in Ok (c', firstn (one (c_prec c =? PRECEDING)) args)) in
             if isPrecedingPrecision c0 then let* (p, it0) := nextInt it in let* c1 := setPrecision c0 (if 0 <=? p then p else UNSET) in Ok (c1, it0) else Ok (c0, it))
      with Ok (c', _) => Ok (c', skipn (one (c_prec c =? PRECEDING)) args) | Err e => Err e end).
    { intros [c'|e] H; cbn [bind]; [|reflexivity]. unfold isPrecedingPrecision. rewrite (H c' eq_refl). destruct (c_prec c =? PRECEDING); [|reflexivity].
      destruct args as [|y args]; [reflexivity|]. cbn [one firstn skipn nextInt]. destruct (t_asInt y) as [p|e]; [|reflexivity]. cbn [bind].
      destruct (setPrecision c' _); reflexivity. }
    apply K. intros c' E. destruct (0 <=? w); apply setWidth_prec in E; exact E.
  - cbn [bind one Nat.add]. unfold isPrecedingPrecision. destruct (c_prec c =? PRECEDING); [|reflexivity].
    destruct args as [|y args]; [reflexivity|]. cbn [one firstn skipn nextInt]. destruct (t_asInt y) as [p|e]; [|reflexivity]. cbn [bind].
    destruct (setPrecision c _); reflexivity.
Qed.

Lemma appendOne_local J d args : appendOne J d args = match appendOne J d (own_args d args) with Ok (s, _) => Ok (s, other_args d args) | Err e => Err e end.
Proof.
  unfold own_args, other_args. destruct d as [t|s c]; [reflexivity|]. cbn [appendOne arity].
  set (n := Nat.add (one (c_width c =? PRECEDING)) (one (c_prec c =? PRECEDING))).
  replace (Z.to_nat _) with (S n) by (unfold n; destruct (c_width c =? PRECEDING), (c_prec c =? PRECEDING); reflexivity).
  rewrite (resolve_local c args n eq_refl), (resolve_local c (firstn (S n) args) n eq_refl), firstn_firstn.
  replace (Nat.min n (S n)) with n by lia. destruct (resolveCtx c (firstn n args)) as [[c' it]|e]; [|reflexivity]. cbn [bind].
  assert (E : match skipn n args with [] => skipn n (firstn (S n) args) = [] | x :: rest => skipn n (firstn (S n) args) = [x] /\ rest = skipn (S n) args end).
  { rewrite skipn_firstn_comm. replace (S n - n)%nat with 1%nat by lia. destruct (skipn n args) as [|x rest] eqn:E; [reflexivity|]. split; [reflexivity|].
    replace (S n) with (1 + n)%nat by lia. rewrite <- skipn_skipn', E. reflexivity. }
  destruct (skipn n args) as [|x rest].
  - rewrite E. reflexivity.
  - destruct E as [-> ->]. destruct (formatterFor J s c' x); reflexivity.
Qed.

Lemma run_out J emit ds : emits emit -> Forall sane ds -> forall args, Forall (honest J) args -> forall sb,
  run J emit ds args sb = (sb ++ fst (by_parts J ds args), snd (by_parts J ds args)).
Proof.
  intros He. induction 1 as [|d r Hd Hr IH]; intros args Ha sb; cbn [run by_parts fst snd].
  - rewrite app_nil_r. reflexivity.
  - rewrite (appendOne_local J d args). unfold ImplM.format. cbn [run].
    assert (Ho : Forall (honest J) (own_args d args)).
    { apply Forall_forall. intros x Hx. rewrite Forall_forall in Ha. apply Ha. rewrite <- (firstn_skipn (Z.to_nat (arity d)) args). apply in_or_app. left. exact Hx. }
    assert (Hi : Forall (honest J) (other_args d args)).
    { apply Forall_forall. intros x Hx. rewrite Forall_forall in Ha. apply Ha. rewrite <- (firstn_skipn (Z.to_nat (arity d)) args). apply in_or_app. right. exact Hx. }
    destruct (appendOne J d (own_args d args)) as [[s it]|e] eqn:E.
    + destruct (appendOne_honest J d _ s it Hd Ho E) as [[t T] _]. rewrite (T emit He), (T emitSB emits_sb). cbn [app].
      rewrite (IH _ Hi). destruct (by_parts J r (other_args d args)) as [u o]. cbn [fst snd]. rewrite app_assoc. reflexivity.
    + cbn [fst snd]. rewrite app_nil_r. reflexivity.
Qed.

Lemma arity_nonneg d : 0 <= arity d.
Proof. destruct d as [t|s c]; cbn [arity]; [lia|]. destruct (_ =? _), (_ =? _); lia. Qed.
Lemma arities_nonneg ds : 0 <= arities ds.
Proof. induction ds as [|d r IH]; cbn [arities]; [lia|]. pose proof (arity_nonneg d). lia. Qed.

(** surplus arguments, for any arguments *)
Lemma run_surplus J emit ds : forall args sb, run J emit ds args sb = run J emit ds (firstn (Z.to_nat (arities ds)) args) sb.
Proof.
  induction ds as [|d r IH]; intros args sb; [reflexivity|]. cbn [run arities]. pose proof (arity_nonneg d). pose proof (arities_nonneg r).
  rewrite (appendOne_local J d args), (appendOne_local J d (firstn _ args)). unfold own_args, other_args.
  rewrite firstn_firstn, skipn_firstn_comm. replace (Nat.min _ _) with (Z.to_nat (arity d)) by lia.
  replace (Z.to_nat (arity d + arities r) - Z.to_nat (arity d))%nat with (Z.to_nat (arities r)) by lia.
  destruct (appendOne J d _) as [[s it]|e]; [|reflexivity]. destruct (emit s sb) as [sb' [e|]]; [reflexivity|]. apply IH.
Qed.

(** ** One argument replaced *)

Lemma firstn_ext {A} n : forall (l l' : list A), (forall j, (j < n)%nat -> nth_error l j = nth_error l' j) -> firstn n l = firstn n l'.
Proof.
  induction n as [|n IH]; intros l l' H; [reflexivity|]. pose proof (H 0%nat ltac:(lia)) as H0. destruct l as [|x l], l' as [|y l']; try discriminate H0; [reflexivity|].
  injection H0 as ->. cbn [firstn]. f_equal. apply IH. intros j Hj. exact (H (S j) ltac:(lia)).
Qed.
Lemma nth_error_skipn {A} n : forall (l : list A) j, nth_error (skipn n l) j = nth_error l (n + j).
Proof. induction n as [|n IH]; intros l j; [reflexivity|]. destruct l as [|x l]; [destruct j; reflexivity|]. cbn [skipn Nat.add nth_error]. apply IH. Qed.
Lemma list_ext {A} : forall (l l' : list A), (forall j, nth_error l j = nth_error l' j) -> l = l'.
Proof.
  induction l as [|x l IH]; intros [|y l'] H; [reflexivity|discriminate (H 0%nat)|discriminate (H 0%nat)|].
  pose proof (H 0%nat) as H0. injection H0 as ->. f_equal. apply IH. intros j. exact (H (S j)).
Qed.

Lemma parts_one J ds : forall args args' i, (forall j, j <> i -> nth_error args j = nth_error args' j) ->
  by_parts J ds args = by_parts J ds args' \/
  exists ds1 d ds2 a b o, takes_argument ds i ds1 d ds2 /\
    by_parts J ds args = placed a (ImplM.format J [d] (own_args d (skipn (Z.to_nat (arities ds1)) args))) b o /\
    by_parts J ds args' = placed a (ImplM.format J [d] (own_args d (skipn (Z.to_nat (arities ds1)) args'))) b o.
Proof.
  induction ds as [|d r IH]; intros args args' i H; [left; reflexivity|]. cbn [by_parts]. pose proof (arity_nonneg d) as N.
  destruct (Nat.lt_ge_cases i (Z.to_nat (arity d))) as [L|L].
  - right. exists [], d, r, [], (fst (by_parts J r (other_args d args))), (snd (by_parts J r (other_args d args))).
    split; [split; [reflexivity|cbn [arities]; lia]|]. cbn [arities]. change (Z.to_nat 0) with 0%nat. cbn [skipn].
    assert (E : other_args d args' = other_args d args).
    { unfold other_args. apply list_ext. intros j. rewrite !nth_error_skipn. symmetry. apply H. lia. }
    rewrite E. destruct (by_parts J r (other_args d args)) as [u o]. cbn [fst snd].
    split; [destruct (ImplM.format J [d] (own_args d args))|destruct (ImplM.format J [d] (own_args d args'))]; reflexivity.
  - assert (E : own_args d args' = own_args d args) by (unfold own_args; apply firstn_ext; intros j Hj; symmetry; apply H; lia). rewrite E.
    destruct (ImplM.format J [d] (own_args d args)) as [t|e]; [|left; reflexivity].
    destruct (IH (other_args d args) (other_args d args') (i - Z.to_nat (arity d))%nat) as [X|(ds1 & d' & ds2 & a & b & o & [-> R] & E1 & E2)].
    + intros j Hj. unfold other_args. rewrite !nth_error_skipn. apply H. lia.
    + left. rewrite X. reflexivity.
    + right. exists (d :: ds1), d', ds2, (t ++ a), b, o. pose proof (arities_nonneg ds1) as N1. split; [split; [reflexivity|cbn [arities]; lia]|].
      rewrite E1, E2. cbn [arities]. unfold other_args. rewrite !skipn_skipn'. replace (Z.to_nat (arities ds1) + Z.to_nat (arity d))%nat with (Z.to_nat (arity d + arities ds1)) by lia.
      split; [destruct (ImplM.format J [d'] (own_args d' (skipn (Z.to_nat (arity d + arities ds1)) args)))|
              destruct (ImplM.format J [d'] (own_args d' (skipn (Z.to_nat (arity d + arities ds1)) args')))]; cbn [placed]; rewrite <- ?app_assoc; reflexivity.
Qed.

(** which piece that is, is a matter of the format *)
Lemma owner_exists ds i : Z.of_nat i < arities ds -> exists ds1 d ds2, takes_argument ds i ds1 d ds2.
Proof.
  revert i. induction ds as [|d r IH]; intros i H; cbn [arities] in H; [lia|]. destruct (Z_lt_ge_dec (Z.of_nat i) (arity d)) as [L|L].
  - exists [], d, r. split; [reflexivity|cbn [arities]; lia].
  - pose proof (arity_nonneg d). destruct (IH (i - Z.to_nat (arity d))%nat ltac:(lia)) as (ds1 & d' & ds2 & -> & R). exists (d :: ds1), d', ds2.
    split; [reflexivity|]. cbn [arities]. lia.
Qed.
Lemma owner_unique i : forall ds ds1 d ds2 ds1' d' ds2', takes_argument ds i ds1 d ds2 -> takes_argument ds i ds1' d' ds2' -> ds1 = ds1' /\ d = d' /\ ds2 = ds2'.
Proof.
  intros ds ds1. revert i ds. induction ds1 as [|x ds1 IH]; intros i ds d ds2 ds1' d' ds2' [E R] [E' R'].
  - destruct ds1' as [|y ds1']; rewrite E in E'; cbn [app] in E'; [injection E' as -> ->; auto|]. injection E' as -> ->. exfalso. cbn [arities] in *. pose proof (arities_nonneg ds1'). lia.
  - destruct ds1' as [|y ds1']; rewrite E in E'; cbn [app] in E'; injection E' as -> E'.
    + exfalso. cbn [arities] in *. pose proof (arities_nonneg ds1). lia.
    + cbn [arities] in *. pose proof (arity_nonneg y). pose proof (arities_nonneg ds1). pose proof (arities_nonneg ds1').
      destruct (IH (i - Z.to_nat (arity y))%nat (ds1 ++ d :: ds2) d ds2 ds1' d' ds2') as (-> & -> & ->); [split; [reflexivity|lia]|split; [exact E'|lia]|auto].
Qed.

(** after an exception the arguments of the later pieces do not matter *)
Lemma parts_stop J ds : forall args e, snd (by_parts J ds args) = Some e -> exists ds1 d ds2, ds = ds1 ++ d :: ds2 /\
  forall args', firstn (Z.to_nat (arities (ds1 ++ [d]))) args' = firstn (Z.to_nat (arities (ds1 ++ [d]))) args -> by_parts J ds args' = by_parts J ds args.
Proof.
  induction ds as [|d r IH]; intros args e; cbn [by_parts snd]; [discriminate|]. pose proof (arity_nonneg d) as N.
  destruct (ImplM.format J [d] (own_args d args)) as [t|e'] eqn:E.
  - destruct (by_parts J r (other_args d args)) as [u o] eqn:B. cbn [snd]. intros ->. destruct (IH (other_args d args) e) as (ds1 & d' & ds2 & -> & K); [rewrite B; reflexivity|].
    exists (d :: ds1), d', ds2. split; [reflexivity|]. cbn [app arities]. intros args' H. pose proof (arities_nonneg (ds1 ++ [d'])) as N1.
    replace (Z.to_nat (arity d + arities (ds1 ++ [d']))) with (Z.to_nat (arity d) + Z.to_nat (arities (ds1 ++ [d'])))%nat in H by lia.
    assert (H1 : own_args d args' = own_args d args).
    { unfold own_args. pose proof (f_equal (firstn (Z.to_nat (arity d))) H) as H1. rewrite !firstn_firstn in H1. replace (Nat.min _ _) with (Z.to_nat (arity d)) in H1 by lia. exact H1. }
    assert (H2 : by_parts J (ds1 ++ d' :: ds2) (other_args d args') = by_parts J (ds1 ++ d' :: ds2) (other_args d args)).
    { apply K. unfold other_args. pose proof (f_equal (skipn (Z.to_nat (arity d))) H) as H2. rewrite !skipn_firstn_comm in H2.
      replace (Z.to_nat (arity d) + Z.to_nat (arities (ds1 ++ [d'])) - Z.to_nat (arity d))%nat with (Z.to_nat (arities (ds1 ++ [d']))) in H2 by lia. exact H2. }
    rewrite H1, E, H2, B. reflexivity.
  - intros _. exists [], d, r. split; [reflexivity|]. cbn [app arities]. intros args' H.
    replace (arity d + 0) with (arity d) in H by lia. fold (own_args d args') (own_args d args) in H. rewrite H, E. reflexivity.
Qed.
