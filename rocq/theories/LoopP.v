(** Proofs about the format loop used in PropsLoop.v. *)
From Verif Require Import Base Digits UtilsM SeqM SeqSpec SeqP ContextM CompilerM GrammarSpec CompilerP CompilerP2 PatternP
  IntFormM FormatterM TraitsM ImplM ImplP FmtSpec FmtP DirSpec IntP LoopSpec.

(** ** Literal text *)

Lemma run_fixed J emit ds : emits emit -> forall args sb, Forall is_fixed ds ->
  run J emit ds args sb = (sb ++ concat (map fixed_text ds), None).
Proof.
  intros He. induction ds as [|d r IH]; intros args sb H; cbn [run map concat].
  - rewrite app_nil_r. reflexivity.
  - inversion H as [|? ? Hd Hr]; subst. destruct d as [t|]; [|contradiction]. cbn [appendOne fixed_text].
    rewrite wrapS_emits by exact He. rewrite IH by exact Hr. rewrite <- app_assoc. reflexivity.
Qed.

Lemma emits_sb : emits emitSB. Proof. left; reflexivity. Qed.
Lemma emits_app : emits emitApp. Proof. right; reflexivity. Qed.
Lemma emits_if (b : bool) : emits (if b then emitSB else emitApp). Proof. destruct b; [left|right]; reflexivity. Qed.

Lemma fixed_prints J s ds args : (forall dtf, GrammarSpec.format dtf s ds) -> Forall is_fixed ds ->
  prints J s args (concat (map fixed_text ds)).
Proof.
  intros F H dtf. exists ds. split; [apply compile_iff, F|]. split.
  - unfold format. rewrite run_fixed by (exact H || apply emits_sb). reflexivity.
  - intros sb target. unfold formatInto. rewrite run_fixed by (exact H || apply emits_if). reflexivity.
Qed.

Lemma literal_prints J t args : ~ In pct t -> prints J t args t.
Proof.
  intros H. pose proof (fixed_prints J t _ args (fun dtf => literal_format dtf t H)) as P.
  destruct t as [|c t]; cbn in P; [apply P; constructor|]. rewrite app_nil_r in P. apply P. repeat constructor.
Qed.

Definition doubled (t : list Z) : list Z := flat_map (fun c => if c =? pct then [pct; pct] else [c]) t.
Lemma doubled_eq t : doubled t = double_pct t.
Proof. induction t as [|c t IH]; cbn; [reflexivity|]. fold (doubled t). rewrite IH. destruct (c =? pct); reflexivity. Qed.

Lemma doubled_prints J t args : prints J (doubled t) args t.
Proof.
  intros dtf. destruct (double_format dtf (List.length t) t (le_n _)) as (ds & F & H & E).
  exists ds. rewrite doubled_eq. split; [apply compile_iff, F|]. split.
  - unfold format. rewrite run_fixed by (exact H || apply emits_sb). rewrite E. reflexivity.
  - intros sb target. unfold formatInto. rewrite run_fixed by (exact H || apply emits_if). rewrite E. reflexivity.
Qed.

(** ** Consumption *)

Lemma arity_needs d : arity d = needs1 d. Proof. destruct d; reflexivity. Qed.
Lemma arities_needs ds : arities ds = needs ds.
Proof. induction ds; cbn; [reflexivity|]. fold (needs ds). rewrite IHds, arity_needs. reflexivity. Qed.

Lemma arities_app a b : arities (a ++ b) = arities a + arities b.
Proof. induction a as [|d r IH]; cbn [app arities]; [lia|]. rewrite IH. lia. Qed.

Lemma format_run J ds args t : format J ds args = Ok t <-> run J emitSB ds args [] = (t, None).
Proof.
  unfold format. destruct (run J emitSB ds args []) as [o [e|]]; split; intros H; try discriminate.
  - injection H as <-. reflexivity.
  - injection H as <-. reflexivity.
Qed.

Lemma run_prefix J emit ds : forall args sb o, run J emit ds args sb = (o, None) ->
  exists used rest, args = used ++ rest /\ zlen used = needs ds /\ run J emit ds used sb = (o, None).
Proof.
  induction ds as [|d r IH]; intros args sb o; cbn [run needs fold_right].
  - intros [= <-]. exists [], args. repeat split.
  - fold (needs r). destruct (appendOne J d args) as [[s it']|e] eqn:E; [|discriminate].
    destruct (emit s sb) as [sb1 [e|]] eqn:Em; [discriminate|]. intros H.
    destruct (IH _ _ _ H) as (u & rest & -> & Zu & R).
    destruct (appendOne_ok _ _ _ _ _ E) as (u1 & -> & Z1 & _).
    exists (u1 ++ u), rest. split; [rewrite app_assoc; reflexivity|]. split; [rewrite zlen_app; lia|].
    assert (E' : appendOne J d (u1 ++ u) = Ok (s, u)).
    { clear IH H R. revert E. destruct d as [t|sp c]; cbn [appendOne].
      - intros [= <- Hx]. assert (u1 = []) as ->; [|reflexivity].
        apply zlen_0_nil. exact Z1.
      - destruct (resolveCtx c (u1 ++ u ++ rest)) as [[c1 l]|e] eqn:Er; cbn [bind]; [|discriminate].
        destruct (resolve_ok _ _ _ _ Er) as (v & Ev & Zv & X). destruct l as [|x l]; [discriminate|].
        destruct (formatterFor J sp c1 x) as [s1|e] eqn:Ef; cbn [bind]; [|discriminate].
        intros [= -> ->]. cbn [needs1] in Z1.
        assert (u1 = v ++ [x]) as ->.
        { apply (f_equal (firstn (List.length u1))) in Ev. rewrite firstn_app, Nat.sub_diag, firstn_O, app_nil_r, firstn_all in Ev.
          rewrite Ev. replace (v ++ x :: u ++ rest) with ((v ++ [x]) ++ u ++ rest) by (rewrite <- app_assoc; reflexivity).
          replace (List.length u1) with (List.length (v ++ [x])).
          - rewrite firstn_app, Nat.sub_diag, firstn_O, app_nil_r, firstn_all. reflexivity.
          - assert (zlen (v ++ [x]) = zlen u1) by (rewrite zlen_app, zlen_one; lia). unfold zlen in *. lia. }
        clear Ev Z1.
        assert (Rs : resolveCtx c (v ++ [x] ++ u) = Ok (c1, x :: u)).
        { destruct (resolve_missing c (v ++ [x] ++ u) rest) as [[[c2 l2] Hr]|[_ Hr]].
          - exists (c1, x :: u ++ rest). rewrite <- Er. f_equal. rewrite <- !app_assoc. reflexivity.
          - destruct (resolve_ok _ _ _ _ Hr) as (v2 & Ev2 & Zv2 & X2).
            assert (Hx : resolveCtx c ((v ++ [x]) ++ u ++ rest) = Ok (c2, l2 ++ rest)).
            { rewrite <- X2. f_equal. rewrite <- !app_assoc. reflexivity. }
            rewrite Hx in Er. injection Er as -> El. rewrite Hr. do 2 f_equal.
            apply (app_inv_tail rest). exact El.
          - rewrite !zlen_app, zlen_one in Hr. pose proof (zlen_nonneg u). lia. }
        rewrite <- app_assoc. rewrite Rs. cbn [bind app]. rewrite Ef. reflexivity. }
    rewrite E', Em. exact R.
Qed.

Lemma format_consumes J ds args t : format J ds args = Ok t ->
  exists used rest, args = used ++ rest /\ zlen used = arities ds /\ forall rest', format J ds (used ++ rest') = Ok t.
Proof.
  intros H. apply format_run in H. destruct (run_prefix _ _ _ _ _ _ H) as (used & rest & -> & Z & R).
  exists used, rest. split; [reflexivity|]. split; [rewrite arities_needs; exact Z|].
  intros rest'. apply format_run. apply (run_extra J emitSB ds used [] rest' t R).
Qed.

(** ** Concatenating format strings *)

Section Concat.
  Variable dtf : list Z -> bool.
  Variable J : jdk.

  (** two lists of pieces that behave alike *)
  Definition alike (a b : list appender) : Prop :=
    needs a = needs b /\
    forall emit, emits emit -> forall args sb, run J emit a args sb = run J emit b args sb.

  Lemma alike_cons d a b : alike a b -> alike (d :: a) (d :: b).
  Proof.
    intros [Hn H]. split; [cbn [needs fold_right]; fold (needs a) (needs b); lia|].
    intros emit He args sb. cbn [run]. destruct (appendOne J d args) as [[s it]|e]; [|reflexivity].
    destruct (emit s sb) as [o [e|]]; [reflexivity|]. apply H, He.
  Qed.

  Lemma alike_lit t u ds : alike (Fixed (t ++ u) :: ds) (Fixed t :: Fixed u :: ds).
  Proof.
    split; [reflexivity|]. intros emit He args sb. cbn [run appendOne]. rewrite !wrapS_emits by exact He.
    rewrite app_assoc. reflexivity.
  Qed.

  Lemma format_app s1 ds1 : GrammarSpec.format dtf s1 ds1 -> forall s2 ds2, GrammarSpec.format dtf s2 ds2 ->
    hd_error s2 <> Some 123 ->
    exists ds, GrammarSpec.format dtf (s1 ++ s2) ds /\ alike ds (ds1 ++ ds2).
  Proof.
    induction 1 as [|t r ds Ht Hn Hr F IH|r ds F IH|F fl W w P p c s T d r ds HF HW HP Hc HT Hp Fr IH]; intros s2 ds2 F2 Hb.
    - exists ds2. split; [exact F2|]. split; [reflexivity|reflexivity].
    - destruct (IH _ _ F2 Hb) as (dsx & Fx & A). rewrite <- app_assoc. destruct Hr as [->|Hr].
      + cbn [app] in *. assert (ds = []) as -> by (apply (format_unique dtf [] _ _ F); constructor). cbn [app] in *.
        assert (dsx = ds2) as -> by (apply (format_unique dtf _ _ _ Fx F2)). clear IH Fx A.
        destruct F2 as [|u r2 ds2 Hu Hnu Hr2 F2|r2 ds2 F2|F' fl' W' w' P' p' c' s' T' d' r' ds' HF' HW' HP' Hc' HT' Hp' Fr'].
        * exists [Fixed t]. split; [apply fmt_lit; auto; constructor|]. split; reflexivity.
        * exists (Fixed (t ++ u) :: ds2). rewrite app_assoc. split; [|apply alike_lit].
          apply fmt_lit; [destruct t; [congruence|discriminate]| |exact Hr2|exact F2]. rewrite in_app_iff. tauto.
        * exists (Fixed t :: Fixed [pct] :: ds2). split; [|split; reflexivity].
          apply fmt_lit; [exact Ht|exact Hn|right; reflexivity|constructor; exact F2].
        * exists (Fixed t :: Default s' (mkCtx fl' w' p' d') :: ds'). split; [|split; reflexivity].
          apply fmt_lit; [exact Ht|exact Hn|right; reflexivity|apply fmt_dir; assumption].
      + exists (Fixed t :: dsx). split; [|apply (alike_cons (Fixed t) _ _ A)].
        apply fmt_lit; [exact Ht|exact Hn| |exact Fx]. right. destruct r; [discriminate|exact Hr].
    - destruct (IH _ _ F2 Hb) as (dsx & Fx & A). exists (Fixed [pct] :: dsx).
      split; [cbn [app]; apply fmt_pct, Fx|apply (alike_cons (Fixed [pct]) _ _ A)].
    - destruct (IH _ _ F2 Hb) as (dsx & Fx & A). exists (Default s (mkCtx fl w p d) :: dsx).
      split; [|apply (alike_cons (Default s (mkCtx fl w p d)) _ _ A)].
      assert (E : (pct :: F ++ W ++ P ++ c :: T ++ r) ++ s2 = pct :: F ++ W ++ P ++ c :: T ++ (r ++ s2)).
      { cbn [app]. rewrite <- !app_assoc. cbn [app]. rewrite <- app_assoc. reflexivity. }
      rewrite E. apply fmt_dir; try assumption.
      inversion HT as [s' r' N1 N2|s' r' N1 N2|s' r' p' N1 N2 N3 N4]; subst;
        [apply D_other; assumption|apply D_none; [assumption|]|apply D_pat; assumption].
      destruct r; [exact Hb|assumption].
  Qed.
End Concat.

(** ** Bounds *)

Definition bounded (c : ctx) : Prop :=
  (c_width c = UNSET \/ 0 <= c_width c <= 65536) /\ (c_prec c = UNSET \/ 0 <= c_prec c <= 65536).
Definition bounded_or_star (c : ctx) : Prop :=
  (c_width c = UNSET \/ c_width c = PRECEDING \/ 0 <= c_width c <= 65536) /\
  (c_prec c = UNSET \/ c_prec c = PRECEDING \/ 0 <= c_prec c <= 65536).

Lemma compiled_bounded dtf s ds sp c : compile dtf s = Ok ds -> In (Default sp c) ds -> bounded_or_star c.
Proof.
  intros H Hin. apply compile_iff in H. destruct (format_dir_ok _ _ _ H _ _ Hin) as (A & B & _).
  split; [|exact B]. destruct A as [A|[A|A]]; auto. right; right; lia.
Qed.

Lemma checkValue_ok k v : checkValue k v = Ok tt -> v = UNSET \/ v = PRECEDING \/ 0 <= v <= 65536.
Proof.
  unfold checkValue, MAX_WP. destruct (v <? 0) eqn:E1, (v =? UNSET) eqn:E2, (v =? PRECEDING) eqn:E3; cbn; bools; auto; try discriminate;
  destruct (65536 <? v) eqn:E; try discriminate; bools; intros _; right; right; lia.
Qed.

(** contexts handed to conversions at run time *)
Lemma resolved_bounded c args c' it : bounded_or_star c -> resolveCtx c args = Ok (c', it) ->
  Forall (fun x => forall w, t_asInt x = Ok w -> is_int w /\ w <> int_min) args -> bounded c'.
Proof.
  intros [Bw Bp] H Ha. unfold resolveCtx in H.
  assert (X : exists c1 it1, (if isPrecedingWidth c then
         let* (w, it) := nextInt args in
         let* c := (if 0 <=? w then setWidth c w else setWidth (addFlag c LEFT_JUSTIFY) (wrap32 (- w))) in
         Ok (c, it)
       else Ok (c, args)) = Ok (c1, it1) /\ (c_width c1 = UNSET \/ 0 <= c_width c1 <= 65536) /\ c_prec c1 = c_prec c).
  { unfold isPrecedingWidth in *. destruct (c_width c =? PRECEDING) eqn:Ew.
    - destruct args as [|x r]; [discriminate|]. cbn [nextInt] in *. destruct (t_asInt x) as [w|e] eqn:Ex; cbn [bind] in *; [|discriminate].
      inversion Ha as [|? ? Hx Hr]; subst. destruct (Hx _ Ex) as [Hi Hm].
      destruct (if 0 <=? w then setWidth c w else setWidth (addFlag c LEFT_JUSTIFY) (wrap32 (- w))) as [c1|e] eqn:Es; cbn [bind] in *; [|discriminate].
      exists c1, r. split; [reflexivity|]. unfold setWidth in Es. unfold is_int, int_min, int_max in *. destruct (0 <=? w) eqn:E0; bools.
      + destruct (checkValue WidthRange w) as [[]|e] eqn:Ec; cbn [bind] in Es; [|discriminate]. injection Es as <-. cbn.
        apply checkValue_ok in Ec. unfold UNSET, PRECEDING, int_min in *. split; [lia|reflexivity].
      + rewrite wrap32_id in Es by (unfold is_int, int_min, int_max; lia).
        destruct (checkValue WidthRange (- w)) as [[]|e] eqn:Ec; cbn [bind] in Es; [|discriminate]. injection Es as <-. cbn.
        apply checkValue_ok in Ec. unfold UNSET, PRECEDING, int_min in *. split; [lia|reflexivity].
    - apply Z.eqb_neq in Ew. exists c, args. split; [reflexivity|]. split; [|reflexivity]. destruct Bw as [?|[?|?]]; auto; contradiction. }
  destruct X as (c1 & it1 & E & B1 & E1). rewrite E in H. cbn [bind] in H. unfold isPrecedingPrecision in H. rewrite E1 in H.
  destruct (c_prec c =? PRECEDING) eqn:Ep.
  - destruct it1 as [|y r]; [discriminate|]. cbn [nextInt] in H. destruct (t_asInt y) as [p|e]; cbn [bind] in H; [|discriminate].
    unfold setPrecision in H.
    destruct (checkValue PrecisionRange (if 0 <=? p then p else UNSET)) as [[]|e] eqn:Ec; cbn [bind] in H; [|discriminate].
    injection H as <- <-. split; cbn; [exact B1|]. apply checkValue_ok in Ec. destruct (0 <=? p) eqn:E0; bools; [|auto].
    unfold UNSET, PRECEDING, int_min in *. right. lia.
  - apply Z.eqb_neq in Ep. injection H as <- <-. split; [exact B1|]. rewrite E1. destruct Bp as [?|[?|?]]; auto; contradiction.
Qed.

(** with Integer.MIN_VALUE allowed *)
Definition sane (d : appender) : Prop := match d with Fixed _ => True | Default _ c => bounded_or_star c end.

Lemma compiled_sane dtf s ds : compile dtf s = Ok ds -> Forall sane ds.
Proof. intros H. apply Forall_forall. intros [t|sp c] Hin; [exact I|]. apply (compiled_bounded dtf s ds sp c H Hin). Qed.

Lemma resolved_ok c args c' it : bounded_or_star c -> resolveCtx c args = Ok (c', it) ->
  Forall (fun x => forall w, t_asInt x = Ok w -> is_int w) args -> context_ok c'.
Proof.
  intros [Bw Bp] H Ha. unfold resolveCtx in H.
  assert (X : exists c1 it1, (if isPrecedingWidth c then
         let* (w, it) := nextInt args in
         let* c := (if 0 <=? w then setWidth c w else setWidth (addFlag c LEFT_JUSTIFY) (wrap32 (- w))) in
         Ok (c, it)
       else Ok (c, args)) = Ok (c1, it1) /\
       (c_width c1 = UNSET \/ 0 <= c_width c1 <= 65536 \/ (c_width c1 = int_min /\ f_left (c_flags c1) = true)) /\ c_prec c1 = c_prec c).
  { unfold isPrecedingWidth in *. destruct (c_width c =? PRECEDING) eqn:Ew.
    - destruct args as [|x r]; [discriminate|]. cbn [nextInt] in *. destruct (t_asInt x) as [w|e] eqn:Ex; cbn [bind] in *; [|discriminate].
      inversion Ha as [|? ? Hx Hr]; subst. pose proof (Hx _ Ex) as Hi.
      destruct (if 0 <=? w then setWidth c w else setWidth (addFlag c LEFT_JUSTIFY) (wrap32 (- w))) as [c1|e] eqn:Es; cbn [bind] in *; [|discriminate].
      exists c1, r. split; [reflexivity|]. unfold setWidth in Es. unfold is_int, int_min, int_max in *. destruct (0 <=? w) eqn:E0; bools.
      + destruct (checkValue WidthRange w) as [[]|e] eqn:Ec; cbn [bind] in Es; [|discriminate]. injection Es as <-. cbn.
        apply checkValue_ok in Ec. unfold UNSET, PRECEDING, int_min in *. split; [lia|reflexivity].
      + assert (Hw : w = -2147483648 \/ -2147483647 <= w) by lia. destruct Hw as [-> |Hw].
        { cbn in Es. injection Es as <-. cbn. split; [|reflexivity]. right; right. split; reflexivity. }
        rewrite wrap32_id in Es by (unfold is_int, int_min, int_max; lia).
        destruct (checkValue WidthRange (- w)) as [[]|e] eqn:Ec; cbn [bind] in Es; [|discriminate]. injection Es as <-. cbn.
        apply checkValue_ok in Ec. unfold UNSET, PRECEDING, int_min in *. split; [lia|reflexivity].
    - apply Z.eqb_neq in Ew. exists c, args. split; [reflexivity|]. split; [|reflexivity]. destruct Bw as [?|[?|?]]; auto; contradiction. }
  destruct X as (c1 & it1 & E & B1 & E1). rewrite E in H. cbn [bind] in H. unfold isPrecedingPrecision in H. rewrite E1 in H.
  destruct (c_prec c =? PRECEDING) eqn:Ep.
  - destruct it1 as [|y r]; [discriminate|]. cbn [nextInt] in H. destruct (t_asInt y) as [p|e]; cbn [bind] in H; [|discriminate].
    unfold setPrecision in H.
    destruct (checkValue PrecisionRange (if 0 <=? p then p else UNSET)) as [[]|e] eqn:Ec; cbn [bind] in H; [|discriminate].
    injection H as <- <-. split; cbn; [exact B1|]. apply checkValue_ok in Ec. destruct (0 <=? p) eqn:E0; bools; [|auto].
    unfold UNSET, PRECEDING, int_min in *. right. lia.
  - apply Z.eqb_neq in Ep. injection H as <- <-. split; [exact B1|]. rewrite E1. destruct Bp as [?|[?|?]]; auto; contradiction.
Qed.

(** ** Honest arguments *)

Lemma resolve_suffix c args c' it : resolveCtx c args = Ok (c', it) -> exists u, args = u ++ it.
Proof. intros H. destruct (resolve_ok _ _ _ _ H) as (u & E & _). eauto. Qed.

Lemma appendOne_honest J d args s it : sane d -> Forall (honest J) args -> appendOne J d args = Ok (s, it) ->
  (exists t, forall emit, emits emit -> forall sb, emit s sb = (sb ++ t, None)) /\ Forall (honest J) it.
Proof.
  intros Hd H E. destruct (appendOne_ok _ _ _ _ _ E) as (u & -> & _). pose proof H as H'. apply Forall_app in H' as [_ H']. split; [|exact H'].
  destruct d as [t|sp c]; cbn [appendOne] in E.
  - injection E as <- _. exists t. intros. apply wrapS_emits. assumption.
  - destruct (resolveCtx c (u ++ it)) as [[c1 l]|e] eqn:Er; cbn [bind] in E; [|discriminate].
    destruct (resolve_suffix _ _ _ _ Er) as [v Ev]. destruct l as [|x l]; [discriminate|].
    assert (Hc1 : context_ok c1).
    { apply (resolved_ok _ _ _ _ Hd Er). eapply Forall_impl; [|exact H]. intros y [Hy _]. exact Hy. }
    destruct (formatterFor J sp c1 x) as [s1|e] eqn:Ef; cbn [bind] in E; [|discriminate]. injection E as -> _.
    rewrite Ev in H. apply Forall_app in H as [_ H]. inversion H as [|? ? Hx _]; subst.
    destruct (proj2 Hx _ _ _ Hc1 Ef) as [t D]. exists t. intros. apply wden_emits; assumption.
Qed.

Lemma run_honest J ds : Forall sane ds -> forall args, Forall (honest J) args ->
  exists n t e, (n <= List.length ds)%nat /\ (e = None <-> n = List.length ds) /\
    (forall emit, emits emit -> forall sb, run J emit ds args sb = (sb ++ t, e)) /\
    (forall emit, emits emit -> forall sb, run J emit (firstn n ds) args sb = (sb ++ t, None)).
Proof.
  induction 1 as [|d r Hd Hr IH]; intros args H.
  - exists 0%nat, [], None. cbn. repeat split; auto; intros; rewrite app_nil_r; reflexivity.
  - destruct (appendOne J d args) as [[s it]|e] eqn:E.
    + destruct (appendOne_honest _ _ _ _ _ Hd H E) as [[t Ht] Hit].
      destruct (IH _ Hit) as (n & t2 & e & Hn & He & R1 & R2).
      exists (S n), (t ++ t2), e. cbn [List.length]. split; [lia|]. split; [rewrite He; split; lia|].
      split; intros emit Hm sb; cbn [run firstn]; rewrite E, (Ht emit Hm), ?R1, ?R2 by exact Hm;
        rewrite <- app_assoc; reflexivity.
    + exists 0%nat, [], (Some e). cbn [List.length firstn]. split; [lia|]. split; [split; [discriminate|lia]|].
      split; intros emit Hm sb; cbn [run]; rewrite ?E, app_nil_r; reflexivity.
Qed.

Lemma same_text dtf src J ds args : compile dtf src = Ok ds -> Forall (honest J) args ->
  exists n t e,
    (forall sb target, formatInto J sb ds args target = (target ++ t, e)) /\
    format J ds args = (match e with None => Ok t | Some x => Err x end) /\
    (n <= List.length ds)%nat /\ (e = None <-> n = List.length ds) /\
    format J (firstn n ds) args = Ok t.
Proof.
  intros Hc H. destruct (run_honest J ds (compiled_sane _ _ _ Hc) args H) as (n & t & e & Hn & He & R1 & R2). exists n, t, e. split; [|split; [|split; [|split]]].
  - intros sb target. apply R1, emits_if.
  - unfold format. rewrite (R1 emitSB emits_sb). cbn [app]. destruct e; reflexivity.
  - exact Hn.
  - exact He.
  - unfold format. rewrite (R2 emitSB emits_sb). reflexivity.
Qed.

Lemma format_concat dtf J s1 s2 ds1 ds2 args1 args2 t1 t2 :
  compile dtf s1 = Ok ds1 -> compile dtf s2 = Ok ds2 -> hd_error s2 <> Some 123 ->
  Forall (honest J) args1 -> Forall (honest J) args2 -> zlen args1 = arities ds1 ->
  format J ds1 args1 = Ok t1 -> format J ds2 args2 = Ok t2 ->
  exists ds, compile dtf (s1 ++ s2) = Ok ds /\ arities ds = arities ds1 + arities ds2 /\
    format J ds (args1 ++ args2) = Ok (t1 ++ t2).
Proof.
  intros C1 C2 Hb H1 H2 Hz F1 F2. pose proof (compiled_sane _ _ _ C2) as Hs. apply compile_iff in C1, C2.
  destruct (format_app dtf J _ _ C1 _ _ C2 Hb) as (ds & F & [Hn A]). exists ds.
  split; [apply compile_iff, F|]. split.
  - rewrite (arities_needs ds), Hn, <- arities_needs. apply arities_app.
  - apply format_run. rewrite A by apply emits_sb. apply format_run in F1, F2.
    apply (run_concat J emitSB ds1 ds2 args1 args2 [] t1); [exact F1|rewrite Hz; apply arities_needs|].
    destruct (run_honest J ds2 Hs args2 H2) as (n & t & e & _ & _ & R & _).
    rewrite (R emitSB emits_sb) in *. cbn [app] in F2. injection F2 as -> ->. reflexivity.
Qed.

(** ** Missing arguments *)

Lemma classic_missing e : e = Printf MissingArg \/ e <> Printf MissingArg.
Proof. destruct e as [|k| | | | | | |]; try (right; discriminate). destruct k; (left; reflexivity) || (right; discriminate). Qed.

Lemma resolve_short c it extra : exists r, resolveCtx c (it ++ extra) = r /\
  (resolveCtx c it = Err (Printf MissingArg) \/
   (exists c' l, resolveCtx c it = Ok (c', l)) \/ (exists e, resolveCtx c it = Err e /\ r = Err e)).
Proof.
  eexists. split; [reflexivity|]. unfold resolveCtx. destruct (isPrecedingWidth c).
  - destruct it as [|x l]; cbn [nextInt bind app]; [auto|].
    destruct (t_asInt x) as [w|e]; cbn [bind]; [|eauto].
    destruct (if 0 <=? w then setWidth c w else setWidth (addFlag c LEFT_JUSTIFY) (wrap32 (- w))) as [c1|e]; cbn [bind]; [|eauto].
    destruct (isPrecedingPrecision c1); [|eauto].
    destruct l as [|y l]; cbn [nextInt bind app]; [auto|].
    destruct (t_asInt y) as [z|?]; cbn [bind]; [|eauto].
    destruct (setPrecision c1 (if 0 <=? z then z else UNSET)); cbn [bind]; eauto.
  - cbn [bind]. destruct (isPrecedingPrecision c); [|eauto].
    destruct it as [|y l]; cbn [nextInt bind app]; [auto|].
    destruct (t_asInt y) as [z|?]; cbn [bind]; [|eauto].
    destruct (setPrecision c (if 0 <=? z then z else UNSET)); cbn [bind]; eauto.
Qed.

(** an error other than a missing argument does not depend on the arguments not supplied *)
Lemma run_short_error J emit ds : forall args sb o e, run J emit ds args sb = (o, Some e) ->
  e = Printf MissingArg \/ forall extra, run J emit ds (args ++ extra) sb = (o, Some e).
Proof.
  induction ds as [|d r IH]; intros args sb o e; cbn [run]; [discriminate|].
  destruct (appendOne J d args) as [[s it]|e1] eqn:E.
  - destruct (appendOne_ok _ _ _ _ _ E) as (u & -> & _ & X).
    destruct (emit s sb) as [sb1 [e2|]] eqn:Em.
    + intros [= <- <-]. right. intros extra. rewrite X, Em. reflexivity.
    + intros H. destruct (IH _ _ _ _ H) as [H'|H']; [auto|]. right. intros extra. rewrite X, Em. apply H'.
  - intros [= <- <-].
    assert (e1 = Printf MissingArg \/ forall extra, appendOne J d (args ++ extra) = Err e1) as [H|H]; [|auto|].
    { destruct d as [t|sp c]; cbn [appendOne] in *; [discriminate|].
      destruct (resolveCtx c args) as [[c1 l]|e] eqn:Er; cbn [bind] in E.
      - destruct (resolve_ok _ _ _ _ Er) as (u & -> & _ & X). destruct l as [|x l]; [left; congruence|].
        right. intros extra. rewrite X. cbn [bind app]. destruct (formatterFor J sp c1 x); cbn [bind] in *; congruence.
      - injection E as ->. destruct (resolve_short c args []) as (r1 & _ & [H|[(c' & l & H)|(e & H & _)]]).
        + left; congruence.
        + congruence.
        + rewrite Er in H. injection H as <-.
          destruct (classic_missing e1) as [->|Hne]; [auto|]. right. intros extra.
          destruct (resolve_short c args extra) as (r2 & <- & [H|[(c' & l & H)|(e & H & H2)]]); try congruence.
          rewrite H2. rewrite Er in H. injection H as <-. reflexivity. }
    right. intros extra. rewrite H. reflexivity.
Qed.

Lemma missing_argument J ds args : zlen args < arities ds ->
  exists e, format J ds args = Err e /\
    (e = Printf MissingArg \/ forall extra, format J ds (args ++ extra) = Err e).
Proof.
  rewrite arities_needs. intros H. destruct (run_short J emitSB ds args [] H) as (o & e & R). exists e. split.
  - unfold format. rewrite R. reflexivity.
  - destruct (run_short_error _ _ _ _ _ _ _ R) as [E|E]; [auto|]. right. intros extra. unfold format. rewrite E. reflexivity.
Qed.

Lemma appendOne_enough J d it : sane d -> Forall (honest J) it -> Forall (quiet_arg J) it -> needs1 d <= zlen it ->
  appendOne J d it <> Err (Printf MissingArg).
Proof.
  intros Hd Hh Hq Hn. destruct d as [t|sp c]; cbn [appendOne needs1] in *; [discriminate|].
  assert (R : resolveCtx c it <> Err (Printf MissingArg)).
  { apply resolve_enough; [|unfold stars; lia]. eapply Forall_impl; [|exact Hq]. intros x [Hx _]. exact Hx. }
  destruct (resolveCtx c it) as [[c1 l]|e] eqn:Er; cbn [bind]; [|congruence].
  assert (Hc1 : context_ok c1).
  { apply (resolved_ok _ _ _ _ Hd Er). eapply Forall_impl; [|exact Hh]. intros y [Hy _]. exact Hy. }
  destruct (resolve_ok _ _ _ _ Er) as (u & -> & Zu & _). rewrite zlen_app in Hn.
  destruct l as [|x l]; [change (zlen (@nil traits)) with 0 in Hn; lia|].
  apply Forall_app in Hq as [_ Hq]. inversion Hq as [|? ? [_ Hx] _]; subst. specialize (Hx sp c1 Hc1).
  destruct (formatterFor J sp c1 x); cbn [bind]; congruence.
Qed.

Lemma enough_arguments dtf src J ds : forall args, compile dtf src = Ok ds -> Forall (honest J) args -> Forall (quiet_arg J) args ->
  arities ds <= zlen args -> format J ds args <> Err (Printf MissingArg).
Proof.
  intros args Hc Hh Hq Hn. apply compiled_sane in Hc. unfold format.
  enough (R : forall args sb, Forall (honest J) args -> Forall (quiet_arg J) args -> arities ds <= zlen args ->
    snd (run J emitSB ds args sb) <> Some (Printf MissingArg)).
  { specialize (R args [] Hh Hq Hn). destruct (run J emitSB ds args []) as [o [e|]]; cbn in *; congruence. }
  clear - Hc. induction Hc as [|d r Hd Hr IH]; intros args sb Hh Hq Hn; cbn [run arities]; [discriminate|].
  pose proof (appendOne_enough J d args Hd Hh Hq) as A. rewrite <- arity_needs in A. cbn [arities] in Hn.
  assert (0 <= arities r) by (rewrite arities_needs; apply needs_nonneg).
  destruct (appendOne J d args) as [[s it]|e] eqn:E; cbn [snd].
  - destruct (appendOne_honest _ _ _ _ _ Hd Hh E) as [[t Ht] Hit]. rewrite (Ht emitSB emits_sb).
    destruct (appendOne_ok _ _ _ _ _ E) as (u & -> & Zu & _). apply IH; [exact Hit| |].
    + apply Forall_app in Hq. tauto.
    + rewrite zlen_app in Hn. rewrite arity_needs in Hn. lia.
  - intros [= ->]. apply A; [lia|reflexivity].
Qed.

(** ** '*' *)

Lemma one_directive dtf F fl W w P p c s : flags_text F fl -> width_text W w -> prec_text P p -> conv_char c s -> s <> Spct ->
  compile dtf (pct :: F ++ W ++ P ++ [c]) = Ok [Default s (mkCtx fl w p None)].
Proof.
  intros HF HW HP Hc Hs. apply compile_iff.
  change (pct :: F ++ W ++ P ++ [c]) with (pct :: F ++ W ++ P ++ c :: [] ++ []). apply fmt_dir; try assumption.
  - destruct (isDateTimeSpec s) eqn:E.
    + apply D_none; [destruct s; try discriminate; auto|discriminate].
    + apply D_other; intros ->; discriminate.
  - intros _ ->. apply Hs. inversion Hc; subst. destruct s; discriminate || reflexivity.
  - constructor.
Qed.

Lemma star_flags_ok F fl w : flags_text F fl ->
  flags_text (star_flags F w) (if w <? 0 then addF LEFT_JUSTIFY fl else fl).
Proof.
  intros (N & I & ->). unfold star_flags. destruct (w <? 0); [|repeat split; assumption].
  destruct (existsb (Z.eqb 45) F) eqn:E.
  - split; [exact N|]. split; [exact I|]. cbn. rewrite E. reflexivity.
  - split; [|split].
    + constructor; [|exact N]. intros H. assert (existsb (Z.eqb 45) F = true) by (apply existsb_exists; exists 45; auto). congruence.
    + intros x [<-|Hx]; [left; reflexivity|apply I; exact Hx].
    + reflexivity.
Qed.

Lemma dec_text_width n : 1 <= n <= 65536 -> width_text (dec_text n) n.
Proof.
  intros H. rewrite <- (dec_value_dec_text n) at 2 by lia.
  pose proof (dec_value_dec_text n ltac:(lia)) as V. pose proof (numeral10_dec n ltac:(lia)) as D.
  rewrite <- dec_text_nonneg in D by lia. destruct (dec_text_head n) as (d & r & E & Hd); [lia|]. rewrite E in *.
  apply W_num; [exact Hd|exact D|lia].
Qed.

Lemma star_prec_ok p : p <= 65536 -> prec_text (star_prec p) (if 0 <=? p then p else UNSET).
Proof.
  intros H. unfold star_prec. destruct (p <? 0) eqn:E.
  - apply Z.ltb_lt in E. replace (0 <=? p) with false by (symmetry; apply Z.leb_gt; lia). constructor.
  - apply Z.ltb_ge in E. replace (0 <=? p) with true by (symmetry; apply Z.leb_le; lia).
    rewrite <- (dec_value_dec_text p) at 2 by lia. constructor.
    + rewrite dec_text_nonneg by lia. apply numeral10_dec. lia.
    + rewrite dec_value_dec_text by lia. exact H.
Qed.

Lemma checkValue_in k v : 0 <= v <= 65536 -> checkValue k v = Ok tt.
Proof.
  intros H. unfold checkValue, MAX_WP. replace (v <? 0) with false by (symmetry; apply Z.ltb_ge; lia).
  replace (65536 <? v) with false by (symmetry; apply Z.ltb_ge; lia). reflexivity.
Qed.
Lemma checkValue_unset k : checkValue k UNSET = Ok tt. Proof. reflexivity. Qed.
Lemma checkValue_big k v : 65536 < v -> checkValue k v = Err (Printf k).
Proof.
  intros H. unfold checkValue, MAX_WP. replace (v <? 0) with false by (symmetry; apply Z.ltb_ge; lia).
  replace (65536 <? v) with true by (symmetry; apply Z.ltb_lt; lia). reflexivity.
Qed.

Lemma run_one J emit d args args' d' sb : (appendOne J d args = appendOne J d' args' \/
   exists s it it', appendOne J d args = Ok (s, it) /\ appendOne J d' args' = Ok (s, it')) ->
  run J emit [d] args sb = run J emit [d'] args' sb.
Proof.
  intros [H|(s & it & it' & H1 & H2)]; cbn [run].
  - rewrite H. reflexivity.
  - rewrite H1, H2. reflexivity.
Qed.

(** resolving a '*' width is the same as having written it *)
Lemma resolve_star_width fl p d x w rest : t_asInt x = Ok w -> 0 <= Z.abs w <= 65536 ->
  resolveCtx (mkCtx fl PRECEDING p d) (x :: rest) =
  resolveCtx (mkCtx (if w <? 0 then addF LEFT_JUSTIFY fl else fl) (Z.abs w) p d) rest.
Proof.
  intros Hx Hw. unfold resolveCtx at 1. unfold isPrecedingWidth at 1. cbn [c_width]. rewrite Z.eqb_refl. cbn [nextInt]. rewrite Hx. cbn [bind].
  unfold resolveCtx, isPrecedingWidth. cbn [c_width].
  replace (Z.abs w =? PRECEDING) with false by (symmetry; apply Z.eqb_neq; unfold PRECEDING, int_min; lia). cbn [bind].
  destruct (w <? 0) eqn:E; bools.
  - replace (0 <=? w) with false by (symmetry; apply Z.leb_gt; lia).
    assert (wrap32 (- w) = Z.abs w) as ->.
    { rewrite wrap32_id; [lia|]. unfold is_int, int_min, int_max. lia. }
    unfold setWidth. rewrite checkValue_in by lia. reflexivity.
  - replace (0 <=? w) with true by (symmetry; apply Z.leb_le; lia).
    replace (Z.abs w) with w by lia. unfold setWidth. rewrite checkValue_in by lia. cbn [bind].
    rewrite <- (Z.abs_eq w) at 1 2 by lia. reflexivity.
Qed.

Lemma resolve_star_prec fl w d x p rest : w <> PRECEDING -> t_asInt x = Ok p -> p <= 65536 ->
  resolveCtx (mkCtx fl w PRECEDING d) (x :: rest) =
  resolveCtx (mkCtx fl w (if 0 <=? p then p else UNSET) d) rest.
Proof.
  intros Hw Hx Hp. unfold resolveCtx, isPrecedingWidth. cbn [c_width].
  replace (w =? PRECEDING) with false by (symmetry; apply Z.eqb_neq; exact Hw). cbn [bind].
  unfold isPrecedingPrecision. cbn [c_prec]. rewrite Z.eqb_refl. cbn [nextInt]. rewrite Hx. cbn [bind].
  replace ((if 0 <=? p then p else UNSET) =? PRECEDING) with false.
  - unfold setPrecision. destruct (0 <=? p) eqn:E; bools; [rewrite checkValue_in by lia|]; reflexivity.
  - symmetry. apply Z.eqb_neq. unfold PRECEDING, int_min, UNSET. destruct (0 <=? p) eqn:E; bools; lia.
Qed.

Lemma appendOne_resolve J s c c' args args' : resolveCtx c args = resolveCtx c' args' ->
  appendOne J (Default s c) args = appendOne J (Default s c') args'.
Proof. intros H. cbn [appendOne]. rewrite H. reflexivity. Qed.

Lemma star_width_in_place J dtf F fl P p c s x w : flags_text F fl -> prec_text P p -> conv_char c s -> s <> Spct ->
  t_asInt x = Ok w -> 1 <= Z.abs w <= 65536 ->
  exists ds ds', compile dtf (pct :: F ++ txt "*" ++ P ++ [c]) = Ok ds /\
    compile dtf (pct :: star_flags F w ++ dec_text (Z.abs w) ++ P ++ [c]) = Ok ds' /\
    forall sb rest target, formatInto J sb ds (x :: rest) target = formatInto J sb ds' rest target.
Proof.
  intros HF HP Hc Hs Hx Hw. exists [Default s (mkCtx fl PRECEDING p None)].
  exists [Default s (mkCtx (if w <? 0 then addF LEFT_JUSTIFY fl else fl) (Z.abs w) p None)].
  split; [apply one_directive; try assumption; constructor|].
  split; [apply one_directive; try assumption; [apply star_flags_ok; exact HF|apply dec_text_width; exact Hw]|].
  intros sb rest target. unfold formatInto. apply run_one. left. apply appendOne_resolve, resolve_star_width; [exact Hx|lia].
Qed.

Lemma star_prec_in_place J dtf F fl W w c s x p : flags_text F fl -> width_text W w -> w <> PRECEDING -> conv_char c s -> s <> Spct ->
  t_asInt x = Ok p -> p <= 65536 ->
  exists ds ds', compile dtf (pct :: F ++ W ++ txt ".*" ++ [c]) = Ok ds /\
    compile dtf (pct :: F ++ W ++ star_prec p ++ [c]) = Ok ds' /\
    forall sb rest target, formatInto J sb ds (x :: rest) target = formatInto J sb ds' rest target.
Proof.
  intros HF HW Hw Hc Hs Hx Hp. exists [Default s (mkCtx fl w PRECEDING None)].
  exists [Default s (mkCtx fl w (if 0 <=? p then p else UNSET) None)].
  split; [apply one_directive; try assumption; constructor|].
  split; [apply one_directive; try assumption; apply star_prec_ok; exact Hp|].
  intros sb rest target. unfold formatInto. apply run_one. left. apply appendOne_resolve, resolve_star_prec; assumption.
Qed.

Lemma resolve_width_bad fl p d x w rest : t_asInt x = Ok w -> is_int w -> 65536 < Z.abs w -> w <> int_min ->
  resolveCtx (mkCtx fl PRECEDING p d) (x :: rest) = Err (Printf WidthRange).
Proof.
  intros Hx Hi Hw Hm. unfold resolveCtx, isPrecedingWidth. cbn [c_width]. rewrite Z.eqb_refl. cbn [nextInt]. rewrite Hx. cbn [bind].
  unfold is_int, int_min, int_max in *. destruct (0 <=? w) eqn:E; bools; unfold setWidth.
  - rewrite checkValue_big by lia. reflexivity.
  - rewrite wrap32_id by (unfold is_int, int_min, int_max; lia). rewrite checkValue_big by lia. reflexivity.
Qed.

Lemma resolve_prec_bad fl w d x p rest : w <> PRECEDING -> t_asInt x = Ok p -> 65536 < p ->
  resolveCtx (mkCtx fl w PRECEDING d) (x :: rest) = Err (Printf PrecisionRange).
Proof.
  intros Hw Hx Hp. unfold resolveCtx, isPrecedingWidth. cbn [c_width].
  replace (w =? PRECEDING) with false by (symmetry; apply Z.eqb_neq; exact Hw). cbn [bind].
  unfold isPrecedingPrecision. cbn [c_prec]. rewrite Z.eqb_refl. cbn [nextInt]. rewrite Hx. cbn [bind].
  replace (0 <=? p) with true by (symmetry; apply Z.leb_le; lia). unfold setPrecision. rewrite checkValue_big by lia. reflexivity.
Qed.

Lemma rejects_resolve J dtf src s c args e : compile dtf src = Ok [Default s c] -> resolveCtx c args = Err e ->
  exists ds, compile dtf src = Ok ds /\ format J ds args = Err e /\
    forall sb target, formatInto J sb ds args target = (target, Some e).
Proof.
  intros Hc H. exists [Default s c]. split; [exact Hc|]. unfold format, formatInto. cbn [run appendOne]. rewrite H. cbn [bind].
  split; [reflexivity|]. intros; reflexivity.
Qed.

Lemma star_width_rejected J F fl P p c s x w rest : flags_text F fl -> prec_text P p -> conv_char c s -> s <> Spct ->
  t_asInt x = Ok w -> is_int w -> 65536 < Z.abs w -> w <> int_min ->
  rejects J (pct :: F ++ txt "*" ++ P ++ [c]) (x :: rest) (Printf WidthRange).
Proof.
  intros HF HP Hc Hs Hx Hi Hw Hm dtf. eapply rejects_resolve; [apply one_directive; eauto; constructor|].
  eapply resolve_width_bad; eassumption.
Qed.

Lemma star_prec_rejected J F fl W w c s x p rest : flags_text F fl -> width_text W w -> w <> PRECEDING -> conv_char c s -> s <> Spct ->
  t_asInt x = Ok p -> 65536 < p ->
  rejects J (pct :: F ++ W ++ txt ".*" ++ [c]) (x :: rest) (Printf PrecisionRange).
Proof.
  intros HF HW Hw Hc Hs Hx Hp dtf. eapply rejects_resolve; [apply one_directive; eauto; constructor|].
  eapply resolve_prec_bad; eassumption.
Qed.

(** a '*' width of zero asks for no width *)
Lemma star_width_zero J s x T w0 F fl P p c : renders J s x T -> flags_text F fl -> prec_text P p -> p <> PRECEDING -> conv_char c s -> s <> Spct ->
  t_asInt w0 = Ok 0 ->
  prints J (pct :: F ++ txt "*" ++ P ++ [c]) [w0; x]
    (T (mkSpec (f_left fl) (f_alt fl) (f_plus fl) (f_space fl) (f_zero fl) 0 (if p =? UNSET then None else Some p))).
Proof.
  intros Hr HF HP Hp Hc Hs H0 dtf. exists [Default s (mkCtx fl PRECEDING p None)].
  split; [apply one_directive; try assumption; constructor|].
  assert (Hp' : p = UNSET \/ 0 <= p <= 65536) by (destruct (prec_ok _ _ HP) as [H|[H|H]]; auto; contradiction).
  set (c0 := mkCtx fl 0 p None).
  assert (Hrt : rt_ok c0) by (split; cbn; [right; left; lia|exact Hp']).
  destruct (renders_den J s x T c0 Hr Hrt) as (u & Eu & Du).
  assert (Eq : q_of c0 = mkSpec (f_left fl) (f_alt fl) (f_plus fl) (f_space fl) (f_zero fl) 0 (if p =? UNSET then None else Some p)).
  { unfold q_of. cbn. f_equal. unfold UNSET in *. destruct Hp' as [->|H]; [reflexivity|].
    replace (p <? 0) with false by (symmetry; apply Z.ltb_ge; lia). replace (p =? -1) with false by (symmetry; apply Z.eqb_neq; lia). reflexivity. }
  rewrite Eq in Du. apply den_wden in Du.
  assert (E : appendOne J (Default s (mkCtx fl PRECEDING p None)) [w0; x] = Ok (u, [])).
  { rewrite (appendOne_resolve J s _ _ _ _ (resolve_star_width fl p None w0 0 [x] H0 ltac:(cbn; lia))).
    cbn [appendOne]. change (mkCtx (if 0 <? 0 then addF LEFT_JUSTIFY fl else fl) (Z.abs 0) p None) with c0.
    rewrite resolve_plain; [cbn [bind]; rewrite Eu; reflexivity|reflexivity|].
    unfold isPrecedingPrecision. cbn. apply Z.eqb_neq. exact Hp. }
  split.
  - unfold format. cbn [run]. rewrite E, (emitSB_wden _ _ _ Du). reflexivity.
  - intros sb target. unfold formatInto. cbn [run]. rewrite E, (wden_emits _ _ _ target (emits_if sb) Du). reflexivity.
Qed.

