(** Proofs for C02 (whole API call), C61 and C62. *)
From Verif Require Import Base Digits UtilsM SeqM SeqSpec SeqP ContextM CompilerM GrammarSpec CompilerP CompilerP2 IntFormM FormatterM
  MathM DecimalM BigDecM TraitsM ImplM FmtSpec FmtP DirSpec ConcM ConcP IntP LoopSpec LoopP.

(** ** Whole compile call *)

Lemma impl_compile_cases dtf s : 0 <= zlen s ->
  impl_compile dtf s =
    match compile dtf s with
    | Ok ds => if zlen s <=? 1431655765 then Ok (mkImpl ds (Z.max (zlen s) 11 + Z.max (zlen s) 11 / 2) false) else Err (OtherExn 1)
    | Err e => Err e
    end.
Proof.
  intros Hn. unfold impl_compile. destruct (compile dtf s) as [ds|e]; cbn [bind]; [|reflexivity].
  replace (Z.max (zlen s) 11 + Z.max (zlen s) 11 / 2 <=? int_max) with (zlen s <=? 1431655765); [reflexivity|].
  change int_max with 2147483647.
  destruct (zlen s <=? 1431655765) eqn:E; symmetry; [apply Z.leb_le in E; apply Z.leb_le|apply Z.leb_gt in E; apply Z.leb_gt].
  - assert (Z.max (zlen s) 11 / 2 <= 1431655765 / 2) by (apply Z.div_le_mono; lia). change (1431655765 / 2) with 715827882 in *. lia.
  - assert (1431655766 / 2 <= Z.max (zlen s) 11 / 2) by (apply Z.div_le_mono; lia). change (1431655766 / 2) with 715827883 in *. lia.
Qed.

(** ** %n and %5% *)

Lemma n_prints J src q x : directive src Sn q -> prints J src [x] [].
Proof.
  intros Hd. apply (prints_one J src Sn q _ _ Hd). intros c _ _. exists emptyS. split; [reflexivity|apply emptyS_den].
Qed.

Lemma pct_prints J src q x : directive src Spct q -> prints J src [x] (txt "%").
Proof.
  intros Hd. apply (prints_one J src Spct q _ _ Hd). intros c _ _. exists (chS (ch "%")). split; [reflexivity|apply chS_den].
Qed.

Lemma none_rejects J src s q : directive src s q -> rejects J src [] (Printf MissingArg).
Proof.
  intros Hd dtf. destruct (directive_compile dtf src s q Hd) as (c & Ec & _ & _ & A & B & _). eexists. split; [exact Ec|].
  assert (R : resolveCtx c [] = Ok (c, [])) by (unfold resolveCtx; rewrite A; cbn [bind]; rewrite B; reflexivity).
  split.
  - unfold format. cbn [run appendOne]. rewrite R. reflexivity.
  - intros sb target. unfold formatInto. cbn [run appendOne]. rewrite R. reflexivity.
Qed.

(** ** Capacity of the cached builder *)

Lemma In_firstn {A} (x : A) n l : In x (firstn n l) -> In x l.
Proof. intros H. rewrite <- (firstn_skipn n l). apply in_or_app. left. exact H. Qed.
Lemma In_skipn {A} (x : A) n l : In x (skipn n l) -> In x l.
Proof. intros H. rewrite <- (firstn_skipn n l). apply in_or_app. right. exact H. Qed.

Section Capacity.
  Variable J : jdk.
  Variable grow : Z -> Z -> Z.
  Variable i : impl.
  Hypothesis Hgrow : forall cap n, cap < n -> n <= grow cap n <= Z.max n (2 * cap + 2).

  Let fit := ConcM.fit grow.

  Lemma fit_ge cap n : cap <= fit cap n /\ n <= fit cap n.
  Proof. unfold fit, ConcM.fit. destruct (n <=? cap) eqn:E; [apply Z.leb_le in E; lia|apply Z.leb_gt in E]. pose proof (Hgrow cap n E). lia. Qed.

  Definition roomy (b : builder) : Prop := im_cap i <= b_cap b.
  Definition good (t : tstate) : Prop :=
    Forall roomy (t_heap t) /\
    (forall r, t_slot t = Some r -> (r < List.length (t_heap t))%nat) /\
    Forall (fun f => (fr_ref f < List.length (t_heap t))%nat) (t_stack t).

  Lemma roomy_set l n b : Forall roomy l -> roomy b -> Forall roomy (set_nth l n b).
  Proof.
    intros H Hb. unfold set_nth. apply Forall_app. split; [apply Forall_forall; intros y Hy; apply (proj1 (Forall_forall _ _) H); revert Hy; apply In_firstn|].
    constructor; [exact Hb|]. apply Forall_forall. intros y Hy. apply (proj1 (Forall_forall _ _) H). revert Hy. apply In_skipn.
  Qed.

  Lemma get_roomy l n : Forall roomy l -> (n < List.length l)%nat -> roomy (get l n).
  Proof. intros H Hn. apply (proj1 (Forall_forall _ _) H). apply nth_In. exact Hn. Qed.

  (** what a call starts with *)
  Lemma acquire_good t h slot r : good t -> acquire grow i (t_heap t) (t_slot t) = (h, slot, r) ->
    Forall roomy h /\ (forall r', slot = Some r' -> (r' < List.length h)%nat) /\ (r < List.length h)%nat /\
    (List.length (t_heap t) <= List.length h)%nat /\
    b_text (get h r) = [] /\ (im_cap i <= 65536 -> b_cap (get h r) <= 65536) /\
    (im_cached i = false -> b_cap (get h r) = im_cap i).
  Proof.
    intros (Hh & Hs & _) E. unfold acquire in E. destruct (im_cached i) eqn:Ec.
    - destruct (t_slot t) as [r0|] eqn:Es.
      + specialize (Hs r0 eq_refl). pose proof (get_roomy _ _ Hh Hs) as Hr. unfold roomy in Hr.
        destruct ((65536 <? b_cap (get (t_heap t) r0)) && (im_cap i <=? 65536)) eqn:T.
        * inversion E; subst. rewrite app_length; cbn [List.length]. rewrite get_new. cbn [b_text b_cap].
          split; [apply Forall_app; split; [exact Hh|]; constructor; [unfold roomy; cbn; lia|constructor]|].
          split; [intros r' X; injection X as <-; lia|]. split; [lia|]. split; [lia|]. split; [reflexivity|]. split; [lia|discriminate].
        * inversion E; subst. rewrite set_nth_length by exact Hs. rewrite get_set_same by exact Hs. cbn [b_text b_cap].
          assert (F : fit (b_cap (get (t_heap t) r)) (im_cap i) = b_cap (get (t_heap t) r)).
          { unfold fit, ConcM.fit. rewrite (proj2 (Z.leb_le _ _) Hr). reflexivity. }
          fold fit. rewrite F.
          split; [apply roomy_set; [exact Hh|exact Hr]|].
          split; [intros r' X; injection X as <-; lia|]. split; [lia|]. split; [lia|]. split; [reflexivity|]. split; [|discriminate].
          intros Hc. apply andb_false_iff in T as [T|T]; [apply Z.ltb_ge in T; exact T|apply Z.leb_gt in T; lia].
      + cbn [fst snd] in E. rewrite get_new in E. cbn [b_cap b_text] in E. change ((65536 <? 16)) with false in E. cbn [andb] in E.
        inversion E; subst.
        assert (L : (List.length (t_heap t) < List.length (t_heap t ++ [mkB [] 16]))%nat) by (rewrite app_length; cbn; lia).
        rewrite set_nth_length by exact L. rewrite get_set_same by exact L. cbn [b_text b_cap]. fold fit.
        pose proof (fit_ge 16 (im_cap i)) as G.
        split.
        { unfold set_nth. rewrite firstn_app, Nat.sub_diag, firstn_all. cbn [firstn]. rewrite app_nil_r.
          apply Forall_app. split; [exact Hh|]. constructor; [unfold roomy; cbn [b_cap]; lia|].
          rewrite skipn_all2 by (rewrite app_length; cbn; lia). constructor. }
        split; [intros r' X; injection X as <-; exact L|]. split; [exact L|]. split; [lia|]. split; [reflexivity|]. split; [|discriminate].
        intros Hc. unfold fit, ConcM.fit. destruct (im_cap i <=? 16) eqn:E16; [lia|]. apply Z.leb_gt in E16. pose proof (Hgrow 16 (im_cap i) E16). lia.
    - inversion E; subst. rewrite app_length; cbn [List.length]. rewrite get_new. cbn [b_text b_cap].
      split; [apply Forall_app; split; [exact Hh|]; constructor; [unfold roomy; cbn; lia|constructor]|].
      split; [intros r' X; specialize (Hs r' X); lia|]. split; [lia|]. split; [lia|]. split; [reflexivity|]. split; [lia|reflexivity].
  Qed.

  Lemma tstep_good e t : good t -> good (tstep J grow i e t).
  Proof.
    intros Hg. pose proof Hg as (Hh & Hs & Hf). destruct e as [args|]; cbn [tstep].
    - destruct (acquire grow i (t_heap t) (t_slot t)) as [[h slot] r] eqn:E.
      destruct (acquire_good t h slot r Hg E) as (A & B & C & D & _). split; [exact A|]. split; [exact B|]. cbn [t_stack t_heap].
      constructor; [exact C|]. eapply Forall_impl; [|exact Hf]. cbn. intros f X. lia.
    - destruct (t_stack t) as [|f rest] eqn:Est; [unfold good; rewrite Est; auto|].
      inversion Hf as [|? ? Hr Hrest]; subst.
      assert (Fin : forall r, good (finish t f rest r)) by (intros r; split; [exact Hh|]; split; [exact Hs|exact Hrest]).
      unfold step_top. destruct (fr_pend f) as [|a more].
      + destruct (fr_ds f) as [|d ds]; [apply Fin|]. destruct (appendOne J d (fr_it f)) as [[s it']|e]; [|apply Fin].
        destruct (atoms_of s) as [atoms|e]; [|apply Fin]. split; [exact Hh|]. split; [exact Hs|]. cbn. constructor; assumption.
      + destruct (a_toSB a (b_text (get (t_heap t) (fr_ref f)))) as [s|e]; [|apply Fin].
        unfold good. cbn [t_heap t_slot t_stack]. rewrite set_nth_length by exact Hr.
        split; [|split; [exact Hs|constructor; assumption]].
        apply roomy_set; [exact Hh|]. unfold roomy; cbn [b_cap]. pose proof (get_roomy _ _ Hh Hr) as G. unfold roomy in G.
        pose proof (fit_ge (b_cap (get (t_heap t) (fr_ref f))) (zlen s)) as G2. unfold fit in G2. lia.
  Qed.

  Lemma wrun_good evs w : (forall k, good (w k)) -> forall k, good (wrun J grow i evs w k).
  Proof.
    revert w. induction evs as [|[k0 e] evs IH]; intros w Hw k; [apply Hw|]. cbn [wrun fold_left]. apply IH.
    intros j. unfold wstep. cbn [fst snd]. destruct (Nat.eqb j k0); [apply tstep_good|]; apply Hw.
  Qed.

  Lemma call_builder evs k h slot r :
    acquire grow i (t_heap (wrun J grow i evs w_init k)) (t_slot (wrun J grow i evs w_init k)) = (h, slot, r) ->
    b_text (get h r) = [] /\ im_cap i <= b_cap (get h r) /\ (im_cap i <= 65536 -> b_cap (get h r) <= 65536) /\
    (im_cached i = false -> b_cap (get h r) = im_cap i).
  Proof.
    intros E.
    assert (G : good (wrun J grow i evs w_init k)).
    { apply wrun_good. intros j. split; [constructor|]. split; [discriminate|constructor]. }
    destruct (acquire_good _ _ _ _ G E) as (A & B & C & D & F & U & V). pose proof (get_roomy _ _ A C). auto.
  Qed.
End Capacity.

(** %n followed by anything *)
Lemma n_skips J src q rest es dtf : directive src Sn q -> compile dtf rest = Ok es ->
  exists ds, compile dtf (src ++ rest) = Ok ds /\
    forall x args, format J ds (x :: args) = format J es args /\
      forall sb target, formatInto J sb ds (x :: args) target = formatInto J sb es args target.
Proof.
  intros Hd He. remember Sn as s eqn:Es. destruct Hd as [F fl W w P p c s HF HW Hw HP Hp Hc Hpct].
  assert (G : GrammarSpec.format dtf (pct :: F ++ W ++ P ++ c :: [] ++ rest) (Default s (mkCtx fl w p None) :: es)).
  { apply fmt_dir; try assumption; [|apply compile_iff; exact He]. subst s. apply D_other; discriminate. }
  exists (Default s (mkCtx fl w p None) :: es). split.
  { apply compile_iff. cbn [app] in *. rewrite <- !app_assoc. exact G. }
  intros x args. subst s.
  assert (R : resolveCtx (mkCtx fl w p None) (x :: args) = Ok (mkCtx fl w p None, x :: args)).
  { apply resolve_plain; apply Z.eqb_neq; assumption. }
  split.
  - unfold format. cbn [run appendOne]. rewrite R. cbn [bind formatterFor]. reflexivity.
  - intros sb target. unfold formatInto. cbn [run appendOne]. rewrite R. cbn [bind formatterFor]. destruct sb; reflexivity.
Qed.
