(** Proofs for C16, C17, C22. *)
From Verif Require Import Base Digits UtilsM SeqM ContextM CompilerM FormatterM TraitsM ImplM ConcM.

Lemma set_nth_length {A} (l : list A) n x : (n < List.length l)%nat -> List.length (set_nth l n x) = List.length l.
Proof. intros H. unfold set_nth. rewrite app_length, firstn_length. cbn [List.length]. rewrite skipn_length. lia. Qed.

Lemma get_set_same l n b : (n < List.length l)%nat -> get (set_nth l n b) n = b.
Proof.
  intros H. unfold get, set_nth. rewrite app_nth2; rewrite firstn_length; [|lia].
  replace (n - Nat.min n (List.length l))%nat with O by lia. reflexivity.
Qed.

Lemma get_set_other l n m b : (n < List.length l)%nat -> n <> m -> get (set_nth l n b) m = get l m.
Proof.
  intros H Hm. unfold get, set_nth.
  destruct (Nat.lt_ge_cases m n).
  - rewrite app_nth1 by (rewrite firstn_length; lia).
    rewrite <- (firstn_skipn n l) at 2. rewrite app_nth1 by (rewrite firstn_length; lia). reflexivity.
  - rewrite app_nth2; rewrite firstn_length; [|lia].
    replace (m - Nat.min n (List.length l))%nat with (S (m - S n)) by lia. cbn [nth].
    rewrite <- (firstn_skipn (S n) l) at 2. rewrite app_nth2; rewrite firstn_length; [|lia].
    f_equal. lia.
Qed.

Lemma get_app l b m : (m < List.length l)%nat -> get (l ++ [b]) m = get l m.
Proof. intros H. unfold get. apply app_nth1, H. Qed.

Lemma get_new l b : get (l ++ [b]) (List.length l) = b.
Proof. unfold get. rewrite app_nth2 by lia. rewrite Nat.sub_diag. reflexivity. Qed.

Lemma iter_succ_r {A} (f : A -> A) n x : Nat.iter (S n) f x = Nat.iter n f (f x).
Proof. induction n as [|n IH]; [reflexivity|]. cbn [Nat.iter nat_rect] in *. unfold Nat.iter in *. cbn [nat_rect] in *. rewrite <- IH. reflexivity. Qed.

Section WithJdk.
  Variable J : jdk.
  Variable grow : Z -> Z -> Z.
  Notation step_top := (step_top J grow).
  Notation tstep := (tstep J grow).
  Notation wstep := (wstep J grow).
  Notation wrun := (wrun J grow).

  Lemma emitSB_atoms s sb :
    emitSB s sb = match atoms_of s with Ok l => emitAtoms a_toSB l sb | Err e => (sb, Some e) end.
  Proof. destruct s; reflexivity. Qed.

  Definition text_of (o : outcome) : res (list Z) := match o with (t, None) => Ok t | (_, Some e) => Err e end.

  (** what is left to do of a call, from the content [t] of its builder *)
  Definition remaining (f : frame) (t : list Z) : res (list Z) :=
    text_of match emitAtoms a_toSB (fr_pend f) t with
            | (t', None) => run J emitSB (fr_ds f) (fr_it f) t'
            | o => o
            end.

  Definition good (i : impl) (h : list builder) (f : frame) : Prop :=
    (fr_ref f < List.length h)%nat /\ remaining f (b_text (get h (fr_ref f))) = format J (im_apps i) (fr_args f).

  Record inv (i : impl) (t : tstate) : Prop := mkInv {
    inv_frames : Forall (good i (t_heap t)) (t_stack t);
    inv_nodup : NoDup (map fr_ref (t_stack t));
    inv_slot : forall r, t_slot t = Some r -> (r < List.length (t_heap t))%nat;
    inv_done : Forall (fun x => snd x = format J (im_apps i) (fst x)) (t_done t) }.

  Lemma inv_init i : inv i t_init.
  Proof. constructor; try constructor. discriminate. Qed.

  Lemma inv_finish i t f rest r : inv i t -> t_stack t = f :: rest ->
    r = format J (im_apps i) (fr_args f) -> inv i (finish t f rest r).
  Proof.
    intros [Hf Hn Hs Hd] E Hr. rewrite E in Hf, Hn. inversion Hf; subst. inversion Hn; subst.
    constructor; cbn; auto. apply Forall_app. split; [exact Hd|]. constructor; [reflexivity|constructor].
  Qed.

  Lemma inv_step i t : inv i t -> inv i (tstep i Step t).
  Proof.
    intros H. cbn [ConcM.tstep]. destruct (t_stack t) as [|f rest] eqn:E; [exact H|].
    destruct H as [Hf Hn Hs Hd]. rewrite E in Hf, Hn. inversion Hf as [|? ? [Hr Hg] Hrest]; subst.
    assert (I : inv i t) by (constructor; rewrite ?E; auto).
    unfold ConcM.step_top. unfold remaining in Hg. destruct f as [args ds it pend ref]. cbn [fr_args fr_ds fr_it fr_pend fr_ref] in *.
    destruct pend as [|a more].
    - cbn [emitAtoms] in Hg. destruct ds as [|d ds].
      + apply inv_finish; [exact I|exact E|]. cbn [fr_args]. rewrite <- Hg. reflexivity.
      + cbn [run] in Hg. destruct (appendOne J d it) as [[s it']|e].
        * rewrite emitSB_atoms in Hg. destruct (atoms_of s) as [l|e].
          -- constructor; cbn; auto.
             ++ constructor; [|exact Hrest]. split; [exact Hr|]. unfold remaining. cbn. rewrite <- Hg. cbn.
                destruct (emitAtoms a_toSB l (b_text (get (t_heap t) ref))) as [t' [e|]]; reflexivity.
          -- apply inv_finish; [exact I|exact E|]. cbn [fr_args]. rewrite <- Hg. reflexivity.
        * apply inv_finish; [exact I|exact E|]. cbn [fr_args]. rewrite <- Hg. reflexivity.
    - cbn [emitAtoms] in Hg. destruct (a_toSB a (b_text (get (t_heap t) ref))) as [s|e].
      + inversion Hn as [|? ? Hin Hn']; subst. constructor; cbn.
        * constructor.
          -- split; [rewrite set_nth_length by exact Hr; exact Hr|]. cbn. rewrite get_set_same by exact Hr. exact Hg.
          -- rewrite Forall_forall in Hrest |- *. intros g Hin2. destruct (Hrest g Hin2) as [Hr2 Hg2]. split.
             ++ rewrite set_nth_length by exact Hr. exact Hr2.
             ++ rewrite get_set_other; [exact Hg2|exact Hr|]. intros ->. apply Hin, in_map, Hin2.
        * exact Hn.
        * intros r Er. rewrite set_nth_length by exact Hr. apply Hs, Er.
        * exact Hd.
      + apply inv_finish; [exact I|exact E|]. cbn [fr_args]. rewrite <- Hg. reflexivity.
  Qed.

  Lemma good_app i h b f : good i h f -> good i (h ++ [b]) f.
  Proof. intros [Hr Hg]. split; [rewrite app_length; lia|]. rewrite get_app by exact Hr. exact Hg. Qed.

  Lemma good_new i h r args : (r < List.length h)%nat -> b_text (get h r) = [] ->
    good i h (mkFr args (im_apps i) args [] r).
  Proof. intros H E. split; [exact H|]. cbn. rewrite E. reflexivity. Qed.

  Lemma refs_bounded i h l : Forall (good i h) l -> ~ In (List.length h) (map fr_ref l).
  Proof.
    intros H Hin. apply in_map_iff in Hin as (f & E & Hin). rewrite Forall_forall in H. destruct (H f Hin) as [Hr _]. lia.
  Qed.

  Lemma inv_call i args t : inv i t -> im_cached i = false \/ t_stack t = [] -> inv i (tstep i (Call args) t).
  Proof.
    intros [Hf Hn Hs Hd] Hc. cbn [ConcM.tstep]. unfold acquire.
    destruct (im_cached i) eqn:Ec.
    - destruct Hc as [Hc|Hc]; [discriminate|]. rewrite Hc in *.
      assert (G : forall h r, (r < List.length h)%nat ->
        inv i (let '(h, slot, r) :=
          let b := get h r in
          if (65536 <? b_cap b) && (im_cap i <=? 65536)
          then (h ++ [mkB [] (im_cap i)], Some (List.length h), List.length h)
          else (set_nth h r (mkB [] (fit grow (b_cap b) (im_cap i))), Some r, r) in
          mkT h slot (mkFr args (im_apps i) args [] r :: []) (t_done t))).
      { intros h r Hr. cbn zeta. destruct ((65536 <? b_cap (get h r)) && (im_cap i <=? 65536)).
        - constructor; cbn; auto.
          + constructor; [|constructor]. apply good_new; [rewrite app_length; cbn; lia|]. rewrite get_new. reflexivity.
          + constructor; [intros []|constructor].
          + intros x [= <-]. rewrite app_length. cbn. lia.
        - constructor; cbn; auto.
          + constructor; [|constructor]. apply good_new; [rewrite set_nth_length by exact Hr; exact Hr|].
            rewrite get_set_same by exact Hr. reflexivity.
          + constructor; [intros []|constructor].
          + intros x [= <-]. rewrite set_nth_length by exact Hr. exact Hr. }
      destruct (t_slot t) as [r|].
      + exact (G (t_heap t) r (Hs r eq_refl)).
      + apply (G (t_heap t ++ [mkB [] 16]) (List.length (t_heap t))). rewrite app_length. cbn. lia.
    - constructor; cbn.
      + constructor.
        * apply good_new; [rewrite app_length; cbn; lia|]. rewrite get_new. reflexivity.
        * eapply Forall_impl; [|exact Hf]. intros f. apply good_app.
      + constructor; [|exact Hn]. eapply refs_bounded, Hf.
      + intros r Er. rewrite app_length. specialize (Hs r Er). lia.
      + exact Hd.
  Qed.

  Lemma inv_run i evs : forall w, (forall k, inv i (w k)) ->
    im_cached i = false \/ no_reentry J grow i w evs -> forall k, inv i (wrun i evs w k).
  Proof.
    induction evs as [|[k e] r IH]; intros w Hw Hc; [exact Hw|]. cbn [ConcM.wrun fold_left]. apply IH.
    - intros j. unfold ConcM.wstep. cbn [fst snd]. destruct (Nat.eqb j k) eqn:E; [|apply Hw].
      apply Nat.eqb_eq in E as ->. destruct e as [args|]; [|apply inv_step, Hw].
      apply inv_call; [apply Hw|]. destruct Hc as [Hc|[Hc _]]; auto.
    - destruct Hc as [Hc|[_ Hc]]; auto.
  Qed.

  Lemma all_calls_correct i evs : im_cached i = false \/ no_reentry J grow i w_init evs ->
    forall k args r, In (args, r) (t_done (wrun i evs w_init k)) -> r = format J (im_apps i) args.
  Proof.
    intros H k args r Hin. pose proof (inv_run i evs w_init (fun _ => inv_init i) H k) as [_ _ _ Hd].
    rewrite Forall_forall in Hd. exact (Hd _ Hin).
  Qed.

  (** every call ends after finitely many steps of its thread *)
  Lemma step_finish i t f rest : t_stack t = f :: rest -> exists n, t_stack (Nat.iter n (tstep i Step) t) = rest.
  Proof.
    destruct f as [args ds it pend ref]. revert t it pend. induction ds as [|d ds IH]; intros t it pend.
    - revert t. induction pend as [|a more IHp]; intros t E.
      + exists 1%nat. cbn. rewrite E. reflexivity.
      + destruct (a_toSB a (b_text (get (t_heap t) ref))) as [s|e] eqn:Ea.
        * destruct (IHp (tstep i Step t)) as (n & Hn). { cbn. rewrite E. unfold ConcM.step_top. cbn. rewrite Ea. reflexivity. }
          exists (S n). rewrite iter_succ_r. exact Hn.
        * exists 1%nat. cbn. rewrite E. unfold ConcM.step_top. cbn. rewrite Ea. reflexivity.
    - revert t. induction pend as [|a more IHp]; intros t E.
      + destruct (appendOne J d it) as [[s it']|e] eqn:Ed.
        * destruct (atoms_of s) as [l|e] eqn:El.
          -- destruct (IH (tstep i Step t) it' l) as (n & Hn).
             { cbn. rewrite E. unfold ConcM.step_top. cbn. rewrite Ed, El. reflexivity. }
             exists (S n). rewrite iter_succ_r. exact Hn.
          -- exists 1%nat. cbn. rewrite E. unfold ConcM.step_top. cbn. rewrite Ed, El. reflexivity.
        * exists 1%nat. cbn. rewrite E. unfold ConcM.step_top. cbn. rewrite Ed. reflexivity.
      + destruct (a_toSB a (b_text (get (t_heap t) ref))) as [s|e] eqn:Ea.
        * destruct (IHp (tstep i Step t)) as (n & Hn). { cbn. rewrite E. unfold ConcM.step_top. cbn. rewrite Ea. reflexivity. }
          exists (S n). rewrite iter_succ_r. exact Hn.
        * exists 1%nat. cbn. rewrite E. unfold ConcM.step_top. cbn. rewrite Ea. reflexivity.
  Qed.

  Lemma call_finishes i args t : exists n, t_stack (Nat.iter n (tstep i Step) (tstep i (Call args) t)) = t_stack t.
  Proof.
    cbn [ConcM.tstep]. destruct (acquire grow i (t_heap t) (t_slot t)) as [[h slot] r].
    eapply step_finish. reflexivity.
  Qed.
  (** ** Re-entrant calls *)

  (** what a call leaves in its builder and returns, from the content [t] of the builder *)
  Definition leaves (f : frame) (t : list Z) : outcome :=
    match emitAtoms a_toSB (fr_pend f) t with
    | (t', None) => run J emitSB (fr_ds f) (fr_it f) t'
    | o => o
    end.

  Lemma remaining_leaves f t : remaining f t = text_of (leaves f t). Proof. reflexivity. Qed.

  (** the innermost call run to its end: its result, and what it leaves behind *)
  Record ran (t t' : tstate) (f : frame) (rest : list frame) : Prop := mkRan {
    ran_stack : t_stack t' = rest;
    ran_slot : t_slot t' = t_slot t;
    ran_done : t_done t' = t_done t ++ [(fr_args f, text_of (leaves f (b_text (get (t_heap t) (fr_ref f)))))];
    ran_len : List.length (t_heap t') = List.length (t_heap t);
    ran_text : b_text (get (t_heap t') (fr_ref f)) = fst (leaves f (b_text (get (t_heap t) (fr_ref f))));
    ran_other : forall m, m <> fr_ref f -> get (t_heap t') m = get (t_heap t) m }.

  Lemma ran_now i t f rest r : t_stack t = f :: rest -> step_top t f rest = finish t f rest r ->
    r = text_of (leaves f (b_text (get (t_heap t) (fr_ref f)))) -> fst (leaves f (b_text (get (t_heap t) (fr_ref f)))) = b_text (get (t_heap t) (fr_ref f)) ->
    exists n, ran t (Nat.iter n (tstep i Step) t) f rest.
  Proof.
    intros E H -> Ht. exists 1%nat. cbn. rewrite E, H. constructor; try reflexivity. cbn [finish t_heap]. symmetry. exact Ht.
  Qed.

  Lemma ran_later i t t1 f f1 rest : (fr_ref f < List.length (t_heap t))%nat -> t_stack t = f :: rest -> step_top t f rest = t1 ->
    fr_args f1 = fr_args f -> fr_ref f1 = fr_ref f -> t_slot t1 = t_slot t -> t_done t1 = t_done t -> List.length (t_heap t1) = List.length (t_heap t) ->
    (forall m, m <> fr_ref f -> get (t_heap t1) m = get (t_heap t) m) ->
    leaves f1 (b_text (get (t_heap t1) (fr_ref f))) = leaves f (b_text (get (t_heap t) (fr_ref f))) ->
    (exists n, ran t1 (Nat.iter n (tstep i Step) t1) f1 rest) -> exists n, ran t (Nat.iter n (tstep i Step) t) f rest.
  Proof.
    intros Hr E H Ea Er Es Ed Ll Ho Hl (n & [A1 A2 A3 A4 A5 A6]). exists (S n). rewrite iter_succ_r.
    assert (E1 : tstep i Step t = t1) by (cbn; rewrite E; exact H). rewrite E1. rewrite Er in *. rewrite Hl in *.
    constructor; try congruence.
    intros m Hm. rewrite A6 by exact Hm. apply Ho, Hm.
  Qed.

  Lemma run_to_end i : forall ds pend t args it ref rest, let f := mkFr args ds it pend ref in
    t_stack t = f :: rest -> (ref < List.length (t_heap t))%nat -> exists n, ran t (Nat.iter n (tstep i Step) t) f rest.
  Proof.
    induction ds as [|d ds IH]; intros pend; induction pend as [|a more IHp]; intros t args it ref rest f E Hr; subst f.
    - eapply ran_now; [exact E|reflexivity|reflexivity|reflexivity].
    - destruct (a_toSB a (b_text (get (t_heap t) ref))) as [s|e] eqn:Ea.
      + eapply (ran_later i t _ (mkFr args [] it (a :: more) ref) (mkFr args [] it more ref) rest Hr E); [unfold ConcM.step_top; cbn [fr_pend fr_ref]; rewrite Ea; reflexivity|reflexivity|reflexivity|reflexivity|reflexivity
          |apply set_nth_length, Hr|intros m Hm; cbn [t_heap]; apply get_set_other; [exact Hr|cbn [fr_ref] in Hm; congruence]| |].
        * cbn [t_heap fr_ref]. rewrite get_set_same by exact Hr. unfold leaves. cbn [fr_pend emitAtoms b_text]. rewrite Ea. reflexivity.
        * apply IHp; [reflexivity|]. cbn [t_heap]. rewrite set_nth_length by exact Hr. exact Hr.
      + eapply ran_now; [exact E|unfold ConcM.step_top; cbn [fr_pend fr_ref]; rewrite Ea; reflexivity| |];
          unfold leaves; cbn [fr_pend emitAtoms fr_ref]; rewrite Ea; reflexivity.
    - destruct (appendOne J d it) as [[s it']|e] eqn:Ed.
      + destruct (atoms_of s) as [l|e] eqn:El.
        * eapply (ran_later i t _ (mkFr args (d :: ds) it [] ref) (mkFr args ds it' l ref) rest Hr E); [unfold ConcM.step_top; cbn [fr_pend fr_ref fr_ds fr_it]; rewrite Ed, El; reflexivity|reflexivity|reflexivity|reflexivity|reflexivity
            |reflexivity|reflexivity| |apply IH; [reflexivity|exact Hr]].
          cbn [t_heap fr_ref]. unfold leaves. cbn [fr_pend emitAtoms fr_ds fr_it run]. rewrite Ed, emitSB_atoms, El. reflexivity.
        * eapply ran_now; [exact E|unfold ConcM.step_top; cbn [fr_pend fr_ref fr_ds fr_it]; rewrite Ed, El; reflexivity| |];
            unfold leaves; cbn [fr_pend emitAtoms fr_ds fr_it run fr_ref]; rewrite Ed, emitSB_atoms, El; reflexivity.
      + eapply ran_now; [exact E|unfold ConcM.step_top; cbn [fr_pend fr_ref fr_ds fr_it]; rewrite Ed; reflexivity| |];
          unfold leaves; cbn [fr_pend emitAtoms fr_ds fr_it run fr_ref]; rewrite Ed; reflexivity.
    - destruct (a_toSB a (b_text (get (t_heap t) ref))) as [s|e] eqn:Ea.
      + eapply (ran_later i t _ (mkFr args (d :: ds) it (a :: more) ref) (mkFr args (d :: ds) it more ref) rest Hr E); [unfold ConcM.step_top; cbn [fr_pend fr_ref]; rewrite Ea; reflexivity|reflexivity|reflexivity|reflexivity|reflexivity
          |apply set_nth_length, Hr|intros m Hm; cbn [t_heap]; apply get_set_other; [exact Hr|cbn [fr_ref] in Hm; congruence]| |].
        * cbn [t_heap fr_ref]. rewrite get_set_same by exact Hr. unfold leaves. cbn [fr_pend emitAtoms b_text]. rewrite Ea. reflexivity.
        * apply IHp; [reflexivity|]. cbn [t_heap]. rewrite set_nth_length by exact Hr. exact Hr.
      + eapply ran_now; [exact E|unfold ConcM.step_top; cbn [fr_pend fr_ref]; rewrite Ea; reflexivity| |];
          unfold leaves; cbn [fr_pend emitAtoms fr_ref]; rewrite Ea; reflexivity.
  Qed.

  (** a call made by a call in progress on the builder the ThreadLocal holds *)
  Lemma nested i t f rest r args : im_cached i = true -> t_slot t = Some r -> t_stack t = f :: rest -> fr_ref f = r -> (r < List.length (t_heap t))%nat ->
    let kept := (65536 <? b_cap (get (t_heap t) r)) && (im_cap i <=? 65536) in
    let inner := run J emitSB (im_apps i) args [] in
    exists n m, let t1 := Nat.iter n (tstep i Step) (tstep i (Call args) t) in
      t_stack t1 = f :: rest /\ t_done t1 = t_done t ++ [(args, text_of inner)] /\
      let t2 := Nat.iter m (tstep i Step) t1 in
      t_stack t2 = rest /\
      t_done t2 = t_done t1 ++ [(fr_args f, text_of (leaves f (if kept then b_text (get (t_heap t) r) else fst inner)))].
  Proof.
    intros Hc Hs E Ef Hr kept inner.
    assert (G : forall h r', (r' < List.length h)%nat -> b_text (get h r') = [] -> (fr_ref f < List.length h)%nat ->
      (r' = fr_ref f /\ kept = false \/ r' <> fr_ref f /\ kept = true /\ get h (fr_ref f) = get (t_heap t) r) ->
      forall slot, acquire grow i (t_heap t) (t_slot t) = (h, slot, r') ->
      exists n m, let t1 := Nat.iter n (tstep i Step) (tstep i (Call args) t) in
      t_stack t1 = f :: rest /\ t_done t1 = t_done t ++ [(args, text_of inner)] /\
      let t2 := Nat.iter m (tstep i Step) t1 in
      t_stack t2 = rest /\ t_done t2 = t_done t1 ++ [(fr_args f, text_of (leaves f (if kept then b_text (get (t_heap t) r) else fst inner)))]).
    { intros h r' Hr' Ht Hf K slot Ea. set (t0 := tstep i (Call args) t).
      assert (E0 : t0 = mkT h slot (mkFr args (im_apps i) args [] r' :: f :: rest) (t_done t)) by (unfold t0; cbn [ConcM.tstep]; rewrite Ea, E; reflexivity).
      destruct (run_to_end i (im_apps i) [] t0 args args r' (f :: rest)) as (n & [A1 A2 A3 A4 A5 A6]); [rewrite E0; reflexivity|rewrite E0; exact Hr'|].
      set (t1 := Nat.iter n (tstep i Step) t0) in *. rewrite E0 in A3, A4, A5, A6. cbn [fr_args fr_ref t_heap t_done] in A3, A4, A5, A6.
      assert (L : leaves (mkFr args (im_apps i) args [] r') (b_text (get h r')) = inner) by (rewrite Ht; reflexivity). rewrite L in A3, A5.
      destruct f as [fa fd fi fp fr]. cbn [fr_ref] in *.
      destruct (run_to_end i fd fp t1 fa fi fr rest A1) as (m & [B1 B2 B3 B4 B5 B6]); [rewrite A4; exact Hf|]. exists n, m. fold t1. cbv zeta.
      split; [exact A1|]. split; [exact A3|]. split; [exact B1|]. rewrite B3. cbn [fr_args fr_ref]. do 5 f_equal.
      destruct K as [[-> ->]|(Kr & -> & Kg)]; [exact A5|]. rewrite A6 by congruence. rewrite Kg. reflexivity. }
    unfold kept in *. destruct ((65536 <? b_cap (get (t_heap t) r)) && (im_cap i <=? 65536)) eqn:Ek.
    - apply (G (t_heap t ++ [mkB [] (im_cap i)]) (List.length (t_heap t))) with (slot := Some (List.length (t_heap t))).
      + rewrite app_length. cbn. lia.
      + rewrite get_new. reflexivity.
      + rewrite app_length, Ef. lia.
      + right. rewrite Ef. split; [lia|]. split; [reflexivity|]. apply get_app, Hr.
      + unfold acquire. rewrite Hc, Hs, Ek. reflexivity.
    - apply (G (set_nth (t_heap t) r (mkB [] (fit grow (b_cap (get (t_heap t) r)) (im_cap i)))) r) with (slot := Some r).
      + rewrite set_nth_length by exact Hr. exact Hr.
      + rewrite get_set_same by exact Hr. reflexivity.
      + rewrite set_nth_length by exact Hr. rewrite Ef. exact Hr.
      + left. auto.
      + unfold acquire. rewrite Hc, Hs, Ek. reflexivity.
  Qed.
End WithJdk.

(** ** C17 *)

(** formatters obtained from one another *)
Inductive derived : impl -> impl -> Prop :=
| D_refl i : derived i i
| D_cache i j : derived i j -> derived i (enableThreadLocalCache j)
| D_capacity i j n k : derived i j -> setStringBuilderInitialCapacity j n = Ok k -> derived i k.

Lemma derived_apps i j : derived i j -> im_apps j = im_apps i.
Proof.
  induction 1 as [i|i j H IH|i j n k H IH E]; [reflexivity| |].
  - unfold enableThreadLocalCache. destruct (im_cached j); exact IH.
  - unfold setStringBuilderInitialCapacity in E. destruct (0 <? n); [|discriminate]. injection E as <-.
    destruct (im_cap j =? n); exact IH.
Qed.

Lemma derived_output J grow grow' i j evs evs' : derived i j ->
  im_cached j = false \/ no_reentry J grow j w_init evs ->
  im_cached i = false \/ no_reentry J grow' i w_init evs' ->
  forall k k' args r r', In (args, r) (t_done (wrun J grow j evs w_init k)) ->
    In (args, r') (t_done (wrun J grow' i evs' w_init k')) -> r = r'.
Proof.
  intros D Hj Hi k k' args r r' H H'. rewrite (all_calls_correct J grow j evs Hj k args r H).
  rewrite (all_calls_correct J grow' i evs' Hi k' args r' H'). rewrite (derived_apps _ _ D). reflexivity.
Qed.

Lemma capacity_accepted i n : (exists k, setStringBuilderInitialCapacity i n = Ok k /\ im_cap k = n /\ im_cached k = im_cached i) <-> 0 < n.
Proof.
  unfold setStringBuilderInitialCapacity. destruct (0 <? n) eqn:E.
  - apply Z.ltb_lt in E. split; [auto|]. intros _. destruct (im_cap i =? n) eqn:En.
    + apply Z.eqb_eq in En. exists i. auto.
    + eexists. split; [reflexivity|]. auto.
  - apply Z.ltb_ge in E. split; [intros (k & H & _); discriminate|lia].
Qed.

(** ** C22 *)

Section Lazy.
  Variable act : list Z -> res (list Z).
  Variable n : Z.

  Record linv (w : lworld) : Prop := mkLinv {
    li_mem : forall s, In s (l_mem w) -> buildEagerly act n = Ok s;
    li_pc : forall k s, l_pc w k = AtWrite s -> buildEagerly act n = Ok s;
    li_log : forall k r, In (k, r) (l_log w) -> r = buildEagerly act n }.

  Lemma linv_step w ev : linv w -> linv (lstep act n w ev).
  Proof.
    intros [Hm Hp Hl]. destruct ev as [k o]. unfold lstep.
    assert (Hset : forall p, (forall s, p = AtWrite s -> buildEagerly act n = Ok s) ->
      forall j s, set_pc (l_pc w) k p j = AtWrite s -> buildEagerly act n = Ok s).
    { intros p Hpp j s. unfold set_pc. destruct (Nat.eqb j k); [apply Hpp|apply Hp]. }
    assert (Hlog : forall r, r = buildEagerly act n -> forall j x, In (j, x) (l_log w ++ [(k, r)]) -> x = buildEagerly act n).
    { intros r -> j x Hin. apply in_app_or in Hin as [Hin|[[= <- <-]|[]]]; [exact (Hl j x Hin)|reflexivity]. }
    destruct (l_pc w k) as [| |s] eqn:Ek.
    - destruct (match o with Some j => nth_error (l_mem w) j | None => None end) as [s|] eqn:E.
      + constructor; cbn; auto. apply Hlog. symmetry. destruct o as [j|]; [|discriminate]. apply Hm, (nth_error_In _ _ E).
      + constructor; cbn; auto. apply Hset. discriminate.
    - destruct (buildEagerly act n) as [s|e] eqn:E.
      + constructor; cbn; rewrite E; auto. apply Hset. intros s' [= <-]. reflexivity.
      + constructor; cbn; rewrite E; auto; [apply Hset; discriminate|]. exact (Hlog _ eq_refl).
    - constructor; cbn; auto.
      + intros x Hin. apply in_app_or in Hin as [Hin|[<-|[]]]; [auto|]. apply (Hp k s Ek).
      + apply Hset. discriminate.
      + apply Hlog. symmetry. apply (Hp k s Ek).
  Qed.

  Lemma lazy_reads evs : forall k r, In (k, r) (l_log (lrun act n evs)) -> r = getCachedString act n.
  Proof.
    unfold lrun, getCachedString. assert (G : forall w, linv w -> linv (fold_left (lstep act n) evs w)).
    { induction evs as [|e r IH]; intros w Hw; [exact Hw|]. apply IH, linv_step, Hw. }
    apply li_log, G. constructor; cbn; try discriminate; contradiction.
  Qed.
End Lazy.
