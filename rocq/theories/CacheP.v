(** Proofs for C107. *)
From Verif Require Import Base Digits UtilsM SeqM ContextM CompilerM FormatterM TraitsM ImplM ConcM ConcP CacheM.
From Verif Require PropsApi.

Section WithJdk.
  Variable J : jdk.
  Variable grow : Z -> Z -> Z.
  Notation step_top' := (step_top' J grow).
  Notation tstep' := (tstep' J grow).
  Notation wstep' := (wstep' J grow).
  Notation wrun' := (wrun' J grow).

  Record inv' (i : impl) (t : tstate) : Prop := mkInv' {
    v_frames : Forall (good J i (t_heap t)) (t_stack t);
    v_nodup : NoDup (map fr_ref (t_stack t));
    v_slot : forall r, t_slot t = Some r -> (r < List.length (t_heap t))%nat /\ ~ In r (map fr_ref (t_stack t));
    v_size : forall r, t_slot t = Some r -> b_cap (get (t_heap t) r) <= 65536 \/ 65536 < im_cap i;
    v_done : Forall (fun x => snd x = format J (im_apps i) (fst x)) (t_done t) }.

  Lemma inv'_init i : inv' i t_init.
  Proof. constructor; try constructor; discriminate. Qed.

  Lemma release_cases i h slot r : release i h slot r = Some r /\ (b_cap (get h r) <= 65536 \/ 65536 < im_cap i) \/ release i h slot r = slot.
  Proof.
    unfold release. destruct (im_cached i); cbn [andb]; [|right; reflexivity].
    destruct (Z.leb_spec (b_cap (get h r)) 65536); cbn [orb]; [left; split; [reflexivity|left; assumption]|].
    destruct (Z.ltb_spec 65536 (im_cap i)); [left; split; [reflexivity|right; assumption]|right; reflexivity].
  Qed.

  Lemma inv'_finish i t f rest r : inv' i t -> t_stack t = f :: rest ->
    r = format J (im_apps i) (fr_args f) -> inv' i (finish' i t f rest r).
  Proof.
    intros [Hf Hn Hs Hz Hd] E Hr. rewrite E in Hf, Hn, Hs. inversion Hf as [|? ? [Hb Hg] Hrest]; subst. inversion Hn as [|? ? Hin Hn']; subst.
    constructor; cbn [finish' t_heap t_slot t_stack t_done]; auto.
    - intros r Er. destruct (release_cases i (t_heap t) (t_slot t) (fr_ref f)) as [[R _]|R]; rewrite R in Er.
      + injection Er as <-. split; [exact Hb|exact Hin].
      + destruct (Hs r Er) as [A B]. split; [exact A|]. intros C. apply B. right. exact C.
    - intros r Er. destruct (release_cases i (t_heap t) (t_slot t) (fr_ref f)) as [[R S]|R]; rewrite R in Er.
      + injection Er as <-. exact S.
      + exact (Hz r Er).
    - apply Forall_app. split; [exact Hd|]. constructor; [reflexivity|constructor].
  Qed.

  Lemma inv'_step i t : inv' i t -> inv' i (tstep' i Step t).
  Proof.
    intros I. cbn [CacheM.tstep']. destruct (t_stack t) as [|f rest] eqn:E; [exact I|].
    pose proof I as [Hf Hn Hs Hz Hd]. rewrite E in Hf, Hn, Hs. inversion Hf as [|? ? [Hr Hg] Hrest]; subst.
    unfold CacheM.step_top'. unfold remaining in Hg. destruct f as [args ds it pend ref]. cbn [fr_args fr_ds fr_it fr_pend fr_ref] in *.
    destruct pend as [|a more].
    - cbn [emitAtoms] in Hg. destruct ds as [|d ds].
      + apply inv'_finish; [exact I|exact E|]. cbn [fr_args]. rewrite <- Hg. reflexivity.
      + cbn [run] in Hg. destruct (appendOne J d it) as [[s it']|e].
        * rewrite emitSB_atoms in Hg. destruct (atoms_of s) as [l|e].
          -- constructor; cbn; auto.
             constructor; [|exact Hrest]. split; [exact Hr|]. unfold remaining. cbn. rewrite <- Hg. cbn.
             destruct (emitAtoms a_toSB l (b_text (get (t_heap t) ref))) as [t' [e|]]; reflexivity.
          -- apply inv'_finish; [exact I|exact E|]. cbn [fr_args]. rewrite <- Hg. reflexivity.
        * apply inv'_finish; [exact I|exact E|]. cbn [fr_args]. rewrite <- Hg. reflexivity.
    - cbn [emitAtoms] in Hg. destruct (a_toSB a (b_text (get (t_heap t) ref))) as [s|e].
      + inversion Hn as [|? ? Hin Hn']; subst. constructor; cbn [t_heap t_slot t_stack t_done map fr_ref].
        * constructor.
          -- split; [rewrite set_nth_length by exact Hr; exact Hr|]. cbn. rewrite get_set_same by exact Hr. exact Hg.
          -- rewrite Forall_forall in Hrest |- *. intros g Hin2. destruct (Hrest g Hin2) as [Hr2 Hg2]. split.
             ++ rewrite set_nth_length by exact Hr. exact Hr2.
             ++ rewrite get_set_other; [exact Hg2|exact Hr|]. intros ->. apply Hin, in_map, Hin2.
        * exact Hn.
        * intros r Er. rewrite set_nth_length by exact Hr. apply Hs, Er.
        * intros r Er. destruct (Hs r Er) as [_ B]. rewrite get_set_other; [apply Hz, Er|exact Hr|]. intros ->. apply B. left. reflexivity.
        * exact Hd.
      + apply inv'_finish; [exact I|exact E|]. cbn [fr_args]. rewrite <- Hg. reflexivity.
  Qed.

  (** a call starts on a builder nobody else uses *)
  Lemma inv'_call i args t : inv' i t -> inv' i (tstep' i (Call args) t).
  Proof.
    intros [Hf Hn Hs Hz Hd]. cbn [CacheM.tstep']. unfold acquire'.
    assert (New : forall slot, (forall r, slot = Some r -> t_slot t = Some r) ->
      inv' i (mkT (t_heap t ++ [mkB [] (im_cap i)]) slot (mkFr args (im_apps i) args [] (List.length (t_heap t)) :: t_stack t) (t_done t))).
    { intros slot Hslot. constructor; cbn [t_heap t_slot t_stack t_done map fr_ref].
      - constructor.
        + apply good_new; [rewrite app_length; cbn; lia|]. rewrite get_new. reflexivity.
        + eapply Forall_impl; [|exact Hf]. intros f. apply good_app.
      - constructor; [|exact Hn]. eapply refs_bounded, Hf.
      - intros r Er. destruct (Hs r (Hslot r Er)) as [A B]. split; [rewrite app_length; lia|]. intros [C|C]; [lia|exact (B C)].
      - intros r Er. destruct (Hs r (Hslot r Er)) as [A B]. rewrite get_app by exact A. apply Hz, Hslot, Er.
      - exact Hd. }
    destruct (im_cached i); [|apply New; auto]. destruct (t_slot t) as [r|] eqn:Es; [|apply New; discriminate].
    destruct (Hs r eq_refl) as [A B]. constructor; cbn [t_heap t_slot t_stack t_done map fr_ref].
    - constructor.
      + apply good_new; [rewrite set_nth_length by exact A; exact A|]. rewrite get_set_same by exact A. reflexivity.
      + rewrite Forall_forall in Hf |- *. intros g Hg. destruct (Hf g Hg) as [G1 G2]. split; [rewrite set_nth_length by exact A; exact G1|].
        rewrite get_set_other; [exact G2|exact A|]. intros ->. apply B, in_map, Hg.
    - constructor; [exact B|exact Hn].
    - discriminate.
    - discriminate.
    - exact Hd.
  Qed.

  Lemma inv'_run i evs : forall w, (forall k, inv' i (w k)) -> forall k, inv' i (wrun' i evs w k).
  Proof.
    induction evs as [|[k e] r IH]; intros w Hw; [exact Hw|]. cbn [CacheM.wrun' fold_left]. apply IH.
    intros j. unfold CacheM.wstep'. cbn [fst snd]. destruct (Nat.eqb j k) eqn:E; [|apply Hw].
    apply Nat.eqb_eq in E as ->. destruct e as [args|]; [apply inv'_call|apply inv'_step]; apply Hw.
  Qed.
  Lemma inv'_reached i evs k : inv' i (wrun' i evs w_init k).
  Proof. apply inv'_run. intros j. apply inv'_init. Qed.

  Lemma calls_correct' i evs k args r : In (args, r) (t_done (wrun' i evs w_init k)) -> r = format J (im_apps i) args.
  Proof. intros Hin. pose proof (v_done _ _ (inv'_reached i evs k)) as Hd. rewrite Forall_forall in Hd. exact (Hd _ Hin). Qed.

  Lemma step_finish' i t f rest : t_stack t = f :: rest -> exists n, t_stack (Nat.iter n (tstep' i Step) t) = rest.
  Proof.
    destruct f as [args ds it pend ref]. revert t it pend. induction ds as [|d ds IH]; intros t it pend.
    - revert t. induction pend as [|a more IHp]; intros t E.
      + exists 1%nat. cbn. rewrite E. reflexivity.
      + destruct (a_toSB a (b_text (get (t_heap t) ref))) as [s|e] eqn:Ea.
        * destruct (IHp (tstep' i Step t)) as (n & Hn). { cbn. rewrite E. unfold CacheM.step_top'. cbn. rewrite Ea. reflexivity. }
          exists (S n). rewrite iter_succ_r. exact Hn.
        * exists 1%nat. cbn. rewrite E. unfold CacheM.step_top'. cbn. rewrite Ea. reflexivity.
    - revert t. induction pend as [|a more IHp]; intros t E.
      + destruct (appendOne J d it) as [[s it']|e] eqn:Ed.
        * destruct (atoms_of s) as [l|e] eqn:El.
          -- destruct (IH (tstep' i Step t) it' l) as (n & Hn).
             { cbn. rewrite E. unfold CacheM.step_top'. cbn. rewrite Ed, El. reflexivity. }
             exists (S n). rewrite iter_succ_r. exact Hn.
          -- exists 1%nat. cbn. rewrite E. unfold CacheM.step_top'. cbn. rewrite Ed, El. reflexivity.
        * exists 1%nat. cbn. rewrite E. unfold CacheM.step_top'. cbn. rewrite Ed. reflexivity.
      + destruct (a_toSB a (b_text (get (t_heap t) ref))) as [s|e] eqn:Ea.
        * destruct (IHp (tstep' i Step t)) as (n & Hn). { cbn. rewrite E. unfold CacheM.step_top'. cbn. rewrite Ea. reflexivity. }
          exists (S n). rewrite iter_succ_r. exact Hn.
        * exists 1%nat. cbn. rewrite E. unfold CacheM.step_top'. cbn. rewrite Ea. reflexivity.
  Qed.

  Lemma call_finishes' i args t : exists n, t_stack (Nat.iter n (tstep' i Step) (tstep' i (Call args) t)) = t_stack t.
  Proof.
    cbn [CacheM.tstep']. destruct (acquire' grow i (t_heap t) (t_slot t)) as [[h slot] r].
    eapply step_finish'. reflexivity.
  Qed.

  (** ** Builders *)

  Lemma fit_grows cap n : PropsApi.doubling grow -> cap <= fit grow cap n /\ n <= fit grow cap n.
  Proof. intros H. unfold fit. destruct (Z.leb_spec n cap); [lia|]. specialize (H cap n ltac:(lia)). lia. Qed.

  (** every builder has at least the configured capacity *)
  Definition roomy (i : impl) (t : tstate) : Prop := forall r, (r < List.length (t_heap t))%nat -> im_cap i <= b_cap (get (t_heap t) r).
  Lemma roomy_set i h r b : (r < List.length h)%nat -> (forall q, (q < List.length h)%nat -> im_cap i <= b_cap (get h q)) -> im_cap i <= b_cap b ->
    forall q, (q < List.length (set_nth h r b))%nat -> im_cap i <= b_cap (get (set_nth h r b) q).
  Proof.
    intros Hr H Hb q Hq. rewrite set_nth_length in Hq by exact Hr. destruct (Nat.eq_dec r q) as [->|N].
    - rewrite get_set_same by exact Hq. exact Hb.
    - rewrite get_set_other by assumption. apply H, Hq.
  Qed.
  Lemma roomy_step i e t : PropsApi.doubling grow -> inv' i t -> roomy i t -> roomy i (tstep' i e t).
  Proof.
    intros Hg [Hf Hn Hs Hz Hd] H. destruct e as [args|]; cbn [CacheM.tstep'].
    - unfold acquire'.
      assert (New : forall slot stack dn, roomy i (mkT (t_heap t ++ [mkB [] (im_cap i)]) slot stack dn)).
      { intros slot stack dn q Hq. cbn [t_heap] in *. rewrite app_length in Hq. cbn [List.length] in Hq.
        destruct (Nat.eq_dec q (List.length (t_heap t))) as [->|N]; [rewrite get_new; cbn; lia|]. rewrite get_app by lia. apply H. lia. }
      destruct (im_cached i); [|apply New]. destruct (t_slot t) as [r|] eqn:Es; [|apply New].
      destruct (Hs r eq_refl) as [A B]. intros q. cbn [t_heap]. apply roomy_set; [exact A|exact H|]. cbn [b_cap]. apply (fit_grows _ _ Hg).
    - destruct (t_stack t) as [|f rest] eqn:E; [exact H|]. inversion Hf as [|? ? [Hr _] Hrest]; subst. unfold CacheM.step_top'.
      destruct (fr_pend f) as [|a more].
      + destruct (fr_ds f) as [|d ds]; [exact H|]. destruct (appendOne J d (fr_it f)) as [[s it']|e]; [|exact H]. destruct (atoms_of s); exact H.
      + destruct (a_toSB a (b_text (get (t_heap t) (fr_ref f)))) as [s|e]; [|exact H]. intros q. cbn [t_heap]. apply roomy_set; [exact Hr|exact H|]. cbn [b_cap].
        pose proof (H _ Hr). pose proof (fit_grows (b_cap (get (t_heap t) (fr_ref f))) (zlen s) Hg). lia.
  Qed.
  Lemma roomy_run i evs : PropsApi.doubling grow -> forall w, (forall k, inv' i (w k) /\ roomy i (w k)) -> forall k, roomy i (wrun' i evs w k).
  Proof.
    intros Hg. induction evs as [|[k e] r IH]; intros w Hw; [intros j; apply Hw|]. cbn [CacheM.wrun' fold_left]. apply IH.
    intros j. unfold CacheM.wstep'. cbn [fst snd]. destruct (Nat.eqb j k) eqn:E; [|apply Hw].
    destruct (Hw j) as [I R]. split; [|apply roomy_step; assumption]. destruct e as [args|]; [apply inv'_call|apply inv'_step]; exact I.
  Qed.
  Lemma roomy_reached i evs k : PropsApi.doubling grow -> roomy i (wrun' i evs w_init k).
  Proof. intros Hg. apply roomy_run; [exact Hg|]. intros j. split; [apply inv'_init|]. intros q Hq. cbn in Hq. lia. Qed.

  Lemma new_builder i evs k args : PropsApi.doubling grow ->
    let t := wrun' i evs w_init k in let t' := tstep' i (Call args) t in
    exists f, t_stack t' = f :: t_stack t /\ fr_args f = args /\ ~ In (fr_ref f) (map fr_ref (t_stack t)) /\
      b_text (get (t_heap t') (fr_ref f)) = [] /\ im_cap i <= b_cap (get (t_heap t') (fr_ref f)) /\
      (im_cap i <= 65536 -> b_cap (get (t_heap t') (fr_ref f)) <= 65536) /\
      (t_slot t = None \/ im_cached i = false -> b_cap (get (t_heap t') (fr_ref f)) = im_cap i).
  Proof.
    intros Hg t t'. pose proof (inv'_reached i evs k) as [Hf Hn Hs Hz Hd]. pose proof (roomy_reached i evs k Hg) as Ro. fold t in Hf, Hn, Hs, Hz, Hd, Ro.
    unfold t'. clear t'. clearbody t. cbn [CacheM.tstep']. unfold acquire'.
    assert (New : forall slot, let t' := mkT (t_heap t ++ [mkB [] (im_cap i)]) slot (mkFr args (im_apps i) args [] (List.length (t_heap t)) :: t_stack t) (t_done t) in
      exists f, t_stack t' = f :: t_stack t /\ fr_args f = args /\ ~ In (fr_ref f) (map fr_ref (t_stack t)) /\
      b_text (get (t_heap t') (fr_ref f)) = [] /\ im_cap i <= b_cap (get (t_heap t') (fr_ref f)) /\
      (im_cap i <= 65536 -> b_cap (get (t_heap t') (fr_ref f)) <= 65536) /\
      (t_slot t = None \/ im_cached i = false -> b_cap (get (t_heap t') (fr_ref f)) = im_cap i)).
    { intros slot t'. exists (mkFr args (im_apps i) args [] (List.length (t_heap t))). cbn [t' t_stack t_heap fr_args fr_ref]. rewrite get_new. cbn [b_text b_cap].
      repeat split; try lia; try reflexivity. eapply refs_bounded, Hf. }
    destruct (im_cached i) eqn:Ec; [|apply New]. destruct (t_slot t) as [r|] eqn:Es; [|apply New].
    destruct (Hs r eq_refl) as [A B]. exists (mkFr args (im_apps i) args [] r). cbn [t_stack t_heap fr_args fr_ref]. rewrite get_set_same by exact A. cbn [b_text b_cap].
    assert (F : fit grow (b_cap (get (t_heap t) r)) (im_cap i) = b_cap (get (t_heap t) r)) by (unfold fit; rewrite (proj2 (Z.leb_le _ _) (Ro r A)); reflexivity).
    rewrite F. pose proof (Ro r A). pose proof (Hz r eq_refl).
    split; [reflexivity|]. split; [reflexivity|]. split; [exact B|]. split; [reflexivity|]. split; [lia|]. split; [lia|].
    intros [C|C]; discriminate.
  Qed.

  (** the builder of a call that ends goes back, unless it is too large *)
  Lemma goes_back i t f rest : t_stack t = f :: rest -> t_stack (tstep' i Step t) = rest -> im_cached i = true ->
    b_cap (get (t_heap t) (fr_ref f)) <= 65536 \/ 65536 < im_cap i -> t_slot (tstep' i Step t) = Some (fr_ref f).
  Proof.
    intros E Hr Hc Hz. cbn [CacheM.tstep'] in *. rewrite E in *. unfold CacheM.step_top' in *.
    assert (R : release i (t_heap t) (t_slot t) (fr_ref f) = Some (fr_ref f)).
    { unfold release. rewrite Hc. cbn [andb]. destruct (Z.leb_spec (b_cap (get (t_heap t) (fr_ref f))) 65536); [reflexivity|].
      destruct (Z.ltb_spec 65536 (im_cap i)); [reflexivity|lia]. }
    assert (N : forall g, g :: rest <> rest) by (intros g X; apply (f_equal (@List.length frame)) in X; cbn in X; lia).
    destruct (fr_pend f) as [|a more].
    - destruct (fr_ds f) as [|d ds]; [exact R|]. destruct (appendOne J d (fr_it f)) as [[s it']|e]; [|exact R].
      destruct (atoms_of s); [cbn in Hr; exfalso; exact (N _ Hr)|exact R].
    - destruct (a_toSB a _); [cbn in Hr; exfalso; exact (N _ Hr)|exact R].
  Qed.
  Lemma is_reused i t r args : im_cached i = true -> t_slot t = Some r -> (r < List.length (t_heap t))%nat ->
    exists f, t_stack (tstep' i (Call args) t) = f :: t_stack t /\ fr_ref f = r /\ List.length (t_heap (tstep' i (Call args) t)) = List.length (t_heap t).
  Proof.
    intros Hc Hs A. cbn [CacheM.tstep']. unfold acquire'. rewrite Hc, Hs. exists (mkFr args (im_apps i) args [] r). cbn.
    split; [reflexivity|]. split; [reflexivity|]. apply set_nth_length, A.
  Qed.
End WithJdk.

(** ** Without re-entry *)

Section Same.
  Variable J : jdk.
  Variable grow : Z -> Z -> Z.
  Variable i : impl.

  Definition fr_alike (t t' : tstate) (f f' : frame) : Prop :=
    fr_args f = fr_args f' /\ fr_ds f = fr_ds f' /\ fr_it f = fr_it f' /\ fr_pend f = fr_pend f' /\
    (fr_ref f < List.length (t_heap t))%nat /\ (fr_ref f' < List.length (t_heap t'))%nat /\
    b_text (get (t_heap t) (fr_ref f)) = b_text (get (t_heap t') (fr_ref f')).
  (** at most one call in progress, with the same text so far *)
  Definition t_alike (t t' : tstate) : Prop :=
    t_done t = t_done t' /\
    (t_stack t = [] /\ t_stack t' = [] \/ exists f f', t_stack t = [f] /\ t_stack t' = [f'] /\ fr_alike t t' f f') /\
    (forall r, t_slot t = Some r -> (r < List.length (t_heap t))%nat) /\ (forall r, t_slot t' = Some r -> (r < List.length (t_heap t'))%nat).

  Lemma acquire_text h slot h' s' r : (forall r, slot = Some r -> (r < List.length h)%nat) -> acquire grow i h slot = (h', s', r) ->
    (r < List.length h')%nat /\ b_text (get h' r) = [] /\ forall q, s' = Some q -> (q < List.length h')%nat.
  Proof.
    intros Hs E. unfold acquire in E. destruct (im_cached i).
    - assert (G : forall h0 r0, (r0 < List.length h0)%nat ->
        (let b := get h0 r0 in if (65536 <? b_cap b) && (im_cap i <=? 65536) then (h0 ++ [mkB [] (im_cap i)], Some (List.length h0), List.length h0)
         else (set_nth h0 r0 (mkB [] (fit grow (b_cap b) (im_cap i))), Some r0, r0)) = (h', s', r) ->
        (r < List.length h')%nat /\ b_text (get h' r) = [] /\ forall q, s' = Some q -> (q < List.length h')%nat).
      { intros h0 r0 H0 E0. cbv zeta in E0. destruct ((65536 <? b_cap (get h0 r0)) && (im_cap i <=? 65536)); injection E0 as <- <- <-.
        - rewrite app_length, get_new. cbn [List.length b_text]. split; [lia|]. split; [reflexivity|]. intros q [= <-]. lia.
        - rewrite set_nth_length, get_set_same by exact H0. split; [exact H0|]. split; [reflexivity|]. intros q [= <-]. exact H0. }
      destruct slot as [r0|]; [apply (G h r0 (Hs r0 eq_refl) E)|]. apply (G (h ++ [mkB [] 16]) (List.length h)); [rewrite app_length; cbn; lia|exact E].
    - injection E as <- <- <-. rewrite app_length, get_new. cbn [List.length b_text]. split; [lia|]. split; [reflexivity|]. intros q Hq. specialize (Hs q Hq). lia.
  Qed.
  Lemma acquire'_text h slot h' s' r : (forall r, slot = Some r -> (r < List.length h)%nat) -> acquire' grow i h slot = (h', s', r) ->
    (r < List.length h')%nat /\ b_text (get h' r) = [] /\ forall q, s' = Some q -> (q < List.length h')%nat.
  Proof.
    intros Hs E. unfold acquire' in E. destruct (im_cached i); [destruct slot as [r0|]|]; injection E as <- <- <-.
    - specialize (Hs r0 eq_refl). rewrite set_nth_length, get_set_same by exact Hs. split; [exact Hs|]. split; [reflexivity|]. discriminate.
    - rewrite app_length, get_new. cbn [List.length b_text]. split; [lia|]. split; [reflexivity|]. discriminate.
    - rewrite app_length, get_new. cbn [List.length b_text]. split; [lia|]. split; [reflexivity|]. intros q Hq. specialize (Hs q Hq). lia.
  Qed.

  Lemma alike_step e t t' : match e with Call _ => t_stack t = [] | Step => True end -> t_alike t t' -> t_alike (tstep J grow i e t) (tstep' J grow i e t').
  Proof.
    intros He (Hd & Hst & Hs & Hs'). destruct e as [args|]; cbn [tstep tstep'].
    - destruct (acquire grow i (t_heap t) (t_slot t)) as [[h s] r] eqn:E. destruct (acquire' grow i (t_heap t') (t_slot t')) as [[h' s'] r'] eqn:E'.
      destruct (acquire_text _ _ _ _ _ Hs E) as (A & B & C). destruct (acquire'_text _ _ _ _ _ Hs' E') as (A' & B' & C').
      assert (Et : t_stack t' = []) by (destruct Hst as [[_ X]|(f & f' & X & _)]; [exact X|congruence]).
      split; [exact Hd|]. split; [|split; [exact C|exact C']]. right. cbn [t_stack t_heap]. rewrite He, Et.
      eexists _, _. split; [reflexivity|]. split; [reflexivity|]. unfold fr_alike. cbn [fr_args fr_ds fr_it fr_pend fr_ref t_heap]. repeat split; try assumption. congruence.
    - destruct Hst as [[E E']|(f & f' & E & E' & Fa)]; rewrite E, E'.
      { split; [exact Hd|]. split; [left; split; [exact E|exact E']|]. split; assumption. }
      destruct Fa as (F1 & F2 & F3 & F4 & F5 & F6 & F7). unfold step_top, step_top'. rewrite <- F2, <- F3, <- F4, <- F7.
      assert (Fin : forall x, t_alike (finish t f [] x) (finish' i t' f' [] x)).
      { intros x. split; [cbn; rewrite Hd, F1; reflexivity|]. split; [left; split; reflexivity|]. split; [exact Hs|]. cbn [finish' t_slot t_heap]. intros r Er.
        destruct (release_cases i (t_heap t') (t_slot t') (fr_ref f')) as [[R _]|R]; rewrite R in Er; [injection Er as <-; exact F6|apply Hs', Er]. }
      destruct (fr_pend f) as [|a more].
      + destruct (fr_ds f) as [|d ds]; [apply Fin|]. destruct (appendOne J d (fr_it f)) as [[s it']|e]; [|apply Fin]. destruct (atoms_of s) as [l|e]; [|apply Fin].
        split; [exact Hd|]. split; [|split; assumption]. right. eexists _, _. split; [reflexivity|]. split; [reflexivity|].
        unfold fr_alike. cbn [fr_args fr_ds fr_it fr_pend fr_ref t_heap]. repeat split; assumption.
      + destruct (a_toSB a (b_text (get (t_heap t) (fr_ref f)))) as [s|e]; [|apply Fin].
        split; [exact Hd|]. split; [|cbn [t_slot t_heap]; rewrite !set_nth_length by assumption; split; assumption].
        right. eexists _, _. split; [reflexivity|]. split; [reflexivity|].
        unfold fr_alike. cbn [fr_args fr_ds fr_it fr_pend fr_ref t_heap]. rewrite !set_nth_length, !get_set_same by assumption. repeat split; assumption.
  Qed.

  Lemma alike_run evs : forall w w', (forall k, t_alike (w k) (w' k)) -> no_reentry J grow i w evs ->
    forall k, t_alike (wrun J grow i evs w k) (wrun' J grow i evs w' k).
  Proof.
    induction evs as [|[k e] r IH]; intros w w' Hw Hn; [exact Hw|]. destruct Hn as [Hn1 Hn2]. cbn [wrun wrun' fold_left]. apply IH; [|exact Hn2].
    intros j. unfold wstep, wstep'. cbn [fst snd]. destruct (Nat.eqb j k) eqn:E; [|apply Hw]. apply Nat.eqb_eq in E as ->. apply alike_step; [exact Hn1|apply Hw].
  Qed.
  Lemma same_done evs k : no_reentry J grow i w_init evs ->
    t_done (wrun J grow i evs w_init k) = t_done (wrun' J grow i evs w_init k).
  Proof.
    intros H. apply (alike_run evs w_init w_init); [|exact H]. intros j. split; [reflexivity|]. split; [left; split; reflexivity|]. split; discriminate.
  Qed.

  (** without the cache the two are the same program *)
  Lemma uncached_run evs : im_cached i = false -> forall w w', (forall k, w k = w' k) -> forall k, wrun J grow i evs w k = wrun' J grow i evs w' k.
  Proof.
    intros Hc. induction evs as [|[k e] r IH]; intros w w' Hw; [exact Hw|]. cbn [wrun wrun' fold_left]. apply IH.
    intros j. unfold wstep, wstep'. cbn [fst snd]. destruct (Nat.eqb j k); [|apply Hw]. rewrite Hw. generalize (w' j) as t. intros t.
    assert (R : forall f rest x, finish t f rest x = finish' i t f rest x) by (intros; unfold finish, finish', release; rewrite Hc; reflexivity).
    destruct e as [args|]; cbn [tstep tstep'].
    - unfold acquire, acquire'. rewrite Hc. reflexivity.
    - destruct (t_stack t) as [|f rest]; [reflexivity|]. unfold step_top, step_top'. destruct (fr_pend f) as [|a more].
      + destruct (fr_ds f) as [|d ds]; [apply R|]. destruct (appendOne J d (fr_it f)) as [[s it']|x]; [|apply R]. destruct (atoms_of s); [reflexivity|apply R].
      + destruct (a_toSB a _); [reflexivity|apply R].
  Qed.
End Same.
