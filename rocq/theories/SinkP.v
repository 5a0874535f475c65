(** The calls format makes on an Appendable do not depend on the target, and stop where it throws. *)
From Verif Require Import Base Digits UtilsM SeqM SeqSpec SeqP ContextM CompilerM IntFormM FormatterM MathM DecimalM FPDecimalM
  DoubleM BigDecM RoundM TraitsM ImplM ImplP LoopSpec LoopP TameP SinkM SinkSpec.

(** transcripts: the calls made, then the exception that stops, if any *)
Definition script := (list call * option exn)%type.

Definition join2 (a : script) (b : script) : script :=
  match a with (l, None) => (l ++ fst b, snd b) | stop => stop end.

Fixpoint loop_script (fuel : nat) (at_ : Z -> res Z) (i e : Z) : script :=
  match fuel with
  | O => ([], None)
  | S f => if i <? e then
             match at_ i with
             | Err x => ([], Some x)
             | Ok c => join2 ([PutChar c], None) (loop_script f at_ (i + 1) e)
             end
           else ([], None)
  end.
Definition atom_script (a : atom) : script :=
  match a with
  | AEmpty => ([], None)
  | ARep c n => loop_script (Z.to_nat n) (fun _ => Ok c) 0 n
  | AStr s st n up =>
      if up then loop_script (Z.to_nat n) (fun i => let* x := jcharAt s i in Ok (toUpperCase x)) st (st + n)
      else ([PutPart s st (st + n)], None)
  | AArr s st n up =>
      if up then loop_script (Z.to_nat n) (fun i => let* x := jcharAt s i in Ok (toUpperCase x)) st (st + n)
      else loop_script (Z.to_nat n) (fun i => jcharAt s i) st (st + n)
  | ALazy act n => match getCachedString act n with Ok v => ([PutAll v], None) | Err x => ([], Some x) end
  end.
Fixpoint atoms_script (l : list atom) : script :=
  match l with [] => ([], None) | a :: r => join2 (atom_script a) (atoms_script r) end.
Definition seq_script (s : seq) : script :=
  match s with
  | Leaf a => atom_script a
  | _ => match s_iter s with Ok atoms => atoms_script atoms | Err x => ([], Some x) end
  end.
Fixpoint format_script (J : jdk) (apps : list appender) (it : list traits) : script :=
  match apps with
  | [] => ([], None)
  | a :: rest => match appendOne J a it with
                 | Err e => ([], Some e)
                 | Ok (s, it') => join2 (seq_script s) (format_script J rest it')
                 end
  end.

Section WithTarget.
  Variable W : Type.
  Variable append : W -> call -> W * option failure.

  Definition play (p : script) (w : W) : W * option failure :=
    match feed append (fst p) w with
    | (w', Some f) => (w', Some f)
    | (w', None) => (w', option_map Unchecked (snd p))
    end.

  Lemma feed_app a : forall b w, feed append (a ++ b) w =
    match feed append a w with (w', None) => feed append b w' | stop => stop end.
  Proof.
    induction a as [|c a IH]; intros b w; cbn [app feed]; [reflexivity|].
    destruct (append w c) as [w' [f|]]; [reflexivity|apply IH].
  Qed.
  Lemma play_join a b w : play (join2 a b) w = match play a w with (w', None) => play b w' | stop => stop end.
  Proof.
    destruct a as [l [e|]]; unfold play; cbn [join2 fst snd option_map].
    - destruct (feed append l w) as [w' [f|]]; reflexivity.
    - rewrite feed_app. destruct (feed append l w) as [w' [f|]]; reflexivity.
  Qed.
  Lemma play_one c w : play ([c], None) w = append w c.
  Proof. unfold play. cbn [fst snd feed option_map]. destruct (append w c) as [w' [f|]]; reflexivity. Qed.

  Lemma putLoop_play f at_ : forall i e w, putLoop W append f at_ i e w = play (loop_script f at_ i e) w.
  Proof.
    induction f as [|f IH]; intros i e w; cbn [putLoop loop_script]; [reflexivity|].
    destruct (i <? e); [|reflexivity]. destruct (at_ i) as [c|x]; [|reflexivity].
    rewrite play_join, play_one. destruct (append w (PutChar c)) as [w' [g|]]; [reflexivity|apply IH].
  Qed.
  Lemma a_put_play a w : a_put W append a w = play (atom_script a) w.
  Proof.
    destruct a as [|c n|s st n up|s st n up|act n]; cbn [a_put atom_script].
    - reflexivity.
    - apply putLoop_play.
    - destruct up; [apply putLoop_play|symmetry; apply play_one].
    - destruct up; apply putLoop_play.
    - destruct (getCachedString act n) as [v|x]; [symmetry; apply play_one|reflexivity].
  Qed.
  Lemma putAtoms_play l : forall w, putAtoms W append l w = play (atoms_script l) w.
  Proof.
    induction l as [|a r IH]; intros w; cbn [putAtoms atoms_script]; [reflexivity|].
    rewrite play_join, <- a_put_play. destruct (a_put W append a w) as [w' [g|]]; [reflexivity|apply IH].
  Qed.
  Lemma s_put_play s w : s_put W append s w = play (seq_script s) w.
  Proof.
    destruct s; cbn [s_put seq_script]; [apply a_put_play| |]; destruct (s_iter _); try apply putAtoms_play; reflexivity.
  Qed.

  Lemma ends_play p e w : snd p = e -> ends append (fst p) e w =
    (let (w', f) := play p w in (w', option_map wrapped f)).
  Proof.
    intros <-. unfold ends, play. destruct (feed append (fst p) w) as [w' [f|]]; [reflexivity|]. destruct (snd p); reflexivity.
  Qed.
  Lemma formatTo_script J ds : forall it w,
    formatTo W append J ds it w = ends append (fst (format_script J ds it)) (snd (format_script J ds it)) w.
  Proof.
    induction ds as [|a r IH]; intros it w; cbn [formatTo format_script]; [reflexivity|].
    destruct (appendOne J a it) as [[s it']|e]; [|reflexivity].
    rewrite (ends_play (join2 (seq_script s) (format_script J r it'))) by reflexivity.
    rewrite play_join. unfold consume. rewrite s_put_play. destruct (play (seq_script s) w) as [w' [f|]].
    - destruct f; reflexivity.
    - rewrite IH, ends_play by reflexivity. reflexivity.
  Qed.
End WithTarget.

(** ** what the calls hand over, for sequences that stand for a text *)
Definition says (p : script) (t : list Z) : Prop :=
  snd p = None /\ Forall in_bounds (fst p) /\ concat (map handed (fst p)) = t.

Lemma says_join a b t u : says a t -> says b u -> says (join2 a b) (t ++ u).
Proof.
  intros (A1 & A2 & A3) (B1 & B2 & B3). destruct a as [l e]. cbn [fst snd] in *. subst e. cbn [join2].
  split; [exact B1|]. cbn [fst snd]. split; [apply Forall_app; split; assumption|].
  rewrite map_app, concat_app, A3, B3. reflexivity.
Qed.
Lemma says_nil : says ([], None) [].
Proof. split; [reflexivity|]. split; [constructor|reflexivity]. Qed.
Lemma says_loop f at_ : forall i e t, appendLoop f at_ i e [] = Ok t -> says (loop_script f at_ i e) t.
Proof.
  induction f as [|f IH]; intros i e t E; cbn [appendLoop loop_script] in *.
  - inversion E. apply says_nil.
  - destruct (i <? e); [|inversion E; apply says_nil]. destruct (at_ i) as [c|x]; cbn [bind] in E; [|discriminate].
    rewrite appendLoop_prefix in E. destruct (appendLoop f at_ (i + 1) e []) as [u|] eqn:K; cbn [bind] in E; [|discriminate].
    inversion E. change (says (join2 ([PutChar c], None) (loop_script f at_ (i + 1) e)) ([c] ++ u)). apply says_join; [|apply IH; exact K]. split; [reflexivity|]. split; [constructor; [exact I|constructor]|reflexivity].
Qed.
Lemma says_one c t : in_bounds c -> handed c = t -> says ([c], None) t.
Proof. intros H <-. split; [reflexivity|]. split; [constructor; [exact H|constructor]|]. cbn [map fst concat]. apply app_nil_r. Qed.

Lemma says_atom a t : den_atom a t -> says (atom_script a) t.
Proof.
  intros D. pose proof (a_toApp_den a t [] D) as E. cbn [app] in E. destruct D as [_ D].
  destruct a as [|c n|s st n up|s st n up|act n]; cbn [atom_script a_toApp] in *.
  - subst t. apply says_nil.
  - apply says_loop, E.
  - destruct up; [apply says_loop, E|]. destruct D as (D1 & D2 & D3 & ->). apply says_one; [cbn [in_bounds]; lia|reflexivity].
  - destruct up; apply says_loop, E.
  - destruct (getCachedString act n) as [v|x]; cbn [bind] in E; [|discriminate]. inversion E. subst. apply says_one; [exact I|reflexivity].
Qed.
Lemma says_atoms l ts : Forall2 den_atom l ts -> says (atoms_script l) (concat ts).
Proof.
  intros H. induction H as [|a t l ts Ha Hl IH]; cbn [atoms_script concat]; [apply says_nil|].
  apply says_join; [apply says_atom; exact Ha|exact IH].
Qed.
Lemma says_seq s t : wden s t -> says (seq_script s) t.
Proof.
  intros H. pose proof (wden_ne _ _ H) as Hne. destruct (wden_leaves _ _ H) as (ts & F & ->).
  destruct s; cbn [seq_script].
  - cbn in F. inversion F as [|x y l l' Hxy Hl]; subst. inversion Hl; subst. cbn [concat]. rewrite app_nil_r. apply says_atom, Hxy.
  - rewrite s_iter_spec by assumption. apply says_atoms, F.
  - rewrite s_iter_spec by assumption. apply says_atoms, F.
Qed.
Lemma says_wrapS t : says (seq_script (wrapS t)) t.
Proof.
  unfold wrapS, s_wrap. pose proof (zlen_nonneg t) as L. destruct (0 <? zlen t) eqn:E.
  - destruct t as [|c [|d r]]; [discriminate| |].
    + apply says_one; [exact I|reflexivity].
    + apply says_one; [cbn [in_bounds]; lia|]. cbn [handed]. rewrite Z.add_0_l. apply slice_full.
  - destruct t; [apply says_nil|]. rewrite zlen_cons in *. pose proof (zlen_nonneg t). apply Z.ltb_ge in E. lia.
Qed.
Lemma appendOne_says J d args s it : sane d -> Forall (honest J) args -> appendOne J d args = Ok (s, it) ->
  exists t, emitApp s [] = (t, None) /\ says (seq_script s) t.
Proof.
  intros Hd H E. destruct d as [t|sp c]; cbn [appendOne] in E.
  - injection E as <- _. exists t. split; [apply (wrapS_emits emitApp t []), emits_app|apply says_wrapS].
  - destruct (resolveCtx c args) as [[c1 l]|e] eqn:Er; cbn [bind] in E; [|discriminate].
    destruct (resolve_suffix _ _ _ _ Er) as [v Ev]. destruct l as [|x l]; [discriminate|].
    assert (Hc1 : context_ok c1).
    { apply (resolved_ok _ _ _ _ Hd Er). eapply Forall_impl; [|exact H]. intros y [Hy _]. exact Hy. }
    destruct (formatterFor J sp c1 x) as [s1|e] eqn:Ef; cbn [bind] in E; [|discriminate]. injection E as -> _.
    rewrite Ev in H. apply Forall_app in H as [_ H]. inversion H as [|? ? Hx _]; subst.
    destruct (proj2 Hx _ _ _ Hc1 Ef) as [t D]. exists t. split; [apply (emitApp_wden s t [] D)|apply says_seq, D].
Qed.

(** the calls spell the text of the call, and the script ends as it does *)
Lemma format_says J ds : Forall sane ds -> forall args, Forall (honest J) args ->
  let p := format_script J ds args in
  Forall in_bounds (fst p) /\
  forall sb, run J emitApp ds args sb = (sb ++ concat (map handed (fst p)), snd p).
Proof.
  induction 1 as [|d r Hd Hr IH]; intros args H; cbn [format_script run].
  - split; [constructor|]. intros sb. cbn [fst map concat snd]. rewrite app_nil_r. reflexivity.
  - destruct (appendOne J d args) as [[s it]|e] eqn:E.
    + destruct (appendOne_says _ _ _ _ _ Hd H E) as (t & T & P1 & P2 & P3).
      destruct (appendOne_honest _ _ _ _ _ Hd H E) as [[t' Ht] Hit].
      pose proof (Ht _ emits_app []) as T'. rewrite T in T'. cbn [app] in T'. injection T' as T'. subst t'.
      destruct (IH it Hit) as [Q1 Q2]. destruct (seq_script s) as [l x]. cbn [fst snd] in P1, P2, P3. subst x. cbn [join2 fst snd].
      split; [apply Forall_app; split; assumption|]. intros sb. rewrite (Ht _ emits_app sb), Q2, map_app, concat_app, P3, <- app_assoc. reflexivity.
    + split; [constructor|]. intros sb. cbn [fst map concat snd]. rewrite app_nil_r. reflexivity.
Qed.

(** ** the bounded target *)
Lemma feed_bounded room n calls : forall w, zlen w <= room -> feed (bounded room n) calls w =
  (let t := w ++ concat (map handed calls) in
   if zlen t <=? room then (t, None) else (firstn (Z.to_nat room) t, Some (Io n))).
Proof.
  induction calls as [|c r IH]; intros w Hw; cbn [feed map concat].
  - cbv zeta. rewrite app_nil_r. destruct (zlen w <=? room) eqn:E; [reflexivity|]. apply Z.leb_gt in E. lia.
  - unfold bounded at 1. cbv zeta. destruct (zlen (w ++ handed c) <=? room) eqn:E.
    + apply Z.leb_le in E. rewrite (IH _ E). cbv zeta. rewrite <- app_assoc. reflexivity.
    + apply Z.leb_gt in E. rewrite app_assoc. pose proof (zlen_nonneg w) as Hp.
      pose proof (zlen_nonneg (concat (map handed r))) as Hq.
      destruct (zlen ((w ++ handed c) ++ concat (map handed r)) <=? room) eqn:E2.
      { apply Z.leb_le in E2. rewrite zlen_app in E2. lia. }
      rewrite (firstn_app _ (w ++ handed c) (concat (map handed r))). replace (Z.to_nat room - List.length (w ++ handed c))%nat with 0%nat; [cbn [firstn]; rewrite app_nil_r; reflexivity|].
      unfold zlen in E. lia.
Qed.
