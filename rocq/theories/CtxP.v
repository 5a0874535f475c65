(** Proofs for C68 and C69. *)
From Verif Require Import Base Digits UtilsM ContextM CompilerM GrammarSpec CompilerP CompilerP2 PatternP CtxM CtxSpec.

Lemma checkValue_allowed k v : checkValue k v = if allowed v then Ok tt else Err (Printf k).
Proof.
  unfold checkValue, allowed. change UNSET with (-1). change PRECEDING with int_min. change MAX_WP with 65536.
  assert (int_min < -1) by reflexivity.
  destruct (v <? 0) eqn:A, (v =? -1) eqn:B, (v =? int_min) eqn:C, (65536 <? v) eqn:D, (0 <=? v) eqn:E, (v <=? 65536) eqn:F; cbn; try reflexivity; lia.
Qed.

(** ** Heap *)

Lemma put_length h r s : List.length (put h r s) = List.length h.
Proof. revert r. induction h as [|a h IH]; intros [|r]; cbn; auto. Qed.
Lemma at_put h r s : (r < List.length h)%nat -> at_ref (put h r s) r = s.
Proof. revert r. induction h as [|a h IH]; intros [|r] H; cbn in *; try lia; [reflexivity|]. apply IH. lia. Qed.
Lemma at_put_other h r r' s : r <> r' -> at_ref (put h r s) r' = at_ref h r'.
Proof. revert r r'. induction h as [|a h IH]; intros [|r] [|r'] H; cbn; try reflexivity; try lia. apply IH. lia. Qed.
Lemma at_app h x r : (r < List.length h)%nat -> at_ref (h ++ x) r = at_ref h r.
Proof. intros H. apply app_nth1. exact H. Qed.
Lemma at_new h s : at_ref (h ++ [s]) (List.length h) = s.
Proof. unfold at_ref. rewrite app_nth2 by lia. rewrite Nat.sub_diag. reflexivity. Qed.

Definition bound (h : heap) (r : ref) : Prop := (r < List.length h)%nat.

Record sound (k : client) : Prop := mkSound {
  so_sets : Forall (bound (cl_heap k)) (cl_sets k);
  so_ctxs : Forall (fun c => bound (cl_heap k) (x_flags c)) (cl_ctxs k);
  so_nodup : NoDup (cl_sets k);
  so_apart : forall r c, In r (cl_sets k) -> In c (cl_ctxs k) -> r <> x_flags c }.

Definition contents (k : client) : values := (map (at_ref (cl_heap k)) (cl_sets k), map (view (cl_heap k)) (cl_ctxs k)).

Lemma map_at_app h x l : Forall (bound h) l -> map (at_ref (h ++ x)) l = map (at_ref h) l.
Proof. intros H. apply map_ext_in. intros r Hr. apply at_app. exact (proj1 (Forall_forall _ _) H r Hr). Qed.
Lemma map_view_app h x l : Forall (fun c => bound h (x_flags c)) l -> map (view (h ++ x)) l = map (view h) l.
Proof.
  intros H. apply map_ext_in. intros c Hc. unfold view. rewrite at_app; [reflexivity|]. exact (proj1 (Forall_forall _ _) H c Hc).
Qed.
Lemma bound_app h x r : bound h r -> bound (h ++ x) r.
Proof. unfold bound. rewrite app_length. lia. Qed.

(** a fresh set for the client *)
Lemma with_set k s : sound k -> sound (withSet k (newSet (cl_heap k) s)) /\
  contents (withSet k (newSet (cl_heap k) s)) = (fst (contents k) ++ [s], snd (contents k)).
Proof.
  intros [A B C D]. unfold withSet, newSet, contents. cbn [cl_heap cl_sets cl_ctxs fst snd]. split.
  - constructor; cbn [cl_heap cl_sets cl_ctxs].
    + apply Forall_app. split; [eapply Forall_impl; [|exact A]; intros r; apply bound_app|].
      constructor; [|constructor]. unfold bound. rewrite app_length. cbn. lia.
    + eapply Forall_impl; [|exact B]. intros c. apply bound_app.
    + assert (N : ~ In (List.length (cl_heap k)) (cl_sets k)).
      { intros Hi. pose proof (proj1 (Forall_forall _ _) A _ Hi) as Hb. unfold bound in Hb. lia. }
      rewrite <- (rev_involutive (cl_sets k ++ _)). apply NoDup_rev. rewrite rev_app_distr. cbn. constructor; [rewrite <- in_rev; exact N|].
      apply NoDup_rev. exact C.
    + intros r c Hr Hc. apply in_app_or in Hr as [Hr|[<-|[]]]; [exact (D r c Hr Hc)|].
      pose proof (proj1 (Forall_forall _ _) B _ Hc) as Hb. unfold bound in Hb. lia.
  - rewrite map_app, map_at_app by exact A. rewrite map_view_app by exact B. cbn [map]. rewrite at_new. reflexivity.
Qed.

(** a fresh context *)
Lemma with_ctx k s w p d : sound k -> let k' := withCtx k (Ok (let '(h, r) := newSet (cl_heap k) s in (h, mkJctx r w p d))) in
  sound k' /\ contents k' = (fst (contents k), snd (contents k) ++ [mkCtx s w p d]).
Proof.
  intros [A B C D]. unfold withCtx, newSet, contents. cbn [cl_heap cl_sets cl_ctxs fst snd]. split.
  - constructor; cbn [cl_heap cl_sets cl_ctxs].
    + eapply Forall_impl; [|exact A]. intros c. apply bound_app.
    + apply Forall_app. split; [eapply Forall_impl; [|exact B]; intros c; apply bound_app|].
      constructor; [|constructor]. unfold bound. cbn [x_flags]. rewrite app_length. cbn. lia.
    + exact C.
    + intros r c Hr Hc. apply in_app_or in Hc as [Hc|[<-|[]]]; [exact (D r c Hr Hc)|].
      pose proof (proj1 (Forall_forall _ _) A _ Hr) as Hb. unfold bound in Hb. cbn [x_flags]. lia.
  - rewrite map_app, map_at_app by exact A. rewrite map_view_app by exact B. cbn [map]. unfold view at 2. cbn [x_flags x_width x_prec x_dtf].
    rewrite at_new. reflexivity.
Qed.

(** one already held, again *)
Lemma with_same k c : sound k -> In c (cl_ctxs k) -> let k' := withCtx k (Ok (cl_heap k, c)) in
  sound k' /\ contents k' = (fst (contents k), snd (contents k) ++ [view (cl_heap k) c]).
Proof.
  intros [A B C D] Hc. unfold withCtx, contents. cbn [cl_heap cl_sets cl_ctxs fst snd]. split.
  - constructor; cbn [cl_heap cl_sets cl_ctxs]; [exact A| |exact C|].
    + apply Forall_app. split; [exact B|]. constructor; [|constructor]. exact (proj1 (Forall_forall _ _) B c Hc).
    + intros r x Hr Hx. apply in_app_or in Hx as [Hx|[<-|[]]]; [exact (D r x Hr Hx)|exact (D r c Hr Hc)].
  - rewrite map_app. reflexivity.
Qed.

Lemma nth_map {A B} (f : A -> B) l n : nth_error (map f l) n = match nth_error l n with Some a => Some (f a) | None => None end.
Proof. revert n. induction l as [|a l IH]; intros [|n]; cbn; auto. Qed.

Lemma replaced_map h l n r s : NoDup l -> Forall (bound h) l -> nth_error l n = Some r ->
  map (at_ref (put h r s)) l = replaced (map (at_ref h) l) n s.
Proof.
  revert n. induction l as [|a l IH]; intros [|n] N F E; cbn in *; try discriminate.
  - injection E as ->. inversion N; inversion F; subst. rewrite at_put by assumption. f_equal. apply map_ext_in. intros x Hx. apply at_put_other.
    intros <-. contradiction.
  - inversion N; inversion F; subst. rewrite at_put_other; [|intros <-; apply nth_error_In in E; contradiction]. f_equal. apply IH; assumption.
Qed.
Lemma replaced_none {A} (l : list A) n x : nth_error l n = None -> replaced l n x = l.
Proof. revert n. induction l as [|a l IH]; intros [|n] E; cbn in *; try discriminate; auto. f_equal. apply IH. exact E. Qed.

Lemma addF_has f s : hasF f s = true -> addF f s = s.
Proof. destruct s as [[] [] [] [] []], f; cbn; congruence. Qed.

Lemma step_ok k o : sound k -> sound (step k o) /\ contents (step k o) = v_step (contents k) o.
Proof.
  intros S. pose proof S as [A B C D].
  destruct o as [|n s|n w p d|n w|n p|n f|n]; cbn [step v_step].
  - exact (with_set k noFlags S).
  - destruct (nth_error (cl_sets k) n) as [r|] eqn:E.
    + pose proof (nth_error_In _ _ E) as Hr. pose proof (proj1 (Forall_forall _ _) A r Hr) as Hb. split.
      * constructor; cbn [cl_heap cl_sets cl_ctxs]; [| |exact C|exact D]; unfold bound; rewrite put_length; assumption.
      * unfold contents. cbn [cl_heap cl_sets cl_ctxs fst snd]. rewrite (replaced_map _ _ n) by assumption. f_equal.
        apply map_ext_in. intros c Hc. unfold view. rewrite at_put_other; [reflexivity|]. exact (D r c Hr Hc).
    + split; [exact S|]. unfold contents. cbn [fst snd]. rewrite replaced_none; [reflexivity|]. rewrite nth_map, E. reflexivity.
  - unfold contents at 2. cbn [fst]. rewrite nth_map. destruct (nth_error (cl_sets k) n) as [r|] eqn:E; [|split; [exact S|reflexivity]].
    unfold j_create. rewrite !checkValue_allowed. destruct (allowed w); cbn [bind andb derived]; [|split; [exact S|reflexivity]].
    destruct (allowed p); cbn [bind derived]; [|split; [exact S|reflexivity]].
    exact (with_ctx k (at_ref (cl_heap k) r) w p d S).
  - unfold contents at 2. cbn [snd]. rewrite nth_map. destruct (nth_error (cl_ctxs k) n) as [c|] eqn:E; [|split; [exact S|reflexivity]].
    unfold j_setWidth. rewrite checkValue_allowed. destruct (allowed w); cbn [bind derived]; [|split; [exact S|reflexivity]].
    exact (with_ctx k (at_ref (cl_heap k) (x_flags c)) w _ _ S).
  - unfold contents at 2. cbn [snd]. rewrite nth_map. destruct (nth_error (cl_ctxs k) n) as [c|] eqn:E; [|split; [exact S|reflexivity]].
    unfold j_setPrecision. rewrite checkValue_allowed. destruct (allowed p); cbn [bind derived]; [|split; [exact S|reflexivity]].
    exact (with_ctx k (at_ref (cl_heap k) (x_flags c)) _ p _ S).
  - unfold contents at 2. cbn [snd]. rewrite nth_map. destruct (nth_error (cl_ctxs k) n) as [c|] eqn:E; [|split; [exact S|reflexivity]].
    pose proof (nth_error_In _ _ E) as Hc. cbn [derived].
    destruct f as [f|]; cbn [j_addFlag]; [|exact (with_same k c S Hc)].
    destruct (hasF f (at_ref (cl_heap k) (x_flags c))) eqn:Hf.
    + destruct (with_same k c S Hc) as (P & Q). split; [exact P|]. rewrite Q. unfold view. cbn [c_flags c_width c_prec c_dtf].
      rewrite addF_has by exact Hf. reflexivity.
    + unfold copyOf, newSet. rewrite at_new.
      replace (put (cl_heap k ++ [at_ref (cl_heap k) (x_flags c)]) (List.length (cl_heap k)) (addF f (at_ref (cl_heap k) (x_flags c))))
        with (cl_heap k ++ [addF f (at_ref (cl_heap k) (x_flags c))]).
      * exact (with_ctx k (addF f (at_ref (cl_heap k) (x_flags c))) (x_width c) (x_prec c) (x_dtf c) S).
      * generalize (addF f (at_ref (cl_heap k) (x_flags c))). generalize (at_ref (cl_heap k) (x_flags c)). clear.
        induction (cl_heap k) as [|a h IH]; intros x y; cbn; [reflexivity|]. f_equal. apply IH.
  - unfold contents at 2. cbn [snd]. rewrite nth_map. destruct (nth_error (cl_ctxs k) n) as [c|] eqn:E; [|split; [exact S|reflexivity]].
    exact (with_set k (at_ref (cl_heap k) (x_flags c)) S).
Qed.

Lemma start_sound : sound startClient.
Proof. constructor; cbn; [constructor|constructor|constructor|]. intros r c []. Qed.

Lemma run_ok l : forall k, sound k -> sound (runOps l k) /\ contents (runOps l k) = fold_left v_step l (contents k).
Proof.
  induction l as [|o l IH]; intros k S; [split; [exact S|reflexivity]|]. destruct (step_ok k o S) as (S' & E).
  change (runOps (o :: l) k) with (runOps l (step k o)). destruct (IH _ S') as (P & Q). split; [exact P|]. rewrite Q, E. reflexivity.
Qed.

(** contexts already there stay *)
Lemma step_keeps k o n c : nth_error (cl_ctxs k) n = Some c -> nth_error (cl_ctxs (step k o)) n = Some c.
Proof.
  intros H.
  assert (W : forall r, nth_error (cl_ctxs (withCtx k r)) n = Some c).
  { intros [[h x]|e]; cbn; [|exact H]. rewrite nth_error_app1; [exact H|]. apply nth_error_Some. congruence. }
  destruct o; cbn [step]; try exact H; try (match goal with |- context [match ?e with _ => _ end] => destruct e end; try exact H; try apply W).
Qed.
Lemma v_step_keeps v o n c : nth_error (snd v) n = Some c -> nth_error (snd (v_step v o)) n = Some c.
Proof.
  intros H.
  assert (W : forall b x, nth_error (snd (derived v b x)) n = Some c).
  { intros [] x; cbn; [|exact H]. rewrite nth_error_app1; [exact H|]. apply nth_error_Some. congruence. }
  destruct o; cbn [v_step]; try exact H; try (match goal with |- context [match ?e with _ => _ end] => destruct e end; try exact H; try apply W).
Qed.
Lemma run_keeps l : forall k n c, nth_error (cl_ctxs k) n = Some c -> nth_error (cl_ctxs (runOps l k)) n = Some c.
Proof. induction l as [|o l IH]; intros k n c H; [exact H|]. apply (IH (step k o)). apply step_keeps. exact H. Qed.
Lemma v_run_keeps l : forall v n c, nth_error (snd v) n = Some c -> nth_error (snd (fold_left v_step l v)) n = Some c.
Proof. induction l as [|o l IH]; intros v n c H; [exact H|]. apply (IH (v_step v o)). apply v_step_keeps. exact H. Qed.

Lemma never_changes l1 l2 n c : nth_error (cl_ctxs (runOps l1 startClient)) n = Some c ->
  nth_error (cl_ctxs (runOps (l1 ++ l2) startClient)) n = Some c /\
  view (cl_heap (runOps (l1 ++ l2) startClient)) c = view (cl_heap (runOps l1 startClient)) c.
Proof.
  intros H. assert (R : runOps (l1 ++ l2) startClient = runOps l2 (runOps l1 startClient)) by (unfold runOps; apply fold_left_app). rewrite !R.
  destruct (run_ok l1 startClient start_sound) as (S & _). set (k := runOps l1 startClient) in *. clearbody k.
  pose proof (run_keeps l2 k n c H) as H2. split; [exact H2|].
  destruct (run_ok l2 k S) as (_ & E).
  assert (A : nth_error (snd (contents k)) n = Some (view (cl_heap k) c)) by (unfold contents; cbn [snd]; rewrite nth_map, H; reflexivity).
  apply (v_run_keeps l2) in A. rewrite <- E in A. unfold contents in A. cbn [snd] in A. rewrite nth_map, H2 in A. congruence.
Qed.

(** ** create(String, int, int) *)

Lemma flag_of_letter c : flag_of_char c = None <-> ~ In c flag_chars.
Proof.
  unfold flag_of_char. change flag_chars with [45; 35; 43; 32; 48]. change (ch "-") with 45. change (ch "#") with 35. change (ch "+") with 43.
  change (ch " ") with 32. change (ch "0") with 48.
  destruct (c =? 45) eqn:A; [split; [discriminate|intros H; exfalso; apply H; cbn; lia]|].
  destruct (c =? 35) eqn:B; [split; [discriminate|intros H; exfalso; apply H; cbn; lia]|].
  destruct (c =? 43) eqn:C; [split; [discriminate|intros H; exfalso; apply H; cbn; lia]|].
  destruct (c =? 32) eqn:D; [split; [discriminate|intros H; exfalso; apply H; cbn; lia]|].
  destruct (c =? 48) eqn:E; [split; [discriminate|intros H; exfalso; apply H; cbn; lia]|].
  split; [|reflexivity]. intros _ H. cbn in H. lia.
Qed.
Lemma flag_of_some c f : flag_of_char c = Some f -> c = flag_letter f.
Proof.
  unfold flag_of_char. change (ch "-") with 45. change (ch "#") with 35. change (ch "+") with 43. change (ch " ") with 32. change (ch "0") with 48.
  destruct (c =? 45) eqn:A; [intros [= <-]; cbn; lia|]. destruct (c =? 35) eqn:B; [intros [= <-]; cbn; lia|].
  destruct (c =? 43) eqn:C; [intros [= <-]; cbn; lia|]. destruct (c =? 32) eqn:D; [intros [= <-]; cbn; lia|].
  destruct (c =? 48) eqn:E; [intros [= <-]; cbn; lia|]. discriminate.
Qed.

Lemma hasF_addF f g s : hasF f (addF g s) = (flag_letter f =? flag_letter g) || hasF f s.
Proof. destruct f, g, s; reflexivity. Qed.

Lemma flags_ext s s' : (forall f, hasF f s = hasF f s') -> s = s'.
Proof.
  intros H. destruct s as [a b c d e], s' as [a' b' c' d' e'].
  pose proof (H LEFT_JUSTIFY) as H1; pose proof (H ALTERNATE) as H2; pose proof (H PLUS) as H3; pose proof (H LEADING_SPACE) as H4; pose proof (H ZERO_PAD) as H5.
  cbn in *. congruence.
Qed.

Lemma addChars_ok t : forall s, incl t flag_chars ->
  exists s', addChars s t = Ok s' /\ forall f, hasF f s' = existsb (Z.eqb (flag_letter f)) t || hasF f s.
Proof.
  induction t as [|c t IH]; intros s H; [exists s; split; [reflexivity|intros f; reflexivity]|].
  cbn [addChars]. destruct (flag_of_char c) as [f|] eqn:E.
  - destruct (IH (addF f s)) as (s' & E' & Hs'); [intros x Hx; apply H; right; exact Hx|]. exists s'. split; [exact E'|].
    intros g. rewrite Hs', hasF_addF. apply flag_of_some in E. subst c. cbn [existsb].
    destruct (flag_letter g =? flag_letter f), (existsb (Z.eqb (flag_letter g)) t), (hasF g s); reflexivity.
  - exfalso. apply flag_of_letter in E. apply E. apply H. left. reflexivity.
Qed.
Lemma addChars_bad t : forall s, ~ incl t flag_chars -> addChars s t = Err NullPtr.
Proof.
  induction t as [|c t IH]; intros s H; [exfalso; apply H; intros x []|]. cbn [addChars]. destruct (flag_of_char c) as [f|] eqn:E; [|reflexivity].
  apply IH. intros Ht. apply H. intros x [<-|Hx]; [|apply Ht; exact Hx].
  destruct (in_dec Z.eq_dec c flag_chars) as [i|n]; [exact i|]. apply flag_of_letter in n. congruence.
Qed.

Lemma ctx_create_ok fl w p d : ctx_create fl w p d =
  if allowed w then if allowed p then Ok (mkCtx fl w p d) else Err (Printf PrecisionRange) else Err (Printf WidthRange).
Proof. unfold ctx_create. rewrite !checkValue_allowed. destruct (allowed w); [|reflexivity]. destruct (allowed p); reflexivity. Qed.

(** ** Texts *)

Lemma cut_at {A} (x : A) a a' b b' : ~ In x a -> ~ In x a' -> a ++ x :: b = a' ++ x :: b' -> a = a' /\ b = b'.
Proof.
  revert a'. induction a as [|y a IH]; intros [|y' a'] H H' E; cbn in E.
  - injection E as ->. auto.
  - injection E as -> _. exfalso. apply H'. left. reflexivity.
  - injection E as <- _. exfalso. apply H. left. reflexivity.
  - injection E as <- E. destruct (IH a') as (-> & ->); [intros Hx; apply H; right; exact Hx|intros Hx; apply H'; right; exact Hx|exact E|]. auto.
Qed.

Definition names (s : flags) : list Z := commas (map flagName (elements s)).
Lemma names_clean s : ~ In 93 (names s).
Proof. destruct s as [[] [] [] [] []]; vm_compute; intuition discriminate. Qed.
Lemma names_inj s s' : names s = names s' -> s = s'.
Proof. destruct s as [[] [] [] [] []], s' as [[] [] [] [] []]; intros H; try reflexivity; vm_compute in H; discriminate H. Qed.

Lemma numeral_dec n : 0 <= n -> Forall (fun c => 48 <= c <= 57) (numeral 10 n).
Proof.
  intros H. unfold numeral. pose proof (digits_digits_ok 10 n ltac:(lia) H) as Hd. induction Hd as [|d l Hd _ IH]; cbn; constructor; [|exact IH].
  unfold digit_char. replace (d <? 10) with true by (symmetry; apply Z.ltb_lt; lia). lia.
Qed.
Lemma dec_text_chars n : Forall (fun c => c = 45 \/ 48 <= c <= 57) (dec_text n).
Proof.
  unfold dec_text. destruct (n <? 0) eqn:E; [constructor; [left; reflexivity|]|];
    (eapply Forall_impl; [|apply numeral_dec; lia]); intros c Hc; right; exact Hc.
Qed.
Lemma dec_text_inj n m : dec_text n = dec_text m -> n = m.
Proof.
  assert (M : forall k r, 0 <= k -> numeral 10 k <> 45 :: r).
  { intros k r Hk E. pose proof (numeral_dec k Hk) as F. rewrite E in F. inversion F. lia. }
  unfold dec_text. destruct (n <? 0) eqn:A, (m <? 0) eqn:B; change (ch "-") with 45; intros E.
  - injection E as E. apply (f_equal (of_numeral 10)) in E. rewrite !of_numeral_numeral in E by lia. lia.
  - symmetry in E. apply M in E; [contradiction|lia].
  - apply M in E; [contradiction|lia].
  - apply (f_equal (of_numeral 10)) in E. rewrite !of_numeral_numeral in E by lia. lia.
Qed.

Lemma ctxText_inj c c' : ctxText c = ctxText c' -> c_flags c = c_flags c' /\ c_width c = c_width c' /\ c_prec c = c_prec c'.
Proof.
  unfold ctxText, setText. fold (names (c_flags c)) (names (c_flags c')). intros E. apply app_inv_head in E. rewrite <- !app_assoc in E.
  apply app_inv_head in E. change (txt "]") with [93] in E. cbn [app] in E.
  apply cut_at in E as (E1 & E); [|apply names_clean|apply names_clean]. apply app_inv_head in E.
  change (txt ", precision=") with (44 :: txt " precision=") in E. cbn [app] in E.
  assert (N : forall n x, In x (dec_text n) -> x = 45 \/ 48 <= x <= 57) by (intros n x Hx; exact (proj1 (Forall_forall _ _) (dec_text_chars n) x Hx)).
  apply cut_at in E as (E2 & E); [|intros H; apply N in H; lia|intros H; apply N in H; lia]. apply app_inv_head in E.
  apply app_inv_tail in E. split; [apply names_inj; exact E1|]. split; apply dec_text_inj; assumption.
Qed.
