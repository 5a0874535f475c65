(** C78: the size of the deque an iteration over a sequence needs. *)
From Verif Require Import Base SeqM SeqSpec DequeM.

(** ** Specification *)

(** nodes waiting while the leftmost leaf of [s] is visited, at the worst moment *)
Fixpoint need (s : seq) : Z :=
  match s with
  | Leaf _ => 0
  | Cat l r _ _ => Z.max (1 + need l) (need r)
  | Arr ps _ => zlen ps - 1
  end.

(** every part has at least one leaf *)
Fixpoint proper (s : seq) : Prop :=
  match s with Leaf _ => True | Cat l r _ _ => proper l /\ proper r | Arr ps _ => ps <> [] end.

(** no left part is itself a concatenation *)
Fixpoint right_leaning (s : seq) : Prop :=
  match s with
  | Leaf _ | Arr _ _ => True
  | Cat l r _ _ => (forall a b n c, l <> Cat a b n c) /\ right_leaning r
  end.

(** a chain of appends, and of prepends *)
Definition appends (a : atom) (l : list atom) : seq := fold_left (fun s x => s_append s (Leaf x)) l (Leaf a).
Definition prepends (a : atom) (l : list atom) : seq := fold_left (fun s x => s_prepend s (Leaf x)) l (Leaf a).
Definition filled (x : atom) : Prop := a_len x <> 0 /\ x <> AEmpty.

(** ** Proofs *)

Lemma need_nonneg s : proper s -> 0 <= need s.
Proof.
  induction s as [a|l IHl r IHr n c|ps n]; cbn [proper need]; intros H; [lia|destruct H; specialize (IHl H); lia|].
  destruct ps; [congruence|]. rewrite zlen_cons. pose proof (zlen_nonneg ps). lia.
Qed.
Lemma nleaves_pos s : proper s -> exists k, nleaves s = S k.
Proof.
  induction s as [a|l IHl r IHr n c|ps n]; cbn [proper nleaves]; intros H; [exists O; reflexivity| |].
  - destruct (IHl (proj1 H)) as [k ->]. eexists. reflexivity.
  - destruct ps; [congruence|]. eexists. reflexivity.
Qed.
Lemma peak_ge f st : zlen st <= peak f st.
Proof. destruct f, st; cbn [peak]; lia. Qed.
Lemma peak_leaves rest : forall g st, peak (List.length rest + g) (map Leaf rest ++ st) = Z.max (zlen rest + zlen st) (peak g st).
Proof.
  induction rest as [|a rest IH]; intros g st.
  - cbn [List.length map app Nat.add]. pose proof (peak_ge g st). rewrite zlen_nil. lia.
  - cbn [List.length map app Nat.add peak it_next descend]. rewrite IH, !zlen_cons, zlen_app, zlen_map. lia.
Qed.

(** within a call of next() the deque only grows after the pop *)
Lemma within_a_call : forall n st a st', descend n st = Ok (a, st') -> exists pushed, st' = pushed ++ st.
Proof.
  induction n as [x|l IHl r IHr m c|ps m]; cbn [descend]; intros st a st' H.
  - injection H as _ <-. exists []. reflexivity.
  - destruct (IHl _ _ _ H) as [p ->]. exists (p ++ [r]). rewrite <- app_assoc. reflexivity.
  - destruct ps as [|p rest]; [discriminate|]. injection H as _ <-. exists (map Leaf rest). reflexivity.
Qed.

Lemma peak_descend n : proper n -> forall st k g, nleaves n = S k ->
  exists a st', descend n st = Ok (a, st') /\ peak (k + g) st' = Z.max (need n + zlen st) (peak g st).
Proof.
  induction n as [x|l IHl r IHr m c|ps m]; cbn [proper nleaves need descend]; intros H st k g E.
  - injection E as <-. exists x, st. split; [reflexivity|]. pose proof (peak_ge g st). cbn [Nat.add]. lia.
  - destruct H as [Hl Hr]. destruct (nleaves_pos l Hl) as [kl El]. destruct (nleaves_pos r Hr) as [kr Er].
    destruct (IHl Hl (r :: st) kl (S kr + g)%nat El) as (a & st' & D & P). exists a, st'. split; [exact D|].
    assert (k + g = kl + (S kr + g))%nat as -> by lia. rewrite P. cbn [Nat.add peak it_next].
    destruct (IHr Hr st kr g Er) as (a2 & st2 & D2 & P2). rewrite D2, P2, zlen_cons. pose proof (need_nonneg l Hl). lia.
  - destruct ps as [|p rest]; [congruence|]. cbn [List.length] in E. injection E as <-. exists p, (map Leaf rest ++ st). split; [reflexivity|].
    rewrite peak_leaves, zlen_cons. lia.
Qed.

(** ** C78 *)

(** the deque holds exactly this many nodes at the worst moment *)
Theorem C78_deque_size : forall s, proper s -> deque_peak s = Z.max 1 (need s).
Proof.
  intros s H. unfold deque_peak. destruct (nleaves_pos s H) as [k E]. rewrite E. cbn [peak it_next].
  destruct (peak_descend s H [] k 0%nat E) as (a & st & D & P). rewrite D. replace (k + 0)%nat with k in P by lia. rewrite P.
  cbn [peak]. rewrite zlen_cons, zlen_nil. lia.
Qed.
Print Assumptions C78_deque_size.

(** a right-leaning tree needs one place *)
Fixpoint binary (s : seq) : Prop := match s with Leaf _ => True | Cat l r _ _ => binary l /\ binary r | Arr _ _ => False end.
Lemma binary_proper s : binary s -> proper s.
Proof. induction s; cbn [binary proper]; [auto|tauto|intros []]. Qed.
Theorem C78_right_leaning_needs_one_place : forall s, binary s -> right_leaning s -> deque_peak s = 1.
Proof.
  intros s H R. rewrite (C78_deque_size s (binary_proper s H)). enough (need s <= 1) by lia. revert H R.
  induction s as [a|l IHl r IHr n c|ps n]; cbn [binary right_leaning need]; [lia| |intros []].
  intros [Hl Hr] [N R]. specialize (IHr Hr R). destruct l as [a|a b m d|]; [cbn [need]; lia|exfalso; exact (N a b m d eq_refl)|destruct Hl].
Qed.
Print Assumptions C78_right_leaning_needs_one_place.

(** prepending builds right-leaning trees *)
Lemma prepend_step s x : s <> Leaf AEmpty -> filled x -> s_prepend s (Leaf x) = concat0 (Leaf x) s.
Proof.
  intros Hs [Hl _]. unfold s_prepend, s_isEmpty. assert (s_len (Leaf x) =? 0 = false) as -> by (apply Z.eqb_neq; exact Hl).
  destruct s as [a| |]; try reflexivity. destruct a; try reflexivity. congruence.
Qed.
Theorem C78_prepends : forall a l, filled a -> Forall filled l -> right_leaning (prepends a l) /\ deque_peak (prepends a l) = 1.
Proof.
  intros a l Ha Hl. assert (A : right_leaning (prepends a l) /\ binary (prepends a l)).
  { unfold prepends. assert (B : forall s, s <> Leaf AEmpty -> right_leaning s -> binary s ->
      right_leaning (fold_left (fun s x => s_prepend s (Leaf x)) l s) /\ binary (fold_left (fun s x => s_prepend s (Leaf x)) l s)).
    { induction Hl as [|x l Hx Hl IH]; intros s Hs R B; cbn [fold_left]; [auto|]. rewrite (prepend_step s x Hs Hx). apply IH; [discriminate| |].
      - cbn [concat0 right_leaning]. split; [discriminate|exact R].
      - cbn [concat0 binary]. auto. }
    apply B; [|exact I|exact I]. destruct Ha as [_ Ha]. congruence. }
  split; [tauto|]. apply C78_right_leaning_needs_one_place; tauto.
Qed.
Print Assumptions C78_prepends.

(** appending does not: after the first part the tree leans to the left *)
Definition comb (b : atom) (l : list atom) : seq := fold_left (fun s x => concat0 s (Leaf x)) l (Leaf b).
Lemma comb_snoc b l x : comb b (l ++ [x]) = concat0 (comb b l) (Leaf x).
Proof. unfold comb. rewrite fold_left_app. reflexivity. Qed.
Lemma comb_binary b l : binary (comb b l).
Proof. induction l as [|x l IH] using rev_ind; [exact I|]. rewrite comb_snoc. cbn [concat0 binary]. auto. Qed.
Lemma comb_need b l : need (comb b l) = zlen l.
Proof.
  induction l as [|x l IH] using rev_ind; [reflexivity|]. rewrite comb_snoc, zlen_app, zlen_cons, zlen_nil. cbn [concat0 need]. rewrite IH. pose proof (zlen_nonneg l). lia.
Qed.

Theorem C78_shape_of_appends : forall a b l, filled a -> filled b -> Forall filled l -> appends a (b :: l) = concat0 (Leaf a) (comb b l).
Proof.
  intros a b l Ha Hb. induction l as [|x l IH] using rev_ind; intros Hl.
  - unfold appends. cbn [fold_left]. unfold s_append, s_isEmpty. assert (s_len (Leaf b) =? 0 = false) as -> by (apply Z.eqb_neq, Hb).
    destruct Ha as [_ Ha]. destruct a; try reflexivity. congruence.
  - apply Forall_app in Hl as [Hl Hx]. inversion Hx as [|? ? Hx' _]; subst. change (b :: l ++ [x]) with ((b :: l) ++ [x]). unfold appends in *.
    rewrite fold_left_app. cbn [fold_left]. cbn [fold_left] in IH. rewrite (IH Hl), comb_snoc. unfold concat0 at 1. unfold s_append, s_isEmpty.
    assert (s_len (Leaf x) =? 0 = false) as -> by (apply Z.eqb_neq, Hx'). reflexivity.
Qed.
Print Assumptions C78_shape_of_appends.

(** n parts appended one after the other: the deque grows to n - 2 nodes *)
Theorem C78_appends_exact : forall a b l, filled a -> filled b -> Forall filled l -> deque_peak (appends a (b :: l)) = Z.max 1 (zlen l).
Proof.
  intros a b l Ha Hb Hl. rewrite (C78_shape_of_appends a b l Ha Hb Hl). rewrite C78_deque_size.
  - cbn [concat0 need]. rewrite comb_need. pose proof (zlen_nonneg l). lia.
  - cbn [concat0 proper]. split; [exact I|apply binary_proper, comb_binary].
Qed.
Print Assumptions C78_appends_exact.

(** without the rearrangement of Concat.concat it would be n - 1: one more *)
Theorem C78_rearranging_saves_one : forall a l, deque_peak (comb a l) = Z.max 1 (zlen l).
Proof. intros a l. rewrite C78_deque_size by apply binary_proper, comb_binary. rewrite comb_need. reflexivity. Qed.
Print Assumptions C78_rearranging_saves_one.

(** so the tree does not "remain shallow and right-leaning" *)
Theorem C78_right_leaning_refuted : exists a l, filled a /\ Forall filled l /\ ~ right_leaning (appends a l) /\ deque_peak (appends a l) > 1.
Proof.
  assert (F : filled (ARep 97 1)) by (split; discriminate). exists (ARep 97 1), [ARep 97 1; ARep 97 1; ARep 97 1; ARep 97 1]. split; [exact F|].
  split; [repeat constructor; discriminate|]. split; [|reflexivity]. cbn. intros [_ [N _]]. eapply N. reflexivity.
Qed.
Print Assumptions C78_right_leaning_refuted.

(** number of leaves of a chain of appends *)
Lemma comb_count b l : zlen l + 1 <= int_max -> elementCount (comb b l) = zlen l + 1.
Proof.
  induction l as [|x l IH] using rev_ind; [reflexivity|]. rewrite comb_snoc, zlen_app, zlen_cons, zlen_nil. intros H. cbn [concat0 elementCount].
  rewrite IH by lia. pose proof (zlen_nonneg l). unfold wrap32, wrapN, int_max in *. rewrite Z.mod_small by lia. lia.
Qed.

(** the deque outgrows its initial capacity from eight parts on *)
Theorem C78_initial_capacity : forall a b l, filled a -> filled b -> Forall filled l -> zlen l + 2 <= int_max ->
  (initialStackSize (appends a (b :: l)) < deque_peak (appends a (b :: l)) <-> 8 <= zlen l + 2).
Proof.
  intros a b l Ha Hb Hl L. rewrite (C78_appends_exact a b l Ha Hb Hl). unfold initialStackSize.
  assert (elementCount (appends a (b :: l)) = zlen l + 2) as ->.
  { rewrite (C78_shape_of_appends a b l Ha Hb Hl). cbn [concat0 elementCount]. rewrite comb_count by lia. pose proof (zlen_nonneg l).
    unfold wrap32, wrapN, int_max in *. rewrite Z.mod_small by lia. lia. }
  pose proof (Z.div_mod (zlen l + 2) 4 ltac:(lia)). pose proof (Z.mod_pos_bound (zlen l + 2) 4 ltac:(lia)). lia.
Qed.
Print Assumptions C78_initial_capacity.

(** an array of parts needs all but the first at once *)
Example C78_example :
  let x := ARep 97 1 in
  deque_peak (appends x [x; x; x; x; x; x; x]) = 6 /\ initialStackSize (appends x [x; x; x; x; x; x; x]) = 5 /\
  deque_peak (prepends x [x; x; x; x; x; x; x]) = 1 /\ deque_peak (Arr [x; x; x] 3) = 2 /\ s_iter (appends x [x; x]) = Ok [x; x; x].
Proof. repeat split; reflexivity. Qed.
