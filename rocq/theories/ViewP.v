(** The objects of ViewM.v behave as ViewSpec.v says. *)
From Verif Require Import Base Digits UtilsM SeqM SeqSpec SeqP MiscM MiscSpec MiscP ViewM ViewSpec.

Definition vcells (r : nat) (st : Z) (n : nat) (up : bool) : list cell := map (fun i => Place r (st + Z.of_nat i) up) (List.seq 0 n).

Lemma places_cells r st n : places r st n = vcells r st n false.
Proof. reflexivity. Qed.
Lemma upper_cells r st n up : map in_upper (vcells r st n up) = vcells r st n true.
Proof. unfold vcells. rewrite map_map. reflexivity. Qed.
Lemma vcells_len r st n up : 0 <= n -> zlen (vcells r st (Z.to_nat n) up) = n.
Proof. intros H. unfold zlen, vcells. rewrite map_length, seq_length. lia. Qed.

Lemma firstn_seq : forall k a n, firstn k (List.seq a n) = List.seq a (Nat.min k n).
Proof. induction k as [|k IH]; intros a [|n]; cbn; [reflexivity..|]. rewrite IH. reflexivity. Qed.
Lemma skipn_seq : forall k a n, skipn k (List.seq a n) = List.seq (a + k) (n - k).
Proof.
  induction k as [|k IH]; intros a [|n]; cbn; rewrite ?Nat.add_0_r, ?Nat.sub_0_r; try reflexivity.
  rewrite IH. f_equal. lia.
Qed.

Lemma slice_cells r st n up i j : 0 <= i -> i <= j -> j <= n ->
  slice (vcells r st (Z.to_nat n) up) i j = vcells r (st + i) (Z.to_nat (j - i)) up.
Proof.
  intros Hi Hij Hj. unfold vcells, slice. rewrite skipn_map, firstn_map, skipn_seq, firstn_seq.
  replace (Nat.min (Z.to_nat (j - i)) (Z.to_nat n - Z.to_nat i)) with (Z.to_nat (j - i)) by lia. cbn [Nat.add].
  generalize (Z.to_nat (j - i)) as m. intros m.
  assert (G : forall k b, map (fun x => Place r (st + Z.of_nat x) up) (List.seq (Z.to_nat i + b) k) =
                          map (fun x => Place r (st + i + Z.of_nat x) up) (List.seq b k)).
  { induction k as [|k IH]; intros b; [reflexivity|]. cbn [List.seq map]. f_equal; [f_equal; lia|]. rewrite <- (IH (S b)).
    f_equal. f_equal. lia. }
  specialize (G m 0%nat). rewrite Nat.add_0_r in G. exact G.
Qed.

(** the content of a view *)
Definition shown (h : store) (r : nat) (st n : Z) (up : bool) : list Z :=
  if up then map ascii_upper (slice (array h r) st (st + n)) else slice (array h r) st (st + n).

Lemma content_cells h r st n up a : nth_error h r = Some a -> 0 <= st -> 0 <= n -> st + n <= zlen a ->
  content h (vcells r st (Z.to_nat n) up) = shown h r st n up.
Proof.
  intros Ha Hs Hn Hl. assert (Er : nth r h [] = a) by (apply nth_error_nth with (d := []) in Ha; exact Ha).
  unfold shown, array. rewrite Er. unfold content, vcells. rewrite map_map. cbn [value]. rewrite Er.
  assert (G : map (fun x : nat => nth (Z.to_nat (st + Z.of_nat x)) a 0) (List.seq 0 (Z.to_nat n)) = slice a st (st + n)).
  { unfold slice. replace (st + n - st) with n by lia. unfold zlen in Hl.
    assert (G' : forall k b, (b + k <= List.length a)%nat -> firstn k (skipn b a) = map (fun x => nth x a 0) (List.seq b k)).
    { induction k as [|k IH]; intros b Hb; [reflexivity|]. cbn [List.seq map]. rewrite <- IH by lia.
      clear - Hb. revert b Hb. induction a as [|x a IHa]; intros b Hb; [cbn in Hb; lia|]. destruct b as [|b]; [reflexivity|].
      cbn [skipn nth]. rewrite <- IHa by (cbn in Hb; lia). reflexivity. }
    rewrite G' by lia. generalize (Z.to_nat n) at 1 2. intros k.
    assert (G2 : forall k b, map (fun x : nat => nth (Z.to_nat (st + Z.of_nat x)) a 0) (List.seq b k) = map (fun x => nth x a 0) (List.seq (Z.to_nat st + b) k)).
    { clear - Hs. induction k as [|k IH]; intros b; [reflexivity|]. cbn [List.seq map]. rewrite IH. f_equal; [f_equal; lia|].
      f_equal. f_equal. lia. }
    rewrite G2, Nat.add_0_r. reflexivity. }
  destruct up; [|exact G]. rewrite <- G, map_map. reflexivity.
Qed.

Lemma shown_den h r st n up a : nth_error h r = Some a -> zlen a <= int_max -> 0 <= st -> 0 <= n -> st + n <= zlen a ->
  den_atom (AArr (array h r) st n up) (shown h r st n up).
Proof.
  intros Ha Hm Hs Hn Hl. assert (Er : array h r = a) by (apply nth_error_nth with (d := []) in Ha; exact Ha).
  unfold shown. rewrite Er. split.
  - destruct up; rewrite ?zlen_map, zlen_slice by lia; lia.
  - repeat split; auto.
Qed.

(** a view and the characters of it *)
Inductive rel (h : store) : jobj -> sobj -> Prop :=
| rel_view r st n up asked a : nth_error h r = Some a -> 0 <= st -> 0 <= n -> st + n <= zlen a ->
    rel h (View r st n up (first_hash asked)) (mkS (vcells r st (Z.to_nat n) up) true up asked)
| rel_still a t u asked : den_atom a t -> rel h (Still a) (mkS (map Fixed t) false u asked).

Record match_ (H : heap) (W : world) : Prop := mkMatch {
  ma_arrays : arrays H = w_arrays W;
  ma_held : held H = w_held W;
  ma_sizes : Forall (fun a => zlen a <= int_max) (arrays H);
  ma_objs : Forall2 (rel (arrays H)) (objs H) (w_objs W) }.

Lemma forall2_nth {A B} (R : A -> B -> Prop) l m n a : Forall2 R l m -> nth_error l n = Some a -> exists b, nth_error m n = Some b /\ R a b.
Proof. intros F. revert n. induction F as [|x y l m Hr F IH]; intros [|n] E; try discriminate; [injection E as <-; exists y; auto|]. apply IH. exact E. Qed.
Lemma forall2_none {A B} (R : A -> B -> Prop) l m n : Forall2 R l m -> nth_error l n = None -> nth_error m n = None.
Proof. intros F. revert n. induction F as [|x y l m Hr F IH]; intros [|n] E; try discriminate; [reflexivity|reflexivity|]. apply IH. exact E. Qed.
Lemma forall2_impl {A B} (R S : A -> B -> Prop) l m : (forall a b, R a b -> S a b) -> Forall2 R l m -> Forall2 S l m.
Proof. intros H F. induction F; constructor; auto. Qed.
Lemma forall2_set {A B} (R : A -> B -> Prop) l m n a b : Forall2 R l m -> R a b -> Forall2 R (set_nth l n a) (set_nth m n b).
Proof. intros F Hab. revert n. induction F as [|x y l m Hr F IH]; intros [|n]; cbn [set_nth]; constructor; auto. Qed.

Lemma at_found H W k : match_ H W ->
  match at_held H k with
  | Some (p, o) => exists s, found W k = Some (p, s) /\ rel (arrays H) o s
  | None => found W k = None
  end.
Proof.
  intros [E1 E2 E3 E4]. unfold at_held, found. rewrite <- E2. destruct (nth_error (held H) k) as [p|]; [|reflexivity].
  destruct (nth_error (objs H) p) as [o|] eqn:Eo.
  - destruct (forall2_nth _ _ _ _ _ E4 Eo) as (s & -> & R). eauto.
  - rewrite (forall2_none _ _ _ _ E4 Eo). reflexivity.
Qed.

Lemma give_match H W o s : match_ H W -> rel (arrays H) o s ->
  match_ (fst (give H o)) (fst (gives W s)) /\ snd (give H o) = snd (gives W s).
Proof.
  intros [E1 E2 E3 E4] R. split; [|reflexivity]. constructor; cbn [give gives fst snd arrays w_arrays held w_held objs w_objs]; auto.
  - rewrite E2. repeat f_equal. clear - E4. induction E4; cbn; congruence.
  - apply Forall2_app; auto.
Qed.

Lemma first_hash_app l t : first_hash (l ++ [t]) = if first_hash l =? 0 then string_hash t else first_hash l.
Proof.
  induction l as [|x l IH]; cbn [app first_hash].
  - destruct (string_hash t =? 0) eqn:E; [apply Z.eqb_eq in E; rewrite E; reflexivity|reflexivity].
  - destruct (string_hash x =? 0) eqn:E; [exact IH|]. rewrite E. reflexivity.
Qed.

Lemma nth_set_other {A} (l : list A) : forall n m x, n <> m -> nth_error (set_nth l n x) m = nth_error l m.
Proof. induction l as [|a l IH]; intros [|n] [|m] x D; cbn; auto; congruence. Qed.
Lemma nth_set_same {A} (l : list A) : forall n x y, nth_error l n = Some y -> nth_error (set_nth l n x) n = Some x.
Proof. induction l as [|a l IH]; intros [|n] x y E; try discriminate; cbn; eauto. Qed.
Lemma set_nth_parts {A} (l : list A) : forall n x, (n < List.length l)%nat -> set_nth l n x = firstn n l ++ x :: skipn (S n) l.
Proof. induction l as [|a l IH]; intros [|n] x D; cbn in *; try lia; [reflexivity|]. rewrite IH by lia. reflexivity. Qed.
Lemma set_nth_len {A} (l : list A) : forall n x, List.length (set_nth l n x) = List.length l.
Proof. induction l as [|a l IH]; intros [|n] x; cbn; auto. Qed.

(** writing to an array or making a new one keeps the views valid *)
Lemma rel_grow h h' o s : (forall r a, nth_error h r = Some a -> exists a', nth_error h' r = Some a' /\ zlen a' = zlen a) -> rel h o s -> rel h' o s.
Proof.
  intros G R. destruct R as [r st n up asked a Ha Hs Hn Hl|a t u asked D]; [|constructor; exact D].
  destruct (G r a Ha) as (a' & Ha' & El). apply (rel_view h' r st n up asked a'); lia || assumption.
Qed.

Lemma fixed_len t : zlen (map Fixed t) = zlen t.
Proof. apply zlen_map. Qed.
Lemma fixed_content h t : content h (map Fixed t) = t.
Proof. unfold content. rewrite map_map. cbn [value]. apply map_id. Qed.
Lemma range_cases i j n : {0 <= i /\ i <= j /\ j <= n} + {~ (0 <= i /\ i <= j /\ j <= n)}.
Proof. destruct (Z_le_dec 0 i), (Z_le_dec i j), (Z_le_dec j n); (left; lia) || (right; lia). Qed.
Lemma range_true i j n : 0 <= i /\ i <= j /\ j <= n -> (0 <=? i) && (i <=? j) && (j <=? n) = true.
Proof. intros (A & B & C). rewrite !Bool.andb_true_iff, !Z.leb_le. auto. Qed.
Lemma range_false i j n : ~ (0 <= i /\ i <= j /\ j <= n) -> (0 <=? i) && (i <=? j) && (j <=? n) = false.
Proof. intros A. apply Bool.not_true_is_false. rewrite !Bool.andb_true_iff, !Z.leb_le. tauto. Qed.

Lemma step_match H W o : match_ H W -> op_ok o ->
  match_ (fst (step H o)) (fst (s_step W o)) /\ snd (step H o) = snd (s_step W o).
Proof.
  intros M Ho. pose proof M as [E1 E2 E3 E4]. destruct o as [a|r i c|r st n|k i j|k|k|k]; cbn [step s_step].
  - (* NewArray *)
    split; [|reflexivity]. constructor; cbn [fst arrays w_arrays held w_held objs w_objs]; [congruence|exact E2|apply Forall_app; auto|].
    eapply forall2_impl; [|exact E4]. intros o s. apply rel_grow. intros r x Hx. exists x. split; [|reflexivity].
    rewrite nth_error_app1; [exact Hx|]. apply nth_error_Some. congruence.
  - (* Write *)
    rewrite <- E1. destruct (nth_error (arrays H) r) as [a|] eqn:Ha; [|auto].
    destruct ((0 <=? i) && (i <? zlen a)) eqn:B; [|auto]. apply Bool.andb_true_iff in B. destruct B as [B1 B2].
    apply Z.leb_le in B1. apply Z.ltb_lt in B2. unfold zlen in B2. rewrite <- (set_nth_parts a (Z.to_nat i) c) by lia.
    split; [|reflexivity]. constructor; cbn [fst arrays w_arrays held w_held objs w_objs]; [rewrite E1; reflexivity|exact E2| |].
    + apply Forall_forall. intros x Hx. apply In_nth_error in Hx. destruct Hx as (q & Hq).
      destruct (Nat.eq_dec r q) as [<-|D].
      * rewrite (nth_set_same _ _ _ _ Ha) in Hq. injection Hq as <-. unfold zlen. rewrite set_nth_len.
        rewrite Forall_forall in E3. apply (E3 a). eapply nth_error_In. exact Ha.
      * rewrite nth_set_other in Hq by exact D. rewrite Forall_forall in E3. apply E3. eapply nth_error_In. exact Hq.
    + eapply forall2_impl; [|exact E4]. intros o s. apply rel_grow. intros q x Hq.
      destruct (Nat.eq_dec r q) as [<-|D].
      * rewrite Ha in Hq. injection Hq as <-. rewrite (nth_set_same _ _ _ _ Ha). eexists. split; [reflexivity|]. unfold zlen. rewrite set_nth_len. reflexivity.
      * rewrite nth_set_other by exact D. eauto.
  - (* Wrap *)
    destruct Ho as [Hi1 Hi2]. rewrite <- E1. destruct (nth_error (arrays H) r) as [a|] eqn:Ha; [|auto].
    assert (Hm : zlen a <= int_max). { rewrite Forall_forall in E3. apply E3. eapply nth_error_In. exact Ha. }
    destruct ((0 <=? st) && (0 <=? n) && (st + n <=? zlen a)) eqn:B.
    + rewrite !Bool.andb_true_iff, !Z.leb_le in B. destruct B as [[B1 B2] B3].
      destruct (s_forArray3_den a st n Hm B1 B2 B3) as [-> _]. apply give_match; [exact M|]. rewrite places_cells.
      apply (rel_view _ r st n false [] a); assumption.
    + rewrite s_forArray3_bad; auto. intros (B1 & B2 & B3). rewrite !Bool.andb_false_iff, !Z.leb_gt in B. lia.
  - (* Slice *)
    pose proof (at_found H W k M) as F. destruct (at_held H k) as [[p o]|]; [|rewrite F; auto].
    destruct F as (s & -> & R). destruct R as [r st n up asked a Ha Hs Hn Hl|a t u asked D]; cbn [o_sub so_cells so_follows so_upper].
    + rewrite vcells_len by exact Hn. destruct (range_cases i j n) as [B|B].
      * rewrite (range_true _ _ _ B), checkIdxs_ok by lia. cbn [bind]. destruct (i =? j) eqn:Eij.
        { apply Z.eqb_eq in Eij. subst j. replace (i =? i + 1) with false by (symmetry; apply Z.eqb_neq; lia). rewrite Z.ltb_irrefl. cbn [andb].
          apply give_match; [exact M|]. rewrite slice_empty by lia. apply (rel_still _ AEmpty [] up []). split; [vm_compute; discriminate|reflexivity]. }
        apply Z.eqb_neq in Eij. destruct (j =? i + 1) eqn:Ej.
        { apply Z.eqb_eq in Ej. subst j.
          assert (Er : array (arrays H) r = a) by (apply nth_error_nth with (d := []) in Ha; exact Ha).
          destruct (znth_some a (st + i)) as [c Hc]; [lia|]. rewrite Er, (jcharAt_ok _ _ _ Hc). cbn [bind].
          apply give_match; [exact M|]. rewrite slice_cells by lia. replace (i + 1 - i) with 1 by lia.
          assert (Ev : map (fun c0 => Fixed (value (w_arrays W) c0)) (vcells r (st + i) (Z.to_nat 1) up) = map Fixed [upIf up c]).
          { rewrite <- E1. rewrite <- map_map. f_equal. change (map (value (arrays H)) ?l) with (content (arrays H) l).
            rewrite (content_cells _ r (st + i) 1 up a) by (lia || assumption). unfold shown. rewrite Er. apply upIf_one. exact Hc. }
          rewrite Ev. apply rel_still. apply s_ch_den. }
        { replace (i <? j) with true by (symmetry; apply Z.ltb_lt; lia). cbn [andb]. rewrite slice_cells by lia.
          apply give_match; [exact M|]. apply (rel_view _ r (st + i) (j - i) up [] a); lia || assumption. }
      * rewrite (range_false _ _ _ B), checkIdxs_bad by exact B. auto.
    + rewrite fixed_len. destruct (range_cases i j (zlen t)) as [B|B].
      * rewrite (range_true _ _ _ B). destruct (a_sub_den a t i j D) as (b & -> & Db); try lia. cbn [bind andb].
        rewrite slice_map. destruct (j =? i + 1); apply give_match; auto.
        -- rewrite map_map. cbn [value]. apply rel_still. exact Db.
        -- apply rel_still. exact Db.
      * rewrite (range_false _ _ _ B), (a_sub_bad a t i j D B). auto.
  - (* Upper *)
    pose proof (at_found H W k M) as F. destruct (at_held H k) as [[p o]|]; [|rewrite F; auto].
    destruct F as (s & -> & R). destruct R as [r st n up asked a Ha Hs Hn Hl|a t u asked D]; cbn [so_cells so_follows so_upper andb].
    + destruct up.
      * split; [|reflexivity]. constructor; cbn [fst arrays w_arrays held w_held objs w_objs]; auto. rewrite E2. reflexivity.
      * apply give_match; [exact M|]. rewrite upper_cells. apply (rel_view _ r st n true [] a); assumption.
    + destruct (a_upper_den a t D) as (b & -> & Db). apply give_match; [exact M|].
      replace (map in_upper (map Fixed t)) with (map Fixed (map ascii_upper t)) by (rewrite !map_map; reflexivity). apply rel_still. exact Db.
  - (* Hash *)
    pose proof (at_found H W k M) as F. destruct (at_held H k) as [[p o]|]; [|rewrite F; auto].
    destruct F as (s & -> & R). destruct R as [r st n up asked a Ha Hs Hn Hl|a t u asked D]; cbn [so_cells so_follows so_upper so_asked]; [|auto].
    assert (Hm : zlen a <= int_max). { rewrite Forall_forall in E3. apply E3. eapply nth_error_In. exact Ha. }
    pose proof (shown_den (arrays H) r st n up a Ha Hm Hs Hn Hl) as Dv.
    assert (Eh : ca_hashCode (array (arrays H) r) st n up (first_hash asked) = Ok (first_hash (asked ++ [content (w_arrays W) (vcells r st (Z.to_nat n) up)]))).
    { rewrite <- E1, (content_cells _ r st n up a) by assumption. rewrite first_hash_app. destruct (first_hash asked =? 0) eqn:E0.
      - apply Z.eqb_eq in E0. rewrite E0. apply hash_spec; auto.
      - unfold ca_hashCode. rewrite E0. reflexivity. }
    rewrite Eh. split; [|reflexivity]. constructor; cbn [fst arrays w_arrays held w_held objs w_objs]; auto.
    apply forall2_set; [exact E4|]. apply (rel_view _ r st n up _ a); assumption.
  - (* Text *)
    pose proof (at_found H W k M) as F. destruct (at_held H k) as [[p o]|]; [|rewrite F; auto].
    destruct F as (s & -> & R). cbn [fst snd]. split; [exact M|].
    destruct R as [r st n up asked a Ha Hs Hn Hl|a t u asked D]; cbn [so_cells as_atom].
    + assert (Hm : zlen a <= int_max). { rewrite Forall_forall in E3. apply E3. eapply nth_error_In. exact Ha. }
      rewrite (a_toString_den _ _ (shown_den (arrays H) r st n up a Ha Hm Hs Hn Hl)). rewrite <- E1, (content_cells _ r st n up a) by assumption. reflexivity.
    + rewrite (a_toString_den _ _ D), fixed_content. reflexivity.
Qed.

Lemma runs_match l : forall H W, match_ H W -> Forall op_ok l -> runs l H = s_runs l W.
Proof.
  induction l as [|o l IH]; intros H W M F; [reflexivity|]. inversion F as [|x y Ho F']; subst. cbn [runs s_runs].
  destruct (step_match H W o M Ho) as [M' A]. destruct (step H o) as [H' a], (s_step W o) as [W' a']. cbn [fst snd] in *. subst a'.
  f_equal. apply IH; assumption.
Qed.
Lemma start_match : match_ nothing empty_world.
Proof. constructor; try reflexivity; constructor. Qed.
