(** Sequences that report a wrong length: the padding computed from it; cutting trailing zeros off composite sequences. *)
From Coq Require Import QArith.
From Verif Require Import Base Digits UtilsM SeqM SeqSpec SeqP SeqSubP ContextM IntFormM FormatterM DoubleM FmtSpec FmtP FloatSpec BigSpec FPDecP FloatP DoubleP FloatQ.
Open Scope Z_scope.

(** [s] denotes [t] and reports length [a] *)
Inductive adn : seq -> list Z -> Z -> Prop :=
| adn_den s t : den s t -> adn s t (zlen t)
| adn_arr ps t n : wden (Arr ps n) t -> 0 <= n <= int_max -> adn (Arr ps n) t n
| adn_cat l r tl tr a b k : adn l tl a -> adn r tr b -> a + b <= int_max -> adn (Cat l r (a + b) k) (tl ++ tr) (a + b).

Lemma adn_len s t a : adn s t a -> s_len s = a.
Proof. intros H. destruct H; [apply den_len; assumption|reflexivity|reflexivity]. Qed.

Lemma adn_wden s t a : adn s t a -> wden s t.
Proof. intros H. induction H; [apply den_wden; assumption|assumption|constructor; assumption]. Qed.

Lemma adn_range s t a : adn s t a -> 0 <= a <= int_max.
Proof. intros H. induction H; [pose proof (zlen_nonneg t); pose proof (den_max _ _ H); lia|assumption|lia]. Qed.

Lemma concat0_adn l r tl tr a b : adn l tl a -> adn r tr b -> a + b <= int_max -> adn (concat0 l r) (tl ++ tr) (a + b).
Proof.
  intros Hl Hr Hm. unfold concat0. rewrite (adn_len _ _ _ Hl), (adn_len _ _ _ Hr). pose proof (adn_range _ _ _ Hl). pose proof (adn_range _ _ _ Hr).
  rewrite int_max_val in *. rewrite wrap32_small by lia. constructor; [assumption|assumption|rewrite int_max_val; lia].
Qed.

Lemma s_concat_adn l r tl tr a b : adn l tl a -> adn r tr b -> a + b <= int_max -> adn (s_concat l r) (tl ++ tr) (a + b).
Proof.
  intros Hl Hr Hm. destruct l as [x|ll lr n k|ps n]; cbn [s_concat]; try (apply concat0_adn; assumption).
  assert (exists t1 t2 a1 a2, adn ll t1 a1 /\ adn lr t2 a2 /\ tl = t1 ++ t2 /\ a = a1 + a2) as (t1 & t2 & a1 & a2 & H1 & H2 & -> & ->).
  { inversion Hl as [s t D|ps t n' W|l' r' t1 t2 a1 a2 k' L1 L2 M]; subst.
    - inversion D; subst. exists tl0, tr0, (zlen tl0), (zlen tr0). rewrite zlen_app. repeat split; constructor; assumption.
    - exists t1, t2, a1, a2. auto. }
  rewrite <- app_assoc, <- Z.add_assoc. pose proof (adn_range _ _ _ H1). apply concat0_adn; [assumption|apply concat0_adn; try assumption; lia|lia].
Qed.

Lemma s_append_adn s x ts tx a : adn s ts a -> den x tx -> a + zlen tx <= int_max -> adn (s_append s x) (ts ++ tx) (a + zlen tx).
Proof.
  intros Hs Hx Hm. unfold s_append.
  assert (G : adn (if s_isEmpty x then s else s_concat s x) (ts ++ tx) (a + zlen tx)).
  { destruct (s_isEmpty x) eqn:E.
    - apply (den_isEmpty _ _ Hx) in E. subst. rewrite app_nil_r, Z.add_0_r. exact Hs.
    - apply s_concat_adn; [assumption|constructor; assumption|assumption]. }
  destruct s as [[]| |]; try exact G.
  inversion Hs as [? ? D| |]; subst. inversion D as [? ? [_ Ht]| |]; subst. cbn. constructor. exact Hx.
Qed.

Lemma s_prepend_adn s x ts tx a : adn s ts a -> den x tx -> zlen tx + a <= int_max -> adn (s_prepend s x) (tx ++ ts) (zlen tx + a).
Proof.
  intros Hs Hx Hm. unfold s_prepend.
  assert (G : adn (if s_isEmpty x then s else s_concat x s) (tx ++ ts) (zlen tx + a)).
  { destruct (s_isEmpty x) eqn:E.
    - apply (den_isEmpty _ _ Hx) in E. subst. exact Hs.
    - apply s_concat_adn; [constructor; assumption|assumption|assumption]. }
  destruct s as [[]| |]; try exact G.
  inversion Hs as [? ? D| |]; subst. inversion D as [? ? [_ Ht]| |]; subst. rewrite app_nil_r. change (zlen (@nil Z)) with 0. rewrite Z.add_0_r. constructor. exact Hx.
Qed.

Lemma sign_adn c s t a neg : adn s t a -> a < int_max ->
  adn (sign c s neg) (sign_text (q_of c) neg ++ t) (zlen (sign_text (q_of c) neg) + a).
Proof.
  intros Hd Hm. unfold sign, sign_text.
  assert (G : forall x, adn (s_prepend s (chS x)) ([x] ++ t) (zlen [x] + a)).
  { intros x. apply s_prepend_adn; [assumption|apply chS_den|]. rewrite zlen_one. lia. }
  destruct neg; [apply G|].
  change (hasFlag c PLUS) with (q_plus (q_of c)). destruct (q_plus (q_of c)); [apply G|].
  change (hasFlag c LEADING_SPACE) with (q_space (q_of c)). destruct (q_space (q_of c)); [apply G|]. exact Hd.
Qed.

Lemma spaceJustify_adn c s t a n : rt_ok c -> adn s t a -> zlen t = a + n -> 0 <= n ->
  exists u, spaceJustify c s = Ok u /\ wden u (justify (widen (q_of c) n) t) /\ s_len u = Z.max (q_width (q_of c)) a.
Proof.
  intros Hc Hd Ht Hn. unfold spaceJustify, justify. destruct (width_val c Hc) as (W1 & W2 & W3 & W4).
  rewrite (adn_len _ _ _ Hd). pose proof (adn_range _ _ _ Hd) as Hm. cbn [widen q_width q_left].
  rewrite int_max_val in *. unfold spaces. replace (q_width (q_of c) + n - zlen t) with (q_width (q_of c) - a) by lia.
  destruct (a <? width c) eqn:E; bools.
  - assert (width c = q_width (q_of c)) as Ew by (apply W2; unfold int_min; lia).
    rewrite Ew in *. rewrite wrap32_small by lia.
    destruct (repeated_den (ch " ") (q_width (q_of c) - a)) as (p & Ep & Dp); [rewrite int_max_val; lia|].
    rewrite Ep. cbn [bind]. eexists; split; [reflexivity|].
    change (hasFlag c LEFT_JUSTIFY) with (q_left (q_of c)). destruct (q_left (q_of c)).
    + assert (A : adn (s_append s p) (t ++ rep (ch " ") (q_width (q_of c) - a)) (a + zlen (rep (ch " ") (q_width (q_of c) - a))))
        by (apply s_append_adn; [assumption|assumption|rewrite zlen_rep, int_max_val; lia]).
      split; [exact (adn_wden _ _ _ A)|]. rewrite (adn_len _ _ _ A), zlen_rep. lia.
    + assert (A : adn (s_prepend s p) (rep (ch " ") (q_width (q_of c) - a) ++ t) (zlen (rep (ch " ") (q_width (q_of c) - a)) + a))
        by (apply s_prepend_adn; [assumption|assumption|rewrite zlen_rep, int_max_val; lia]).
      split; [exact (adn_wden _ _ _ A)|]. rewrite (adn_len _ _ _ A), zlen_rep. lia.
  - eexists; split; [reflexivity|]. rewrite rep_nonpos by lia. rewrite app_nil_r. pose proof (adn_wden _ _ _ Hd). pose proof (adn_len _ _ _ Hd).
    destruct (q_left (q_of c)); (split; [assumption|lia]).
Qed.

Lemma signAndJustify_adn c s t a n neg : rt_ok c -> adn s t a -> zlen t = a + n -> 0 <= n -> a < int_max ->
  exists u, signAndJustify c s neg = Ok u /\ wden u (finite_text (widen (q_of c) n) neg t).
Proof.
  intros Hc Hd Ht Hn Hm. unfold signAndJustify, finite_text, pad_number. cbn [widen q_zero q_left q_width].
  change (sign_text (widen (q_of c) n) neg) with (sign_text (q_of c) neg).
  change (hasFlag c ZERO_PAD) with (q_zero (q_of c)). change (hasFlag c LEFT_JUSTIFY) with (q_left (q_of c)).
  pose proof (zlen_sign_text (q_of c) neg) as HS1.
  assert (SJ : exists u, spaceJustify c (sign c s neg) = Ok u /\ wden u (justify (widen (q_of c) n) (sign_text (q_of c) neg ++ t))).
  { destruct (spaceJustify_adn c (sign c s neg) (sign_text (q_of c) neg ++ t) (zlen (sign_text (q_of c) neg) + a) n Hc) as (u & Eu & Du & _);
      [apply sign_adn; assumption|rewrite zlen_app; lia|exact Hn|]. exists u. split; assumption. }
  destruct (q_zero (q_of c)) eqn:Ez, (q_left (q_of c)) eqn:El; cbn [negb orb andb]; try exact SJ.
  rewrite (width_nonleft c Hc El). destruct (width_val c Hc) as (_ & _ & W3 & _).
  set (w := q_width (q_of c)) in *.
  pose proof (hasSign_text c neg) as HS.
  assert (Ew : (if hasSign c neg then wrap32 (w - 1) else w) = w - zlen (sign_text (q_of c) neg)).
  { rewrite HS. destruct (hasSign c neg); [apply wrap32_small|]; lia. }
  rewrite Ew. cbv zeta. rewrite (adn_len _ _ _ Hd). pose proof (adn_range _ _ _ Hd). rewrite int_max_val in *.
  replace (w + n - zlen (sign_text (q_of c) neg) - zlen t) with (w - zlen (sign_text (q_of c) neg) - a) by lia.
  set (k := w - zlen (sign_text (q_of c) neg) - a) in *. unfold zeros.
  replace (a <? w - zlen (sign_text (q_of c) neg)) with (0 <? k) by (unfold k; destruct (Z.ltb_spec 0 (w - zlen (sign_text (q_of c) neg) - a)), (Z.ltb_spec a (w - zlen (sign_text (q_of c) neg))); lia).
  destruct (0 <? k) eqn:E; bools.
  - rewrite wrap32_small by (unfold k in *; lia). destruct (repeated_den (ch "0") k) as (p & Ep & Dp); [rewrite int_max_val; unfold k in *; lia|].
    fold k. rewrite Ep. cbn [bind]. eexists; split; [reflexivity|].
    assert (A : adn (s_prepend s p) (rep (ch "0") k ++ t) (zlen (rep (ch "0") k) + a))
      by (apply s_prepend_adn; [assumption|assumption|rewrite zlen_rep, int_max_val; unfold k in *; lia]).
    apply (adn_wden _ _ (zlen (sign_text (q_of c) neg) + (zlen (rep (ch "0") k) + a))). apply sign_adn; [exact A|]. rewrite zlen_rep, int_max_val; unfold k in *; lia.
  - cbn [bind]. eexists; split; [reflexivity|]. rewrite rep_nonpos by lia. cbn [app].
    apply (adn_wden _ _ (zlen (sign_text (q_of c) neg) + a)). apply sign_adn; [exact Hd|rewrite int_max_val; lia].
Qed.

(** ** cutting composite sequences *)

(** [s] consists of the non-empty pieces [ts] *)
Definition pieces (s : seq) (ts : list (list Z)) : Prop :=
  den s (concat ts) /\ Forall2 den_atom (leaves s) ts /\ Forall (fun t => t <> []) ts.

Lemma leaf_pieces s t : den s t -> t <> [] -> (exists a, s = Leaf a) -> pieces s [t].
Proof.
  intros D Ht [a ->]. inversion D; subst. unfold pieces. cbn [concat leaves]. rewrite app_nil_r. split; [exact D|]. split; constructor; try assumption; constructor.
Qed.

Lemma s_concat_leaves l r : leaves (s_concat l r) = leaves l ++ leaves r.
Proof. destruct l; cbn [s_concat concat0 leaves]; rewrite <- ?app_assoc; reflexivity. Qed.

Lemma nonempty_concat {A} (ts : list (list A)) : ts <> [] -> Forall (fun t => t <> []) ts -> concat ts <> [].
Proof. intros H F. destruct F as [|t ts Ht F]; [congruence|]. cbn. destruct t; [congruence|discriminate]. Qed.

Lemma append_pieces s x ts tx : pieces s ts -> pieces x tx -> ts <> [] -> tx <> [] -> zlen (concat (ts ++ tx)) <= int_max ->
  pieces (s_append s x) (ts ++ tx).
Proof.
  intros (D1 & L1 & N1) (D2 & L2 & N2) H1 H2 Hm. unfold pieces. rewrite concat_app in *. split; [apply s_append_den; assumption|].
  split; [|apply Forall_app; split; assumption].
  pose proof (nonempty_concat ts H1 N1) as C1. pose proof (nonempty_concat tx H2 N2) as C2.
  assert (E : s_append s x = s_concat s x).
  { unfold s_append. assert (s_isEmpty x = false) as ->.
    { destruct (s_isEmpty x) eqn:E; [|reflexivity]. apply (den_isEmpty _ _ D2) in E. congruence. }
    destruct s as [[]| |]; try reflexivity. inversion D1 as [? ? [_ Ht]| |]; subst. cbn in Ht. congruence. }
  rewrite E, s_concat_leaves. apply Forall2_app; assumption.
Qed.

Lemma prepend_pieces s x ts tx : pieces s ts -> pieces x tx -> ts <> [] -> tx <> [] -> zlen (concat (tx ++ ts)) <= int_max ->
  pieces (s_prepend s x) (tx ++ ts).
Proof.
  intros (D1 & L1 & N1) (D2 & L2 & N2) H1 H2 Hm. unfold pieces. rewrite concat_app in *. split; [apply s_prepend_den; assumption|].
  split; [|apply Forall_app; split; assumption].
  pose proof (nonempty_concat ts H1 N1) as C1. pose proof (nonempty_concat tx H2 N2) as C2.
  assert (E : s_prepend s x = s_concat x s).
  { unfold s_prepend. assert (s_isEmpty x = false) as ->.
    { destruct (s_isEmpty x) eqn:E; [|reflexivity]. apply (den_isEmpty _ _ D2) in E. congruence. }
    destruct s as [[]| |]; try reflexivity. inversion D1 as [? ? [_ Ht]| |]; subst. cbn in Ht. congruence. }
  rewrite E, s_concat_leaves. apply Forall2_app; assumption.
Qed.

(** the pieces before the cut stay whole; the reported length is that of the last piece kept *)
Lemma sub_loop_cut : forall atoms ts x last j buf,
  Forall2 den_atom atoms ts -> Forall (fun t => t <> []) ts -> den_atom x last ->
  zlen (concat ts) < j <= zlen (concat ts) + zlen last ->
  exists ys y, sub_loop (atoms ++ [x]) 0 j buf = Ok (buf ++ ys ++ [y], 0, j - zlen (concat ts)) /\
    Forall2 den_atom ys ts /\ den_atom y (slice last 0 (j - zlen (concat ts))).
Proof.
  induction atoms as [|a atoms IH]; intros ts x last j buf F N D Hj; inversion F; subst; cbn [app sub_loop concat] in *.
  - change (zlen (@nil Z)) with 0 in *. rewrite (den_atom_len _ _ D). replace (0 <? zlen last) with true by (symmetry; apply Z.ltb_lt; lia).
    replace (j <=? zlen last) with true by (symmetry; apply Z.leb_le; lia).
    destruct (a_sub_den x last 0 j D ltac:(lia) ltac:(lia) ltac:(lia)) as (b & Eb & Db). rewrite Eb. cbn [bind]. rewrite Z.sub_0_r.
    exists [], b. split; [reflexivity|]. split; [constructor|exact Db].
  - inversion N; subst. rewrite zlen_app in *. pose proof (zlen_nonneg (concat l')). assert (Hy : 0 < zlen y).
    { destruct y; [congruence|]. rewrite zlen_cons. pose proof (zlen_nonneg y). lia. }
    rewrite (den_atom_len _ _ H1). replace (0 <? zlen y) with true by (symmetry; apply Z.ltb_lt; lia).
    replace (j <=? zlen y) with false by (symmetry; apply Z.leb_gt; lia).
    destruct (a_sub_den a y 0 (zlen y) H1 ltac:(lia) ltac:(lia) ltac:(lia)) as (b & Eb & Db). rewrite Eb. cbn [bind].
    destruct (IH l' x last (j - zlen y) (buf ++ [b]) H3 ltac:(assumption) D ltac:(lia)) as (ys & z & E & Fy & Dz).
    exists (b :: ys), z. replace (j - (zlen y + zlen (concat l'))) with (j - zlen y - zlen (concat l')) by lia.
    split; [rewrite E, <- app_assoc; reflexivity|]. split; [|exact Dz]. constructor; [|exact Fy]. rewrite slice_full in Db. exact Db.
Qed.

Lemma s_sub_cut s ts last j : pieces s (ts ++ [last]) -> ts <> [] -> zlen (concat ts) < j < zlen (concat ts) + zlen last ->
  exists u, s_sub s 0 j = Ok u /\ adn u (concat ts ++ slice last 0 (j - zlen (concat ts))) (j - zlen (concat ts)).
Proof.
  intros (D & L & N) Ht Hj. rewrite concat_app in D. cbn [concat] in D. rewrite app_nil_r in D.
  pose proof (den_max _ _ D) as Hm. rewrite zlen_app in Hm. pose proof (zlen_nonneg (concat ts)) as Zc.
  apply Forall2_app_inv_r in L as (at1 & at2 & L1 & L2 & El). inversion L2 as [|x ? rest ? Dx Lr]; subst. inversion Lr; subst.
  apply Forall_app in N as [N1 N2].
  destruct (sub_loop_cut at1 ts x last j [] L1 N1 Dx ltac:(lia)) as (ys & y & E & Fy & Dy).
  assert (G : exists u, (let* _ := checkPositionIndexes 0 j (s_len s) in
     if 0 =? j then Ok (Leaf AEmpty)
     else if (0 =? 0) && (j =? s_len s) then Ok s
     else
       let* atoms := Ok (leaves s) in
       let* (buf, start', end') := sub_loop atoms 0 j [] in
       match buf with
       | [x] => Ok (Leaf x)
       | _ => Ok (Arr buf (wrap32 (end' - start')))
       end) = Ok u /\ adn u (concat ts ++ slice last 0 (j - zlen (concat ts))) (j - zlen (concat ts))).
  { rewrite (den_len _ _ D), zlen_app. rewrite checkIdxs_ok by lia. cbn [bind].
    replace (0 =? j) with false by (symmetry; apply Z.eqb_neq; lia). replace (j =? zlen (concat ts) + zlen last) with false by (symmetry; apply Z.eqb_neq; lia).
    rewrite andb_false_r. rewrite El, E. cbn [bind app]. rewrite Z.sub_0_r. rewrite wrap32_small by (rewrite int_max_val in Hm; lia).
    inversion Fy as [|y0 t0 ys0 ts0 Dy0 Fy0]; subst; [congruence|]. cbn [app].
    exists (Arr (y0 :: ys0 ++ [y]) (j - zlen (concat (t0 :: ts0)))). split; [destruct (ys0 ++ [y]) as [|q l2] eqn:Eq; [destruct ys0; discriminate|]; reflexivity|].
    constructor; [|lia].
    replace (concat (t0 :: ts0) ++ slice last 0 (j - zlen (concat (t0 :: ts0)))) with (concat ((t0 :: ts0) ++ [slice last 0 (j - zlen (concat (t0 :: ts0)))])).
    - cbn [app]. constructor. constructor; [exact Dy0|]. apply Forall2_app; [exact Fy0|]. constructor; [exact Dy|constructor].
    - rewrite concat_app. cbn [concat]. rewrite app_nil_r. reflexivity. }
  destruct s as [a|l r n k|ps n]; cbn [s_sub].
  - exfalso. cbn [leaves] in El. destruct at1 as [|a1 [|? ?]]; [|discriminate|discriminate]. inversion L1; subst. congruence.
  - rewrite s_iter_spec by (apply (wden_ne _ _ (den_wden _ _ D))). exact G.
  - rewrite s_iter_spec by (apply (wden_ne _ _ (den_wden _ _ D))). exact G.
Qed.

(** a cut within the first piece *)
Lemma sub_loop_first a atoms t j buf : den_atom a t -> 0 < j <= zlen t ->
  exists b, sub_loop (a :: atoms) 0 j buf = Ok (buf ++ [b], 0, j) /\ den_atom b (slice t 0 j).
Proof.
  intros D Hj. cbn [sub_loop]. rewrite (den_atom_len _ _ D). replace (0 <? zlen t) with true by (symmetry; apply Z.ltb_lt; lia).
  replace (j <=? zlen t) with true by (symmetry; apply Z.leb_le; lia).
  destruct (a_sub_den a t 0 j D ltac:(lia) ltac:(lia) ltac:(lia)) as (b & Eb & Db). rewrite Eb. cbn [bind]. exists b. split; [reflexivity|exact Db].
Qed.

Lemma s_sub_first s t ts j : pieces s (t :: ts) -> 0 < j <= zlen t -> exists u, s_sub s 0 j = Ok u /\ den u (slice t 0 j).
Proof.
  intros (D & L & N) Hj. pose proof (den_max _ _ D) as Hm. cbn [concat] in *. rewrite zlen_app in Hm. pose proof (zlen_nonneg (concat ts)) as Zc.
  inversion L as [|a ? atoms ? Da La El]; subst.
  destruct (sub_loop_first a atoms t j [] Da Hj) as (b & E & Db).
  assert (G : exists u, (let* _ := checkPositionIndexes 0 j (s_len s) in
     if 0 =? j then Ok (Leaf AEmpty)
     else if (0 =? 0) && (j =? s_len s) then Ok s
     else
       let* atoms := Ok (leaves s) in
       let* (buf, start', end') := sub_loop atoms 0 j [] in
       match buf with
       | [x] => Ok (Leaf x)
       | _ => Ok (Arr buf (wrap32 (end' - start')))
       end) = Ok u /\ den u (slice t 0 j)).
  { rewrite (den_len _ _ D), zlen_app. rewrite checkIdxs_ok by lia. cbn [bind].
    replace (0 =? j) with false by (symmetry; apply Z.eqb_neq; lia). destruct (j =? zlen t + zlen (concat ts)) eqn:Ej; bools.
    - assert (concat ts = []) as Ec by (destruct (concat ts) as [|h w]; [reflexivity|rewrite zlen_cons in *; pose proof (zlen_nonneg w); lia]).
      rewrite Ec, app_nil_r in D. rewrite Ec in Ej. change (zlen (@nil Z)) with 0 in Ej. exists s. split; [reflexivity|]. replace j with (zlen t) by lia. rewrite slice_full. exact D.
    - cbn [andb]. rewrite <- El, E. cbn [bind app]. exists (Leaf b). split; [reflexivity|]. constructor. exact Db. }
  destruct s as [a0|l r n k|ps n]; cbn [s_sub].
  - cbn [leaves] in El. injection El as E1 E2. subst a. destruct (s_sub_leaf a0 t 0 j Da ltac:(lia) ltac:(lia) ltac:(lia)) as (b0 & Eb & D0). exists (Leaf b0). split; [exact Eb|exact D0].
  - rewrite s_iter_spec by (apply (wden_ne _ _ (den_wden _ _ D))). exact G.
  - rewrite s_iter_spec by (apply (wden_ne _ _ (den_wden _ _ D))). exact G.
Qed.

(** stripTrailingZeros is a cut *)
Lemma strip_is_cut s A F : den s (A ++ ch "." :: F) -> index_of (ch ".") A = -1 ->
  stripTrailingZeros s = s_sub s 0 (zlen (A ++ strip_fraction F)).
Proof.
  intros Hd Ha. unfold stripTrailingZeros. rewrite (s_indexOf_wden _ _ _ (den_wden _ _ Hd) (den_max _ _ Hd)). cbn [bind].
  rewrite index_of_app, Ha. cbn [index_of]. change (ch "." =? ch ".") with true. cbn match. change (-1 =? -1) with true. change (0 =? -1) with false. cbn match.
  pose proof (zlen_nonneg A) as La. rewrite Z.add_0_r. unfold NOT_FOUND. replace (zlen A =? -1) with false by (symmetry; apply Z.eqb_neq; lia).
  rewrite (den_len _ _ Hd). rewrite zlen_app, zlen_cons in *. pose proof (zlen_nonneg F) as Lf.
  replace (zlen A + (1 + zlen F) - 1) with (zlen A + zlen F) by lia.
  rewrite (stripLoop_spec s A F []); [|rewrite app_nil_r; exact Hd|unfold zlen; lia]. cbn [bind]. f_equal.
  unfold strip_fraction. rewrite zlen_app. pose proof (zlen_nonneg (strip0 F)). destruct (strip0 F) as [|y r].
  - change (zlen (@nil Z)) with 0. rewrite Z.add_0_r, Z.eqb_refl. lia.
  - rewrite !zlen_cons in *. pose proof (zlen_nonneg r). replace (zlen A + (1 + zlen r) =? zlen A) with false by (symmetry; apply Z.eqb_neq; lia). lia.
Qed.

Lemma s_sub_whole s t : den s t -> t <> [] -> exists u, s_sub s 0 (zlen t) = Ok u /\ den u t.
Proof.
  intros D Ht. pose proof (den_len _ _ D) as L. assert (0 < zlen t) by (destruct t; [congruence|rewrite zlen_cons; pose proof (zlen_nonneg t); lia]).
  assert (G : (let* _ := checkPositionIndexes 0 (zlen t) (s_len s) in
     if 0 =? zlen t then Ok (Leaf AEmpty)
     else if (0 =? 0) && (zlen t =? s_len s) then Ok s
     else
       let* atoms := s_iter s in
       let* (buf, start', end') := sub_loop atoms 0 (zlen t) [] in
       match buf with
       | [x] => Ok (Leaf x)
       | _ => Ok (Arr buf (wrap32 (end' - start')))
       end) = Ok s).
  { rewrite L. rewrite checkIdxs_ok by lia. cbn [bind]. replace (0 =? zlen t) with false by (symmetry; apply Z.eqb_neq; lia). rewrite (Z.eqb_refl (zlen t)). reflexivity. }
  destruct s as [a|l r n k|ps n]; [|exists (Cat l r n k); split; [exact G|exact D]|exists (Arr ps n); split; [exact G|exact D]].
  inversion D; subst. destruct (s_sub_leaf a t 0 (zlen t)) as (b & Eb & Db); try assumption; try lia. rewrite slice_full in Db. exists (Leaf b). split; assumption.
Qed.

(** fraction digits left after cutting *)
Lemma drop_zeros_facts N j : 0 <= N -> 0 <= j -> let (M, r) := drop_zeros (Z.to_nat j) N in
  0 <= r <= j /\ N = M * 10 ^ (j - r) /\ 0 <= M /\ M / 10 ^ r = N / 10 ^ j /\ zlen (short_text N j) = zlen (numeral 10 (N / 10 ^ j)) + (if r =? 0 then 0 else 1 + r).
Proof.
  intros HN Hj. unfold short_text. pose proof (FloatQ.drop_zeros_value (Z.to_nat j) N) as V. destruct (drop_zeros (Z.to_nat j) N) as [M r].
  rewrite Z2Nat.id in V by lia. destruct V as [V1 V2]. pose proof (pow10_pos (j - r) ltac:(lia)) as P.
  assert (HM : 0 <= M) by nia. assert (E : M / 10 ^ r = N / 10 ^ j).
  { replace (10 ^ j) with (10 ^ (r + (j - r))) by (f_equal; lia). rewrite V2. rewrite div_shift by lia. reflexivity. }
  split; [lia|]. split; [exact V2|]. split; [exact HM|]. split; [exact E|]. rewrite zlen_decimal_text by lia. rewrite E. reflexivity.
Qed.

Lemma decimal_text_split N j : 0 < j -> decimal_text N j = numeral 10 (N / 10 ^ j) ++ ch "." :: fraction j N.
Proof. intros H. unfold decimal_text. replace (j =? 0) with false by (symmetry; apply Z.eqb_neq; lia). reflexivity. Qed.

(** how the mantissa [N * 10^-j] is put together *)
Definition laid_out (s : seq) (N j : Z) : Prop :=
  den s (decimal_text N j) /\
  (j = 0 \/
   0 < j < ndigits N /\ pieces s [numeral 10 (N / 10 ^ j); txt "."; fraction j N] \/
   ndigits N <= j /\ 0 < N /\ exists pre, pieces s (pre ++ [numeral 10 N]) /\ pre <> [] /\ concat pre = txt "0." ++ zeros (j - ndigits N)).

Lemma strip_laid_out s N j : laid_out s N j -> 0 <= N -> 0 <= j ->
  exists u, stripTrailingZeros s = Ok u /\ adn u (short_text N j) (zlen (short_text N j) - cut_loss N j).
Proof.
  intros [D L] HN Hj. destruct L as [->|L].
  - rewrite short_text_0. assert (cut_loss N 0 = 0) as -> by reflexivity. rewrite Z.sub_0_r.
    rewrite (strip_nodot s _ D) by (rewrite decimal_text_dot by lia; reflexivity). exists s. split; [reflexivity|constructor; exact D].
  - assert (J0 : 0 < j). { destruct L as [[H _]|(H & HN0 & _)]; [lia|]. destruct (ndigits_bounds N HN0). lia. }
    pose proof (pow10_pos j Hj) as Pj. assert (Hq : 0 <= N / 10 ^ j) by (apply Z.div_pos; lia).
    pose proof D as D'. rewrite decimal_text_split in D' by exact J0.
    rewrite (strip_is_cut s _ _ D') by (apply no_dot, numeral_dig; exact Hq). rewrite <- short_text_strip by lia.
    pose proof (drop_zeros_facts N j HN Hj) as F. unfold cut_loss. destruct (drop_zeros (Z.to_nat j) N) as [M r]. destruct F as (Hr & EN & HM & ED & EZ).
    assert (T : exists R, decimal_text N j = short_text N j ++ R).
    { rewrite decimal_text_split by exact J0. rewrite short_text_strip by lia. unfold strip_fraction. destruct (strip0_prefix (fraction j N)) as (k & E & Hk).
      destruct (strip0 (fraction j N)) as [|y l].
      - exists (ch "." :: rep (ch "0") k). rewrite E at 1. rewrite app_nil_r. reflexivity.
      - exists (rep (ch "0") k). rewrite E at 1. rewrite <- !app_assoc. reflexivity. }
    destruct T as [R ER]. pose proof (numeral_nonempty 10 (N / 10 ^ j) ltac:(lia) Hq) as NE.
    destruct (r =? j) eqn:E1; bools; [cbn [orb]|].
    { subst r. replace (j =? 0) with false in EZ by (symmetry; apply Z.eqb_neq; lia).
      assert (R = []) as ->.
      { apply (f_equal (@zlen Z)) in ER. rewrite zlen_app, zlen_decimal_text in ER by lia. replace (j =? 0) with false in ER by (symmetry; apply Z.eqb_neq; lia).
        destruct R as [|x R]; [reflexivity|]. rewrite zlen_cons in ER. pose proof (zlen_nonneg R). lia. }
      rewrite app_nil_r in ER. rewrite <- ER in *. rewrite Z.sub_0_r. destruct (s_sub_whole s _ D) as (u & Eu & Du).
      { intros H. rewrite H in EZ. change (zlen (@nil Z)) with 0 in EZ. lia. }
      exists u. split; [exact Eu|constructor; exact Du]. }
    destruct L as [(Hn & P)|(Hn & HN0 & pre & P & Pn & Pc)].
    + assert (En : zlen (numeral 10 (N / 10 ^ j)) = ndigits N - j).
      { unfold ndigits. rewrite (digits_split 10 N (Z.to_nat j)); rewrite ?Z2Nat.id by lia; try lia.
        - rewrite zlen_app, fixdigs_length, zlen_numeral. lia.
        - destruct (Z.eq_dec N 0) as [->|Hz]; [change (ndigits 0) with 1 in Hn; lia|]. destruct (ndigits_bounds N ltac:(lia)) as (B1 & B2 & _).
          assert (10 ^ j <= 10 ^ (ndigits N - 1)) by (apply Z.pow_le_mono_r; lia). lia. }
      destruct (r =? 0) eqn:E0; bools; cbn [orb].
      * rewrite Z.sub_0_r. assert (ES : short_text N j = numeral 10 (N / 10 ^ j)).
        { rewrite short_text_strip in * by lia. rewrite zlen_app in EZ. destruct (strip_fraction (fraction j N)) as [|x l]; [apply app_nil_r|].
          rewrite zlen_cons in EZ. pose proof (zlen_nonneg l). lia. }
        rewrite ES. destruct (s_sub_first s _ _ (zlen (numeral 10 (N / 10 ^ j))) P ltac:(lia)) as (u & Eu & Du).
        rewrite slice_full in Du. exists u. split; [exact Eu|constructor; exact Du].
      * replace (j <? ndigits N) with true by (symmetry; apply Z.ltb_lt; lia). cbn match.
        assert (Cc : concat [numeral 10 (N / 10 ^ j); txt "."] = numeral 10 (N / 10 ^ j) ++ txt ".") by (cbn [concat]; rewrite app_nil_r; reflexivity).
        assert (Cz : zlen (concat [numeral 10 (N / 10 ^ j); txt "."]) = ndigits N - j + 1) by (rewrite Cc, zlen_app, En; reflexivity).
        destruct (s_sub_cut s [numeral 10 (N / 10 ^ j); txt "."] (fraction j N) (zlen (short_text N j)) P ltac:(discriminate)) as (u & Eu & Du).
        { rewrite Cz, EZ, En, zlen_fraction. lia. }
        exists u. split; [exact Eu|]. rewrite Cz in Du. replace (ndigits N - j + 1) with (zlen (numeral 10 (N / 10 ^ j)) + 1) in * by lia.
        enough (ET : concat [numeral 10 (N / 10 ^ j); txt "."] ++ slice (fraction j N) 0 (zlen (short_text N j) - (zlen (numeral 10 (N / 10 ^ j)) + 1)) = short_text N j) by (rewrite ET in Du; exact Du).
        rewrite Cc. rewrite short_text_strip in * by lia. rewrite zlen_app in *. unfold strip_fraction in *. destruct (strip0_prefix (fraction j N)) as (k & E & Hk).
        destruct (strip0 (fraction j N)) as [|y l] eqn:Es; [change (zlen (@nil Z)) with 0 in EZ; lia|]. rewrite <- app_assoc. f_equal. change (txt ".") with [ch "."]. cbn [app]. f_equal.
        rewrite E. replace (zlen (numeral 10 (N / 10 ^ j)) + zlen (ch "." :: y :: l) - (zlen (numeral 10 (N / 10 ^ j)) + 1)) with (zlen (y :: l)) by (rewrite !zlen_cons; lia).
        apply slice_prefix.
    + destruct (ndigits_bounds N HN0) as (B1 & B2 & B3).
      assert (Rr : j - ndigits N < r).
      { destruct (Z_lt_ge_dec (j - ndigits N) r) as [H|H]; [exact H|exfalso]. assert (1 <= M) by nia.
        assert (10 ^ ndigits N <= 10 ^ (j - r)) by (apply Z.pow_le_mono_r; lia). nia. }
      replace (r =? 0) with false in * by (symmetry; apply Z.eqb_neq; lia). cbn [orb]. replace (j <? ndigits N) with false by (symmetry; apply Z.ltb_ge; lia).
      assert (Eq0 : N / 10 ^ j = 0). { apply Z.div_small. assert (10 ^ ndigits N <= 10 ^ j) by (apply Z.pow_le_mono_r; lia). lia. }
      rewrite Eq0 in *. rewrite numeral_0 in *. change (zlen (txt "0")) with 1 in *.
      assert (Cz : zlen (concat pre) = j - ndigits N + 2) by (rewrite Pc, zlen_app; unfold zeros; rewrite zlen_rep; change (zlen (txt "0.")) with 2; lia).
      assert (Ln : zlen (numeral 10 N) = ndigits N) by apply zlen_numeral.
      destruct (s_sub_cut s pre (numeral 10 N) (zlen (short_text N j)) P Pn ltac:(rewrite Cz, EZ, Ln; lia)) as (u & Eu & Du).
      exists u. split; [exact Eu|]. rewrite Cz in Du.
      enough (ET : concat pre ++ slice (numeral 10 N) 0 (zlen (short_text N j) - (j - ndigits N + 2)) = short_text N j) by (rewrite ET in Du; exact Du).
      destruct P as (Dp & _). rewrite concat_app in Dp. cbn [concat] in Dp. rewrite app_nil_r in Dp.
      assert (Ep : concat pre ++ numeral 10 N = decimal_text N j).
      { rewrite decimal_text_split by lia. rewrite Eq0, numeral_0, Pc, <- app_assoc. change (txt "0.") with [ch "0"; ch "."]. change (txt "0") with [ch "0"]. cbn [app]. do 2 f_equal.
        replace j with (j - ndigits N + ndigits N) at 2 by lia. rewrite fraction_app by lia. rewrite Z.div_small by lia. rewrite (numeral_fraction N) by lia.
        rewrite <- (Z.mul_0_l (10 ^ (j - ndigits N))), fraction_shift by lia. reflexivity. }
      rewrite ER in Ep. set (c := zlen (short_text N j)) in *.
      assert (G : slice (concat pre ++ numeral 10 N) 0 c = short_text N j) by (rewrite Ep; apply slice_prefix).
      rewrite <- G. rewrite slice_app_mid by lia. rewrite slice_full, Cz. reflexivity.
Qed.
