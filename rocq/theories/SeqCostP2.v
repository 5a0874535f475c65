(** The number of pieces a conversion makes. *)
From Verif Require Import Base Digits UtilsM SeqM SeqSpec SeqP ContextM IntFormM FormatterM FPDecimalM DoubleM BigDecM TraitsM SeqCostM SeqCostP.

Lemma wrap_int x : int_min <= wrap32 x <= int_max.
Proof. unfold wrap32, int_min, int_max. pose proof (wrapN_range 32 x eq_refl) as H. change (2 ^ (32 - 1)) with 2147483648 in H. lia. Qed.
Lemma wrap_in x : int_min <= x <= int_max -> wrap32 x = x.
Proof. intros H. apply wrap32_id. exact H. Qed.

Lemma ok_inv {A} (a b : A) : Ok a = Ok b -> a = b.
Proof. intros E. injection E. auto. Qed.

(** at most [k] pieces, each of which adds to the target *)
Definition fine (k : Z) (s : seq) : Prop := ne s /\ Forall grows (leaves s) /\ zlen (leaves s) <= k.

Lemma fine_le j k s : fine j s -> j <= k -> fine k s.
Proof. intros (H1 & H2 & H3) L. repeat split; auto. lia. Qed.
Lemma fine_pos k s : fine k s -> 1 <= k.
Proof. intros (H & _ & L). apply ne_leaves in H. destruct (leaves s) as [|a l]; [tauto|]. rewrite zlen_cons in L. pose proof (zlen_nonneg l). lia. Qed.
Lemma fine_leaf a : grows a -> fine 1 (Leaf a).
Proof. intros H. repeat split; [repeat constructor; exact H|cbn; lia]. Qed.
Lemma fine_plain a : (forall act n, a <> ALazy act n) -> fine 1 (Leaf a).
Proof. intros H. apply fine_leaf, plain_grows, H. Qed.
Lemma fine_ch c : fine 1 (chS c).
Proof. apply fine_plain. discriminate. Qed.
Lemma wrap_plain s act n : s_wrap s <> ALazy act n.
Proof. unfold s_wrap. destruct (0 <? zlen s); [|discriminate]. destruct s as [|c [|d s]]; discriminate. Qed.
Lemma fine_wrap s : fine 1 (wrapS s).
Proof. apply fine_plain, wrap_plain. Qed.
Lemma wrap3_plain s i j a act n : s_wrap3 s i j = Ok a -> a <> ALazy act n.
Proof.
  unfold s_wrap3. destruct (checkPositionIndexes i j (zlen s)); [|discriminate]. cbn [bind]. destruct (i =? j); [intros E; injection E as <-; discriminate|].
  destruct (j =? i + 1); [|intros E; injection E as <-; discriminate]. destruct (jcharAt s i); [|discriminate]. intros E. injection E as <-. discriminate.
Qed.
Lemma fine_repeated c n s : repeated c n = Ok s -> fine 1 s.
Proof.
  unfold repeated, s_repeated. destruct (checkArgument (1 <=? n)); [|discriminate]. cbn [bind]. destruct (n =? 1); cbn [bind]; intros E; injection E as <-; apply fine_plain; discriminate.
Qed.
Lemma fine_empty : fine 1 emptyS.
Proof. apply fine_plain. discriminate. Qed.

Lemma fine_concat0 j k l r : fine j l -> fine k r -> fine (j + k) (concat0 l r).
Proof.
  intros (L1 & L2 & L3) (R1 & R2 & R3). unfold concat0. repeat split; cbn [ne leaves]; auto.
  - apply Forall_app. auto.
  - rewrite zlen_app. lia.
Qed.
Lemma fine_concat j k l r : fine j l -> fine k r -> fine (j + k) (s_concat l r).
Proof.
  intros L R. destruct l as [a|ll lr n c|ps n]; try (apply fine_concat0; assumption).
  destruct L as ((N1 & N2) & G & Z). destruct R as (R1 & R2 & R3). cbn [leaves] in G, Z. apply Forall_app in G as [G1 G2]. rewrite zlen_app in Z.
  cbn [s_concat]. unfold concat0. repeat split; cbn [ne leaves]; auto.
  - repeat (apply Forall_app; split); auto.
  - rewrite !zlen_app. lia.
Qed.
Lemma fine_append j k s x : fine j s -> fine k x -> fine (j + k) (s_append s x).
Proof.
  intros S X. pose proof (fine_pos _ _ S). pose proof (fine_pos _ _ X). unfold s_append.
  assert (A : fine (j + k) (if s_isEmpty x then s else s_concat s x)).
  { destruct (s_isEmpty x); [apply (fine_le j); [exact S|lia]|apply fine_concat; assumption]. }
  destruct s as [a| |]; try exact A. destruct a; try exact A. apply (fine_le k); [exact X|lia].
Qed.
Lemma fine_prepend j k s x : fine j s -> fine k x -> fine (j + k) (s_prepend s x).
Proof.
  intros S X. pose proof (fine_pos _ _ S). pose proof (fine_pos _ _ X). unfold s_prepend.
  assert (A : fine (j + k) (if s_isEmpty x then s else s_concat x s)).
  { destruct (s_isEmpty x); [apply (fine_le j); [exact S|lia]|]. replace (j + k) with (k + j) by lia. apply fine_concat; assumption. }
  destruct s as [a| |]; try exact A. destruct a; try exact A. apply (fine_le k); [exact X|lia].
Qed.

Lemma mapM_length {A B} (f : A -> res B) l : forall r, mapM f l = Ok r -> zlen r = zlen l.
Proof.
  induction l as [|a l IH]; cbn [mapM]; intros r E; [injection E as <-; reflexivity|]. destruct (f a); [|discriminate]. cbn [bind] in E.
  destruct (mapM f l) as [bs|]; [|discriminate]. injection E as <-. rewrite !zlen_cons, (IH _ eq_refl). reflexivity.
Qed.
Lemma upper_plain a b act n : a_upper a = Ok b -> b <> ALazy act n.
Proof.
  destruct a as [|c m|s st m up|s st m up|f m]; cbn [a_upper a_upper0]; intros E.
  - injection E as <-. discriminate.
  - injection E as <-. destruct (isLowerCase c); discriminate.
  - injection E as <-. destruct up; discriminate.
  - injection E as <-. destruct up; discriminate.
  - destruct (getCachedString f m) as [v|]; [|discriminate]. injection E as <-. unfold s_wrap. destruct (0 <? zlen v); [|discriminate].
    destruct v as [|c [|d v]]; cbn [a_upper0]; [discriminate| |discriminate]. unfold s_ch. cbn [a_upper0]. destruct (isLowerCase c); discriminate.
Qed.
Lemma fine_upper k s u : fine k s -> s_upper s = Ok u -> fine k u.
Proof.
  intros (H1 & H2 & H3) E.
  assert (C : (let* atoms := s_iter s in let* ups := mapM a_upper atoms in Ok (Arr ups (s_len s))) = Ok u -> fine k u).
  { rewrite (s_iter_spec _ H1). cbn [bind]. destruct (mapM a_upper (leaves s)) as [ups|] eqn:M; [|discriminate]. intros F. injection F as <-.
    pose proof (mapM_length _ _ _ M) as L. repeat split.
    - cbn [ne]. intros ->. apply ne_leaves in H1. destruct (leaves s); [tauto|]. rewrite zlen_cons, zlen_nil in L. pose proof (zlen_nonneg l). lia.
    - cbn [leaves]. clear - M. revert ups M. induction (leaves s) as [|a l IH]; cbn [mapM]; intros ups M; [injection M as <-; constructor|].
      destruct (a_upper a) as [b|] eqn:B; [|discriminate]. cbn [bind] in M. destruct (mapM a_upper l) as [bs|]; [|discriminate]. injection M as <-.
      constructor; [|apply IH; reflexivity]. apply plain_grows. intros act n. exact (upper_plain _ _ _ _ B).
    - cbn [leaves]. lia. }
  destruct s as [a|l r n c|ps n]; [|exact (C E)|exact (C E)].
  cbn [s_upper] in E. destruct (a_upper a) as [b|] eqn:B; [|discriminate]. injection E as <-. apply (fine_le 1); [|cbn in H3; lia].
  apply fine_plain. intros act n. exact (upper_plain _ _ _ _ B).
Qed.

(** ** Cutting *)
Lemma sub_plain a i j b : a_sub a i j = Ok b -> forall act n, b <> ALazy act n.
Proof.
  intros E act n. destruct a as [|c m|s st m up|s st m up|f m]; cbn [a_sub] in E.
  - destruct ((i =? 0) && (j =? 0)); [injection E as <-; discriminate|discriminate].
  - destruct (checkPositionIndexes i j m); [|discriminate]. cbn [bind] in E. destruct (i =? j); injection E as <-; discriminate.
  - destruct (checkPositionIndexes i j m); [|discriminate]. cbn [bind] in E. destruct (i =? j); [injection E as <-; discriminate|].
    destruct (j =? i + 1); [|injection E as <-; discriminate]. destruct (jcharAt s (st + i)); [|discriminate]. injection E as <-. discriminate.
  - destruct (checkPositionIndexes i j m); [|discriminate]. cbn [bind] in E. destruct (i =? j); [injection E as <-; discriminate|].
    destruct (j =? i + 1); [|injection E as <-; discriminate]. destruct (jcharAt s (st + i)); [|discriminate]. injection E as <-. discriminate.
  - destruct (checkPositionIndexes i j m); [|discriminate]. cbn [bind] in E. destruct (getCachedString f m) as [v|]; [|discriminate]. exact (wrap3_plain _ _ _ _ _ _ E).
Qed.

Lemma sub_loop_bound atoms : forall i j buf buf' i' j', sub_loop atoms i j buf = Ok (buf', i', j') ->
  Forall grows buf -> Forall grows buf' /\ zlen buf <= zlen buf' <= zlen buf + zlen atoms.
Proof.
  induction atoms as [|a l IH]; intros i j buf buf' i' j' E G; cbn [sub_loop] in E.
  - injection E as <- _ _. rewrite zlen_nil. split; [exact G|lia].
  - rewrite zlen_cons. pose proof (zlen_nonneg l). destruct (i <? a_len a); [|apply IH in E; [split; [tauto|lia]|exact G]].
    destruct (j <=? a_len a).
    + destruct (a_sub a i j) as [x|] eqn:S; [|discriminate]. injection E as <- _ _. rewrite zlen_app. change (zlen [x]) with 1. split; [|lia].
      apply Forall_app. split; [exact G|]. constructor; [apply plain_grows, (sub_plain _ _ _ _ S)|constructor].
    + destruct (a_sub a i (a_len a)) as [x|] eqn:S; [|discriminate]. apply IH in E; [rewrite zlen_app in E; change (zlen [x]) with 1 in E; split; [tauto|lia]|].
      apply Forall_app. split; [exact G|]. constructor; [apply plain_grows, (sub_plain _ _ _ _ S)|constructor].
Qed.

(** from the beginning of a text with a character in it something is kept *)
Definition filled_seq (s : seq) : Prop := Forall (fun a => 0 <= a_len a) (leaves s) /\ Exists (fun a => 0 < a_len a) (leaves s).
Lemma sub_loop_some atoms : Forall (fun a => 0 <= a_len a) atoms -> Exists (fun a => 0 < a_len a) atoms ->
  forall j buf buf' i' j', Forall grows buf -> sub_loop atoms 0 j buf = Ok (buf', i', j') -> 1 <= zlen buf'.
Proof.
  induction atoms as [|a l IH]; intros N X j buf buf' i' j' G E; [inversion X|]. inversion N as [|? ? N1 N2]; subst. cbn [sub_loop] in E. pose proof (zlen_nonneg buf).
  destruct (0 <? a_len a) eqn:P.
  - apply Z.ltb_lt in P. destruct (j <=? a_len a).
    + destruct (a_sub a 0 j) as [x|] eqn:S; [|discriminate]. injection E as <- _ _. rewrite zlen_app. change (zlen [x]) with 1. lia.
    + destruct (a_sub a 0 (a_len a)) as [x|] eqn:S; [|discriminate]. apply sub_loop_bound in E; [rewrite zlen_app in E; change (zlen [x]) with 1 in E; lia|].
      apply Forall_app. split; [exact G|]. constructor; [apply plain_grows, (sub_plain _ _ _ _ S)|constructor].
  - apply Z.ltb_ge in P. assert (a_len a = 0) as Z0 by lia. rewrite Z0 in E. inversion X as [? ? X1|? ? X1]; subst; [lia|]. exact (IH N2 X1 _ _ _ _ _ G E).
Qed.
Lemma fine_sub k s j u : fine k s -> (forall a, s <> Leaf a) -> filled_seq s -> s_sub s 0 j = Ok u -> fine k u.
Proof.
  intros F N (S1 & S2) E. pose proof (fine_pos _ _ F) as K. pose proof F as F0. destruct F as (H1 & H2 & H3).
  assert (C : (let n := s_len s in let* _ := checkPositionIndexes 0 j n in
      if 0 =? j then Ok (Leaf AEmpty) else if (0 =? 0) && (j =? n) then Ok s
      else let* atoms := s_iter s in let* (buf, start', end') := sub_loop atoms 0 j [] in
        match buf with [x] => Ok (Leaf x) | _ => Ok (Arr buf (wrap32 (end' - start'))) end) = Ok u -> fine k u).
  { cbv zeta. destruct (checkPositionIndexes 0 j (s_len s)); [|discriminate]. cbn [bind]. destruct (0 =? j).
    { intros Y. injection Y as <-. apply (fine_le 1); [apply fine_empty|lia]. }
    destruct ((0 =? 0) && (j =? s_len s)); [intros Y; injection Y as <-; exact F0|]. rewrite (s_iter_spec _ H1). cbn [bind].
    destruct (sub_loop (leaves s) 0 j []) as [[[buf i'] j']|] eqn:L; [|discriminate]. cbn [bind].
    pose proof (sub_loop_some _ S1 S2 _ _ _ _ _ (Forall_nil _) L) as P. apply sub_loop_bound in L; [|constructor]. rewrite zlen_nil in L. destruct L as [L1 L2].
    intros Y. assert (B : leaves u = buf /\ ne u).
    { destruct buf as [|x [|y buf]]; [rewrite zlen_nil in P; lia| |]; injection Y as <-; split; reflexivity || (cbn [ne]; auto). discriminate. }
    destruct B as [B1 B2]. repeat split; [exact B2|rewrite B1; exact L1|rewrite B1; lia]. }
  destruct s as [a| |]; [exfalso; exact (N a eq_refl)|exact (C E)|exact (C E)].
Qed.
Lemma fine_sub_leaf a j u : s_sub (Leaf a) 0 j = Ok u -> fine 1 u.
Proof. cbn [s_sub]. destruct (a_sub a 0 j) as [x|] eqn:S; [|discriminate]. intros E. injection E as <-. apply fine_plain, (sub_plain _ _ _ _ S). Qed.

(** ** The formatter *)
Lemma fine_justify k c s u : fine k s -> spaceJustify c s = Ok u -> fine (k + 1) u.
Proof.
  intros F. pose proof (fine_pos _ _ F). unfold spaceJustify. destruct (s_len s <? width c).
  - destruct (repeated _ _) as [pad|] eqn:R; [|discriminate]. apply fine_repeated in R.
    destruct (hasFlag c LEFT_JUSTIFY); intros E; injection E as <-; [apply fine_append|apply fine_prepend]; assumption.
  - intros E. injection E as <-. apply (fine_le k); [exact F|lia].
Qed.
Lemma fine_sign k c s neg : fine k s -> fine (k + 1) (sign c s neg).
Proof.
  intros F. unfold sign. destruct neg; [apply fine_prepend; [exact F|apply fine_ch]|]. destruct (hasFlag c PLUS); [apply fine_prepend; [exact F|apply fine_ch]|].
  destruct (hasFlag c LEADING_SPACE); [apply fine_prepend; [exact F|apply fine_ch]|]. apply (fine_le k); [exact F|lia].
Qed.
Lemma fine_signAndJustify k c s neg u : fine k s -> signAndJustify c s neg = Ok u -> fine (k + 2) u.
Proof.
  intros F. unfold signAndJustify. destruct (negb (hasFlag c ZERO_PAD) || hasFlag c LEFT_JUSTIFY).
  - intros E. replace (k + 2) with (k + 1 + 1) by lia. exact (fine_justify _ _ _ _ (fine_sign _ _ _ _ F) E).
  - cbv zeta. set (w := if hasSign c neg then _ else _). destruct (s_len s <? w).
    + destruct (repeated _ _) as [pad|] eqn:R; [|discriminate]. cbn [bind]. intros E. injection E as <-. apply fine_repeated in R.
      replace (k + 2) with (k + 1 + 1) by lia. apply fine_sign, fine_prepend; assumption.
    + cbn [bind]. intros E. injection E as <-. apply (fine_le (k + 1)); [|lia]. apply fine_sign, F.
Qed.
Lemma fine_padDigits k p s u : fine k s -> padDigits p s = Ok u -> fine (k + 1) u.
Proof.
  intros F. unfold padDigits. destruct (s_len s <? p).
  - destruct (repeated _ _) as [pad|] eqn:R; [|discriminate]. intros E. injection E as <-. apply fine_repeated in R. apply fine_prepend; assumption.
  - intros E. injection E as <-. apply (fine_le k); [exact F|lia].
Qed.

Lemma fine_d c v u : fmt_d c v = Ok u -> fine 4 u.
Proof.
  unfold fmt_d. destruct ((i_signum v =? 0) && (c_prec c =? 0)).
  - intros E. apply (fine_le 2); [|lia]. apply (fine_justify 1 c _ _) with (2 := E). destruct (hasFlag c PLUS); [apply fine_ch|apply fine_empty].
  - destruct (i_dec v) as [ds|]; [|discriminate]. cbn [bind]. destruct (padDigits _ _) as [w|] eqn:P; [|discriminate]. cbn [bind]. intros E.
    apply (fine_padDigits 1) in P; [|apply fine_wrap]. exact (fine_justify 3 _ _ _ (fine_sign 2 _ _ _ P) E).
Qed.
Lemma fine_unsigned c v f p u : formatUnsignedInteger c v f p = Ok u -> fine 4 u.
Proof.
  unfold formatUnsignedInteger. destruct ((i_signum v =? 0) && (c_prec c =? 0)).
  - intros E. apply (fine_le 2); [|lia]. exact (fine_justify 1 _ _ _ fine_empty E).
  - destruct (f v) as [ds|]; [|discriminate]. cbn [bind]. destruct (padDigits _ _) as [w|] eqn:P; [|discriminate]. cbn [bind]. intros E.
    apply (fine_padDigits 1) in P; [|apply fine_wrap]. refine (fine_justify 3 _ _ _ _ E).
    destruct (negb (i_signum v =? 0) && hasFlag c ALTERNATE); [apply (fine_prepend 2 1); [exact P|apply fine_wrap]|apply (fine_le 2); [exact P|lia]].
Qed.
Lemma fine_nan c v u : nanOrInfinity c v = Ok u -> fine 2 u.
Proof.
  unfold nanOrInfinity. intros E. refine (fine_justify 1 _ _ _ _ E). destruct (f_isNaN v); [apply fine_wrap|]. destruct (f_signum v <? 0); [apply fine_wrap|].
  destruct (hasFlag c PLUS); apply fine_wrap.
Qed.

(** ** Layouts *)

(** the whole number: at most two pieces, or three when there is a decimal point; something to cut from *)
Definition mant (m : seq) : Prop :=
  (fine 2 m \/ fine 3 m /\ exists i, s_indexOf m (ch ".") = Ok i /\ 0 <= i) /\ ((exists a, m = Leaf a) \/ filled_seq m).
Definition lay (k : Z) (l : layout) : Prop := mant (l_mant l) /\ (forall x, l_exp l = Some x -> fine k x).

Lemma mant_leaf a : (forall act n, a <> ALazy act n) -> mant (Leaf a).
Proof. intros H. split; [left; apply (fine_le 1); [apply fine_plain, H|lia]|]. left. exists a. reflexivity. Qed.
Lemma mant_fine m : mant m -> fine 3 m.
Proof. intros [[H|[H _]] _]; [apply (fine_le 2); [exact H|lia]|exact H]. Qed.

Lemma fine_fraction m p d u : mant m -> formatFractionalPart m p d = Ok u -> fine 4 u.
Proof.
  intros [[F|[F (i & I & P)]] _]; unfold formatFractionalPart.
  - destruct (s_indexOf m (ch ".")) as [dot|]; [|discriminate]. cbn [bind].
    assert (D : fine 3 (s_append m (chS (ch ".")))) by (apply (fine_append 2 1); [exact F|apply fine_ch]).
    destruct ((p =? 0) && (dot =? NOT_FOUND)).
    + intros E. injection E as <-. destruct d; [apply (fine_le 3); [exact D|lia]|apply (fine_le 2); [exact F|lia]].
    + cbv zeta. set (o := if 0 <=? dot then _ else _). destruct (p <=? o); [intros E; injection E as <-; apply (fine_le 2); [exact F|lia]|].
      destruct (repeated _ _) as [pad|] eqn:R; [|discriminate]. cbn [bind]. intros E. injection E as <-. apply fine_repeated in R.
      apply (fine_append 3 1); [|exact R]. destruct (dot <? 0); [exact D|apply (fine_le 2); [exact F|lia]].
  - rewrite I. cbn [bind]. replace (i =? NOT_FOUND) with false by (symmetry; apply Z.eqb_neq; unfold NOT_FOUND; lia). rewrite andb_false_r. cbv zeta.
    set (o := if 0 <=? i then _ else _). destruct (p <=? o); [intros E; injection E as <-; apply (fine_le 3); [exact F|lia]|].
    destruct (repeated _ _) as [pad|] eqn:R; [|discriminate]. cbn [bind]. intros E. injection E as <-. apply fine_repeated in R.
    apply (fine_append 3 1); [|exact R]. replace (i <? 0) with false by (symmetry; apply Z.ltb_ge; lia). exact F.
Qed.
Lemma fine_fraction1 m p d u : fine 1 m -> formatFractionalPart m p d = Ok u -> fine 3 u.
Proof.
  intros F. unfold formatFractionalPart.
  destruct (s_indexOf m (ch ".")) as [dot|]; [|discriminate]. cbn [bind].
  assert (D : fine 2 (s_append m (chS (ch ".")))) by (apply (fine_append 1 1); [exact F|apply fine_ch]).
  destruct ((p =? 0) && (dot =? NOT_FOUND)).
  - intros E. injection E as <-. destruct d; [apply (fine_le 2); [exact D|lia]|apply (fine_le 1); [exact F|lia]].
  - cbv zeta. set (o := if 0 <=? dot then _ else _). destruct (p <=? o); [intros E; injection E as <-; apply (fine_le 1); [exact F|lia]|].
    destruct (repeated _ _) as [pad|] eqn:R; [|discriminate]. cbn [bind]. intros E. injection E as <-. apply fine_repeated in R.
    apply (fine_append 2 1); [|exact R]. destruct (dot <? 0); [exact D|apply (fine_le 1); [exact F|lia]].
Qed.
Lemma fine_strip m u : mant m -> stripTrailingZeros m = Ok u -> fine 3 u.
Proof.
  intros M. pose proof (mant_fine _ M) as F. destruct M as [_ S]. unfold stripTrailingZeros. destruct (s_indexOf m (ch ".")) as [dot|]; [|discriminate]. cbn [bind].
  destruct (dot =? NOT_FOUND); [intros E; injection E as <-; exact F|]. destruct (stripLoop _ _ _ _) as [last|]; [|discriminate]. cbn [bind]. cbv zeta.
  set (e := (if last =? dot then last - 1 else last) + 1). intros E.
  destruct m as [a|l r n c|ps n]; [apply (fine_le 1); [exact (fine_sub_leaf _ _ _ E)|lia]| |];
  (destruct S as [[a Y]|S]; [discriminate Y|]; refine (fine_sub 3 _ _ _ F _ S E); discriminate).
Qed.
Lemma fine_padToPrecision m p u : mant m -> padToPrecision m p = Ok u -> fine 4 u.
Proof.
  intros M. unfold padToPrecision. destruct (sigLoop _ _ _ _ _) as [[sd seen]|]; [|discriminate]. cbn [bind].
  destruct (s_indexOf m (ch "0")) as [zero|]; [|discriminate]. cbn [bind]. cbv zeta. set (z := wrap32 _).
  destruct (s_indexOf m (ch ".")) as [dot|] eqn:D; [|discriminate]. cbn [bind].
  assert (X : fine 3 (if dot =? -1 then s_append m (chS (ch ".")) else m)).
  { destruct M as [[F|[F (i & I & P)]] _].
    - destruct (dot =? -1); [apply (fine_append 2 1); [exact F|apply fine_ch]|apply (fine_le 2); [exact F|lia]].
    - rewrite I in D. injection D as ->. replace (dot =? -1) with false by (symmetry; apply Z.eqb_neq; lia). exact F. }
  destruct (0 <? z).
  - destruct (repeated _ _) as [pad|] eqn:R; [|discriminate]. cbn [bind]. intros E. injection E as <-. apply fine_repeated in R. apply (fine_append 3 1); assumption.
  - intros E. injection E as <-. apply (fine_le 3); [exact X|lia].
Qed.

(** a number whose layouts have at most [k] pieces in the exponent *)
Definition form (k : Z) (v : floatform) : Prop :=
  1 <= k <= 3 /\
  (forall p l, f_general v p = Ok l -> lay k l) /\ (forall p l, f_scientific v p = Ok l -> lay k l) /\
  (forall p l, f_decimal v p = Ok l -> lay k l) /\ (forall p l, f_hex v p = Ok l -> lay 1 l /\ fine 1 (l_mant l)).

Lemma fine_f k c v u : form k v -> fmt_f c v = Ok u -> fine 6 u.
Proof.
  intros (K & _ & _ & H & _). unfold fmt_f. destruct (f_isNaN v || f_isInf v); [intros E; apply (fine_le 2); [exact (fine_nan _ _ _ E)|lia]|]. cbv zeta.
  destruct (f_decimal v (precOr6 c)) as [l|] eqn:L; [|discriminate]. cbn [bind]. destruct (H _ _ L) as [M _].
  destruct (formatFractionalPart _ _ _) as [m|] eqn:P; [|discriminate]. cbn [bind]. apply (fine_fraction _ _ _ _ M) in P. exact (fine_signAndJustify 4 _ _ _ _ P).
Qed.
Lemma fine_e k c v u : form k v -> fmt_e c v = Ok u -> fine 10 u.
Proof.
  intros (K & _ & H & _ & _). unfold fmt_e. destruct (f_isNaN v || f_isInf v); [intros E; apply (fine_le 2); [exact (fine_nan _ _ _ E)|lia]|]. cbv zeta.
  destruct (f_scientific v (precOr6 c)) as [l|] eqn:L; [|discriminate]. cbn [bind]. destruct (H _ _ L) as [M X].
  destruct (formatFractionalPart _ _ _) as [m|] eqn:P; [|discriminate]. cbn [bind]. apply (fine_fraction _ _ _ _ M) in P.
  destruct (l_exp l) as [x|] eqn:Y; cbn [nonNull bind]; [|discriminate]. specialize (X x eq_refl). apply (fine_signAndJustify 8). apply (fine_append 5 3).
  - apply (fine_append 4 1); [exact P|apply fine_ch].
  - apply (fine_le k); [exact X|lia].
Qed.
Lemma fine_g k c v u : form k v -> fmt_g c v = Ok u -> fine 9 u.
Proof.
  intros (K & H & _). unfold fmt_g. destruct (f_isNaN v || f_isInf v); [intros E; apply (fine_le 2); [exact (fine_nan _ _ _ E)|lia]|]. cbv zeta.
  set (p := if isPrecisionSet c then _ else _). destruct (f_general v p) as [l|] eqn:L; [|discriminate]. cbn [bind]. destruct (H _ _ L) as [M X].
  destruct (l_exp l) as [x|].
  - unfold formatGScientific. specialize (X x eq_refl).
    destruct (if negb (hasFlag c ALTERNATE) then stripTrailingZeros (l_mant l) else Ok (l_mant l)) as [m|] eqn:Y; [|discriminate]. cbn [bind].
    assert (fine 3 m). { destruct (negb (hasFlag c ALTERNATE)); [exact (fine_strip _ _ M Y)|injection Y as <-; exact (mant_fine _ M)]. }
    apply (fine_signAndJustify 7). apply (fine_append 4 3); [apply (fine_append 3 1); [assumption|apply fine_ch]|apply (fine_le k); [exact X|lia]].
  - unfold formatGDecimal. destruct (if hasFlag c ALTERNATE then padToPrecision (l_mant l) p else stripTrailingZeros (l_mant l)) as [m|] eqn:Y; [|discriminate]. cbn [bind].
    assert (fine 4 m). { destruct (hasFlag c ALTERNATE); [exact (fine_padToPrecision _ _ _ M Y)|apply (fine_le 3); [exact (fine_strip _ _ M Y)|lia]]. }
    intros E. apply (fine_le 6); [exact (fine_signAndJustify 4 _ _ _ _ H0 E)|lia].
Qed.
Lemma fine_a k c v u : form k v -> fmt_a c v = Ok u -> fine 8 u.
Proof.
  intros (K & _ & _ & _ & H). unfold fmt_a. destruct (f_isNaN v || f_isInf v); [intros E; apply (fine_le 2); [exact (fine_nan _ _ _ E)|lia]|]. cbv zeta.
  set (p := if isPrecisionSet c then _ else _). destruct (f_hex v p) as [l|] eqn:L; [|discriminate]. cbn [bind]. destruct (H _ _ L) as [[_ X] M].
  destruct (if isPrecisionSet c then formatFractionalPart (l_mant l) p (hasFlag c ALTERNATE) else Ok (l_mant l)) as [m|] eqn:Y; [|discriminate]. cbn [bind].
  assert (F4 : fine 3 m). { destruct (isPrecisionSet c); [exact (fine_fraction1 _ _ _ _ M Y)|injection Y as <-; apply (fine_le 1); [exact M|lia]]. }
  destruct (l_exp l) as [x|]; cbn [nonNull bind]; [|discriminate]. specialize (X x eq_refl).
  assert (F6 : fine 5 (s_append (s_append m (chS (ch "p"))) x)) by (apply (fine_append 4 1); [apply (fine_append 3 1); [exact F4|apply fine_ch]|exact X]).
  set (v0 := s_append (s_append m (chS (ch "p"))) x) in *. destruct (hasFlag c ZERO_PAD && negb (hasFlag c LEFT_JUSTIFY)).
  - set (w := if hasSign c _ then _ else _). destruct (s_len v0 <? w).
    + destruct (repeated _ _) as [pad|] eqn:R; [|discriminate]. cbn [bind]. intros E. injection E as <-. apply fine_repeated in R.
      apply (fine_sign 7), (fine_prepend 6 1); [apply (fine_append 1 5); assumption|apply fine_wrap].
    + cbn [bind]. intros E. injection E as <-. apply (fine_le 7); [|lia]. apply (fine_sign 6), (fine_prepend 5 1); [exact F6|apply fine_wrap].
  - apply (fine_justify 7). apply (fine_sign 6), (fine_prepend 5 1); [exact F6|apply fine_wrap].
Qed.

(** ** The numbers *)
Lemma lay_leaf k m x : (forall act n, m <> ALazy act n) -> (forall y, x = Some y -> fine k y) -> lay k (mkLayout (Leaf m) x).
Proof. intros H X. split; [apply mant_leaf, H|exact X]. Qed.
Lemma layoutOf_lay r l : layoutOf r = Ok l -> lay 1 l.
Proof.
  unfold layoutOf. destruct r as [[m x]|]; [|discriminate]. cbn [bind]. intros E. injection E as <-. apply lay_leaf; [discriminate|].
  intros y Y. destruct x as [x|]; cbn [option_map] in Y; [|discriminate]. injection Y as <-. apply fine_plain. discriminate.
Qed.
Lemma fine_addPlus s : fine 1 (addPlus s).
Proof. unfold addPlus. destruct (startsWithMinus s); apply fine_wrap. Qed.
Lemma hex_leaf (m : atom) x : (forall act n, m <> ALazy act n) -> fine 1 x -> lay 1 (mkLayout (Leaf m) (Some x)) /\ fine 1 (Leaf m).
Proof. intros M X. split; [|apply fine_plain, M]. apply lay_leaf; [exact M|]. intros y Y. injection Y as <-. exact X. Qed.
Lemma simpleHex_lay b l : simpleHexLayout b = Ok l -> lay 1 l /\ fine 1 (l_mant l).
Proof.
  unfold simpleHexLayout. destruct (s_wrap3 _ _ _) as [m|] eqn:W; [|discriminate]. cbn [bind]. intros E. injection E as <-.
  apply hex_leaf; [intros act n; exact (wrap3_plain _ _ _ _ _ _ W)|apply fine_addPlus].
Qed.
Lemma double_form b : form 1 (doubleForm b).
Proof.
  split; [lia|]. unfold doubleForm. cbn [f_general f_scientific f_decimal f_hex]. refine (conj _ (conj _ (conj _ _))).
  - intros p l E. unfold dbl_general in E. destruct (dbl_isZero b); [|exact (layoutOf_lay _ _ E)]. injection E as <-. apply lay_leaf; [discriminate|]. discriminate.
  - intros p l E. unfold dbl_scientific in E. destruct (dbl_isZero b); [|exact (layoutOf_lay _ _ E)]. injection E as <-. apply lay_leaf; [discriminate|].
    intros y Y. injection Y as <-. apply fine_wrap.
  - intros p l E. exact (layoutOf_lay _ _ E).
  - intros p l E. unfold dbl_hex in E. destruct (negb (dbl_isFinite b) || dbl_isZero b || (p =? 0) || (13 <=? p)); [exact (simpleHex_lay _ _ E)|].
  cbv zeta in E. set (d := if dbl_getExponent b =? -1023 then _ else _) in E. destruct (dbl_isInf (hexRound d p)).
  { injection E as <-. apply hex_leaf; [apply wrap_plain|apply fine_wrap]. }
  destruct (negb (dbl_getExponent b =? -1023)); [exact (simpleHex_lay _ _ E)|]. set (h := toHexString _) in E. destruct (0 <=? strIndexOf h (ch "p")); [|discriminate].
  destruct (jParseInt _) as [v|]; [|discriminate]. destruct (s_wrap3 _ _ _) as [m|] eqn:W; [|discriminate]. cbn [bind] in E. injection E as <-.
  apply hex_leaf; [intros act n; exact (wrap3_plain _ _ _ _ _ _ W)|apply fine_addPlus].
Qed.

Lemma index_iter m c : ne m -> (forall a, m <> Leaf a) -> s_indexOf m c = indexOf_loop (leaves m) 0 c.
Proof. intros N L. destruct m as [a| |]; [exfalso; exact (L a eq_refl)| |]; unfold s_indexOf; rewrite (s_iter_spec _ N); reflexivity. Qed.
Lemma plain_index a c : (forall s st n up, a <> AArr s st n up) -> (forall s st n, a <> AStr s st n true) -> (forall act n, a <> ALazy act n) -> 0 <= a_len a ->
  exists i, a_indexOf a c = Ok i /\ -1 <= i /\ (i = -1 \/ i < a_len a).
Proof.
  intros H1 H2 H3 L. destruct a as [|d n|s st n up|s st n up|act n]; cbn [a_indexOf a_len] in *.
  - exists (-1). repeat split; auto; lia.
  - eexists. split; [reflexivity|]. destruct (d =? c); cbn [andb]; unfold NOT_FOUND; [|lia]. destruct (0 <? n) eqn:N; [apply Z.ltb_lt in N|]; lia.
  - destruct up; [exfalso; exact (H2 s st n eq_refl)|]. eexists. split; [reflexivity|]. unfold fastIndexOf, NOT_FOUND.
    pose proof (find_index_of c (skipn (Z.to_nat st) s)) as F. destruct (find c (skipn (Z.to_nat st) s)) as [k|]; [|lia].
    destruct (st + n <=? st + k) eqn:N; [lia|]. apply Z.leb_gt in N. lia.
  - exfalso. exact (H1 s st n up eq_refl).
  - exfalso. exact (H3 act n eq_refl).
Qed.

(** a piece, a decimal point, a piece *)
Definition view (a : atom) : Prop :=
  (forall s st n up, a <> AArr s st n up) /\ (forall s st n, a <> AStr s st n true) /\ (forall act n, a <> ALazy act n) /\ 0 <= a_len a <= int_max.
Lemma dotted_mant a b : view a -> (forall act n, b <> ALazy act n) -> 0 <= a_len b ->
  mant (s_append (s_append (Leaf a) (chS (ch "."))) (Leaf b)).
Proof.
  intros (H1 & H2 & H3 & La) H4 Lb.
  assert (D : a = AEmpty \/ s_append (Leaf a) (chS (ch ".")) = concat0 (Leaf a) (chS (ch "."))) by (destruct a; [left; reflexivity|right; reflexivity ..]).
  destruct D as [->|D].
  - change (s_append (Leaf AEmpty) (chS (ch "."))) with (Leaf (ARep (ch ".") 1)). unfold s_append. destruct (s_isEmpty (Leaf b)); [apply mant_leaf; discriminate|].
    split; [left; apply (fine_concat0 1 1); [apply fine_ch|apply fine_plain, H4]|]. right. split; cbn [leaves s_concat concat0 app]; repeat constructor; cbn [a_len]; lia.
  - rewrite D. change (s_append (concat0 (Leaf a) (chS (ch "."))) (Leaf b))
      with (if s_isEmpty (Leaf b) then concat0 (Leaf a) (chS (ch ".")) else concat0 (Leaf a) (concat0 (chS (ch ".")) (Leaf b))).
    destruct (s_isEmpty (Leaf b)).
    + split; [left; apply (fine_concat0 1 1); [apply fine_plain, H3|apply fine_ch]|]. right. split; cbn [leaves concat0 app chS]; [repeat constructor; cbn; lia|].
      right. left. cbn. lia.
    + assert (F : fine 3 (concat0 (Leaf a) (concat0 (chS (ch ".")) (Leaf b)))).
      { apply (fine_concat0 1 2); [apply fine_plain, H3|]. apply (fine_concat0 1 1); [apply fine_ch|apply fine_plain, H4]. }
      split; [|right; split; cbn [leaves concat0 app chS]; [repeat constructor; cbn; lia|right; left; cbn; lia]].
      right. split; [exact F|]. rewrite index_iter; [|apply F|discriminate]. cbn [leaves concat0 app chS indexOf_loop].
      destruct (plain_index a (ch ".") H1 H2 H3) as (i & I & B & B2); [lia|]. rewrite I. cbn [bind]. unfold NOT_FOUND.
      destruct (i =? -1) eqn:N.
      * cbn [s_ch a_indexOf]. change ((ch "." =? ch ".") && (0 <? 1)) with true. cbn [bind]. change (0 =? -1) with false. cbv iota. eexists. split; [reflexivity|].
        rewrite !wrap_in; rewrite ?wrap_in; unfold int_min, int_max in *; lia.
      * apply Z.eqb_neq in N. eexists. split; [reflexivity|]. rewrite wrap_in; unfold int_min, int_max in *; lia.
Qed.

Lemma wrap3_view s i j a : s_wrap3 s i j = Ok a -> j - i <= int_max -> view a.
Proof.
  unfold s_wrap3. intros E L. destruct (checkPositionIndexes i j (zlen s)) as [[]|] eqn:C; [|discriminate]. cbn [bind] in E.
  assert (0 <= i /\ i <= j /\ j <= zlen s) as (Hi & Hj & Hl).
  { destruct (Z_le_dec 0 i), (Z_le_dec i j), (Z_le_dec j (zlen s)); try (rewrite checkIdxs_bad in C by lia; discriminate). lia. }
  destruct (i =? j); [injection E as <-; repeat split; try discriminate; cbn; unfold int_max; lia|].
  destruct (j =? i + 1).
  - destruct (jcharAt s i); [|discriminate]. injection E as <-. repeat split; try discriminate; cbn; unfold int_max; lia.
  - injection E as <-. repeat split; try discriminate; cbn; lia.
Qed.
Lemma wrap3_len s i j a : s_wrap3 s i j = Ok a -> 0 <= a_len a.
Proof.
  unfold s_wrap3. intros E. destruct (checkPositionIndexes i j (zlen s)) as [[]|] eqn:C; [|discriminate]. cbn [bind] in E.
  assert (0 <= i /\ i <= j /\ j <= zlen s) as (Hi & Hj & Hl).
  { destruct (Z_le_dec 0 i), (Z_le_dec i j), (Z_le_dec j (zlen s)); try (rewrite checkIdxs_bad in C by lia; discriminate). lia. }
  destruct (i =? j); [injection E as <-; cbn; lia|].
  destruct (j =? i + 1); [destruct (jcharAt s i); [|discriminate]|]; injection E as <-; cbn; lia.
Qed.
Lemma insertDot_mant s m : insertDot s = Ok m -> mant m.
Proof.
  unfold insertDot. destruct (jcharAt s 0) as [c|]; [|discriminate]. cbn [bind]. destruct (s_wrap3 s 1 (zlen s)) as [tl|] eqn:W; [|discriminate]. cbn [bind]. intros E. apply ok_inv in E; rewrite <- E.
  change (chS c) with (Leaf (ARep c 1)). apply dotted_mant; [|intros act n; exact (wrap3_plain _ _ _ _ _ _ W)|exact (wrap3_len _ _ _ _ W)].
  repeat split; try discriminate; cbn; unfold int_max; lia.
Qed.
Lemma wrap_mant s : mant (wrapS s).
Proof. apply mant_leaf, wrap_plain. Qed.
Lemma wrap_len s : a_len (s_wrap s) = zlen s.
Proof. unfold s_wrap. destruct (0 <? zlen s) eqn:Z; [apply Z.ltb_lt in Z|apply Z.ltb_ge in Z]. - destruct s as [|c [|d s]]; [cbn in Z; lia|reflexivity|reflexivity]. - cbn. pose proof (zlen_nonneg s). lia. Qed.
Lemma scientific_lay d l : scientificLayout0 d = Ok l -> lay 3 l.
Proof.
  unfold scientificLayout0. cbv zeta. set (s := dec_text (bd_u d)). destruct (bd_s d =? 0).
  - destruct (1 <? zlen s).
    + destruct (insertDot s) as [m|] eqn:D; [|discriminate]. cbn [bind]. intros E. apply ok_inv in E; rewrite <- E. split; [exact (insertDot_mant _ _ D)|]. cbn [l_exp]. intros x X. injection X as <-.
      apply (fine_le 1); [apply fine_wrap|lia].
    + intros E. apply ok_inv in E; rewrite <- E. split; [apply wrap_mant|]. cbn [l_exp]. intros x X. injection X as <-. apply (fine_le 1); [apply fine_wrap|lia].
  - destruct (if 1 <? zlen s then insertDot s else Ok (wrapS s)) as [m|] eqn:D; [|discriminate]. cbn [bind]. intros E. apply ok_inv in E; rewrite <- E. split.
    + cbn [l_mant]. destruct (1 <? zlen s); [exact (insertDot_mant _ _ D)|injection D as <-; apply wrap_mant].
    + cbn [l_exp]. set (x := if negb _ then _ else _). intros y Y. injection Y as <-. unfold x. set (adj := - bd_s d + (zlen s - 1)).
      destruct (negb (adj =? 0)); [|apply (fine_le 1); [apply fine_wrap|lia]]. apply (fine_append 2 1); [|apply fine_wrap].
      destruct (Z.abs adj <? 10); [apply (fine_append 1 1); apply fine_ch|apply (fine_le 1); [apply fine_ch|lia]].
Qed.
Lemma repeated_leaf c n s : repeated c n = Ok s -> exists a, s = Leaf a /\ (forall act m, a <> ALazy act m) /\ 0 < a_len a.
Proof.
  unfold repeated, s_repeated, checkArgument. destruct (1 <=? n) eqn:N; [|discriminate]. apply Z.leb_le in N. cbn [bind].
  destruct (n =? 1); cbn [bind]; intros E; apply ok_inv in E; rewrite <- E; eexists; (split; [reflexivity|]); split; try discriminate; cbn; lia.
Qed.
Lemma decimal_lay d l : decimalLayout0 d = Ok l -> lay 3 l.
Proof.
  unfold decimalLayout0. cbv zeta. set (s := dec_text (bd_u d)). destruct (bd_s d =? 0).
  { intros E. apply ok_inv in E; rewrite <- E. split; [apply wrap_mant|discriminate]. }
  set (pad := wrap32 (bd_s d - zlen s)). destruct (0 <=? pad).
  - destruct (if 0 <? pad then _ else _) as [m|] eqn:P; [|discriminate]. cbn [bind]. intros E. apply ok_inv in E; rewrite <- E. split; [|discriminate]. cbn [l_mant].
    assert (M : m = Leaf AEmpty \/ (m <> Leaf AEmpty /\ fine 2 m /\ Forall (fun a => 0 <= a_len a) (leaves m))).
    { destruct (0 <? pad).
      - destruct (repeated (ch "0") pad) as [z|] eqn:R; [|discriminate]. cbn [bind] in P. apply ok_inv in P; rewrite <- P. destruct (repeated_leaf _ _ _ R) as (a & -> & Pl & La).
        right. split; [|split].
        + unfold wrapS. destruct (s_wrap s); cbn [s_prepend]; try (destruct (s_isEmpty (Leaf a)); discriminate). intros Y. injection Y as ->. cbn in La. lia.
        + apply (fine_prepend 1 1); [apply fine_wrap|apply fine_plain, Pl].
        + pose proof (wrap_len s) as W. pose proof (zlen_nonneg s). unfold wrapS, s_prepend, s_isEmpty. cbn [s_len].
          assert (a_len a =? 0 = false) as -> by (apply Z.eqb_neq; lia).
          destruct (s_wrap s) eqn:Ew; cbn [leaves s_concat concat0 app]; repeat constructor; try lia; rewrite <- Ew, W; lia.
      - apply ok_inv in P; rewrite <- P. destruct (s_wrap s) eqn:Ew; [left; unfold wrapS; rewrite Ew; reflexivity| | | |];
        (right; split; [unfold wrapS; rewrite Ew; discriminate|split; [apply (fine_le 1); [apply fine_wrap|lia]|]]; pose proof (wrap_len s); pose proof (zlen_nonneg s); cbn [wrapS leaves]; repeat constructor; lia). }
    destruct M as [->|(N & F & L)]; [cbn [s_prepend]; apply wrap_mant|].
    assert (s_prepend m (wrapS (txt "0.")) = concat0 (wrapS (txt "0.")) m) as ->.
    { destruct m as [[]| |]; try reflexivity. congruence. }
    assert (F3 : fine 3 (concat0 (wrapS (txt "0.")) m)) by (apply (fine_concat0 1 2); [apply fine_wrap|exact F]).
    split; [|right; split; cbn [leaves concat0 wrapS app]; constructor; [cbn; lia|exact L|cbn; lia]].
    right. split; [exact F3|]. rewrite index_iter; [|apply F3|discriminate]. exists 1. split; [reflexivity|lia].
  - destruct (wrap32 (- pad) <? zlen s).
    + destruct (s_wrap3 s 0 (wrap32 (- pad))) as [a|] eqn:A; [|discriminate]. cbn [bind]. destruct (s_wrap3 s (wrap32 (- pad)) (zlen s)) as [b|] eqn:B; [|discriminate]. cbn [bind].
      intros E. apply ok_inv in E; rewrite <- E. split; [|discriminate]. cbn [l_mant]. apply dotted_mant; [|intros act n; exact (wrap3_plain _ _ _ _ _ _ B)|exact (wrap3_len _ _ _ _ B)].
      apply (wrap3_view _ _ _ _ A). pose proof (wrap_int (- pad)). unfold int_min, int_max in *. lia.
    + destruct (repeated (ch "0") (wrap32 (- bd_s d))) as [z|] eqn:R; [|discriminate]. cbn [bind]. intros E. apply ok_inv in E; rewrite <- E. split; [|discriminate]. cbn [l_mant].
      destruct (repeated_leaf _ _ _ R) as (a & -> & Pl & La). pose proof (wrap_len s) as W. pose proof (zlen_nonneg s). split.
      * left. apply (fine_append 1 1); [apply fine_wrap|apply fine_plain, Pl].
      * unfold wrapS, s_append, s_isEmpty. cbn [s_len]. assert (a_len a =? 0 = false) as -> by (apply Z.eqb_neq; lia).
        destruct (s_wrap s) eqn:Ew; [left; exists a; reflexivity| | | |]; (right; split; cbn [leaves s_concat concat0 app]; [repeat constructor; try lia; rewrite <- W; lia|right; left; lia]).
Qed.
Lemma decimal_form d : form 3 (bigDecForm d).
Proof.
  split; [lia|]. unfold bigDecForm. cbn [f_general f_scientific f_decimal f_hex].
  assert (D : forall p l, bd_decimal (bd_abs d) p = Ok l -> lay 3 l).
  { intros p l. unfold bd_decimal. destruct (if p <? bd_s (bd_abs d) then _ else _) as [v|]; [|discriminate]. cbn [bind]. apply decimal_lay. }
  assert (S : forall p l, bd_scientific (bd_abs d) p = Ok l -> lay 3 l).
  { intros p l. unfold bd_scientific. cbv zeta. destruct (bd_new_mc _ _ _) as [v|]; [|discriminate]. cbn [bind]. apply scientific_lay. }
  refine (conj _ (conj S (conj D _))); [|discriminate]. intros p l. unfold bd_general. cbv zeta. destruct ((bd_u (bd_abs d) =? 0) && (bd_s (bd_abs d) =? 0) || _); [apply D|apply S].
Qed.
