(** C103: the work of sequences and of a call. *)
From Verif Require Import Base Digits UtilsM SeqM SeqSpec SeqP ContextM CompilerM FormatterM DoubleM BigDecM CostM TraitsM ImplM SeqCostM SeqCostP SeqCostP2.

(** ** Specification *)

(** the most pieces a conversion makes; [w] is the number of pieces of its argument as a sequence *)
Definition most (sp : spec) (w : Z) : Z :=
  match sp with
  | Sd | Su | Sx | SX | So | Sp => 4
  | Sf | SF => 6
  | Se | SE => 10
  | Sg | SG => 9
  | Sa | SA => 8
  | Ss | SS => w + 1
  | St | ST | Sc => 2
  | Spct | Sn => 1
  end.

Definition weight (x : traits) : Z := match t_asSeq x with Ok q => zlen (leaves q) | Err _ => 0 end.
Definition sum (l : list Z) : Z := fold_right Z.add 0 l.

(** arguments; a Seq among them stands for a text *)
Inductive argument (J : jdk) : traits -> Prop :=
| arg_null : argument J nullTraits
| arg_value v r : (forall q, v <> VSeq q) -> argument J (traitsOf J v r)
| arg_seq q t r : den q t -> argument J (traitsOf J (VSeq q) r).

(** reading a sequence character by character *)
Definition read_all (s : seq) : Z := sum (map (fun i => fst (k_charAt s (Z.of_nat i))) (List.seq 0 (Z.to_nat (s_len s)))).

(** ** Concatenation *)

(** at most two nodes are created, whatever the length and the shape of the parts; two exactly for a left part that is a concatenation *)
Theorem C103_concat : forall l r,
  k_concat l r = (match l with Cat _ _ _ _ => 2 | _ => 1 end, Ok (s_concat l r)) /\
  snd (k_append l r) = Ok (s_append l r) /\ 0 <= fst (k_append l r) <= 2 /\
  snd (k_prepend l r) = Ok (s_prepend l r) /\ 0 <= fst (k_prepend l r) <= 2.
Proof.
  assert (A : forall l r, k_concat l r = (match l with Cat _ _ _ _ => 2 | _ => 1 end, Ok (s_concat l r))) by (intros [a|a b n c|ps n] r; reflexivity).
  intros l r. split; [apply A|]. unfold k_append, k_prepend, s_append, s_prepend.
  assert (B : snd (if s_isEmpty r then free (Ok l) else k_concat l r) = Ok (if s_isEmpty r then l else s_concat l r) /\
    0 <= fst (if s_isEmpty r then free (Ok l) else k_concat l r) <= 2).
  { destruct (s_isEmpty r); [cbn; split; [reflexivity|lia]|]. rewrite A. destruct l; cbn; split; reflexivity || lia. }
  assert (C : snd (if s_isEmpty r then free (Ok l) else k_concat r l) = Ok (if s_isEmpty r then l else s_concat r l) /\
    0 <= fst (if s_isEmpty r then free (Ok l) else k_concat r l) <= 2).
  { destruct (s_isEmpty r); [cbn; split; [reflexivity|lia]|]. rewrite A. destruct r; cbn; split; reflexivity || lia. }
  destruct l as [[]| |]; try tauto. cbn. repeat split; lia.
Qed.
Print Assumptions C103_concat.

(** ** One character *)
Lemma walk_charAt atoms : forall i,
  snd (walk k_seek unreachable atoms i) = (0, charAt_loop atoms i).
Proof.
  induction atoms as [|a l IH]; intros i; cbn [walk charAt_loop]; [reflexivity|]. unfold k_seek at 1. destruct (i <? a_len a).
  - destruct (a_charAt a i); reflexivity.
  - cbn [free]. specialize (IH (i - a_len a)). destruct (walk _ _ l (i - a_len a)) as [v [m b]]. cbn [snd] in *. injection IH as -> ->. reflexivity.
Qed.
Lemma walk_charAt_seen front : forall a back i, Forall (fun a => 0 <= a_len a) front ->
  sum (map a_len front) <= i < sum (map a_len front) + a_len a ->
  fst (walk k_seek unreachable (front ++ a :: back) i) = zlen front + 1.
Proof.
  induction front as [|b l IH]; intros a back i F H; cbn [app map sum fold_right] in *.
  - cbn [walk]. unfold k_seek at 1. assert (i <? a_len a = true) as -> by (apply Z.ltb_lt; lia). destruct (a_charAt a i); reflexivity.
  - inversion F as [|? ? F1 F2]; subst. cbn [walk]. unfold k_seek at 1. fold (sum (map a_len l)) in *.
    assert (P : 0 <= sum (map a_len l)). { clear - F2. induction F2; cbn; [lia|]. fold (sum (map a_len l)). unfold sum in *. lia. }
    assert (i <? a_len b = false) as -> by (apply Z.ltb_ge; lia). cbn [free].
    specialize (IH a back (i - a_len b) F2). destruct (walk _ _ (l ++ a :: back) (i - a_len b)) as [v [m c]]. cbn [fst] in *. rewrite IH by lia. rewrite zlen_cons. lia.
Qed.

(** charAt gives what it gave; a character of the piece behind [front] costs two steps for each piece up to that one at least, and one step for each of
    these and each piece at most, in a concatenation, and one step for each piece up to that one in an array *)
Theorem C103_charAt : forall s i, ne s -> snd (k_charAt s i) = s_charAt s i /\
  forall front a back, leaves s = front ++ a :: back -> Forall (fun a => 0 <= a_len a) front -> 0 <= i < s_len s ->
    sum (map a_len front) <= i < sum (map a_len front) + a_len a ->
    match s with
    | Leaf _ => fst (k_charAt s i) = 0
    | Arr _ _ => fst (k_charAt s i) = zlen front + 1
    | Cat _ _ _ _ => 2 * (zlen front + 1) <= fst (k_charAt s i) <= zlen (leaves s) + zlen front + 1
    end.
Proof.
  intros s i N.
  pose proof (k_for_walk k_seek unreachable s i N) as C. cbv zeta in C. destruct C as (ops & E & B). pose proof (walk_charAt (leaves s) i) as W.
  destruct s as [a|l r n k|ps n].
  - split; [reflexivity|]. intros. reflexivity.
  - unfold k_charAt, s_charAt. rewrite E. rewrite (s_iter_spec _ N). cbn [free cbind snd]. split.
    + destruct (checkPositionIndex i (s_len (Cat l r n k))); cbn [cbind bind snd]; [|reflexivity]. rewrite W. reflexivity.
    + intros front a back L F H P. rewrite (checkIdx_ok i (s_len (Cat l r n k)) H). cbn [cbind fst].
      rewrite W. cbn [fst]. pose proof (walk_charAt_seen front a back i F P) as V. rewrite <- L in V. rewrite V in B. lia.
  - unfold k_charAt, s_charAt. rewrite E. rewrite (s_iter_spec _ N). cbn [free cbind snd]. split.
    + destruct (checkPositionIndex i (s_len (Arr ps n))); cbn [cbind bind snd]; [|reflexivity]. rewrite W. reflexivity.
    + intros front a back L F H P. rewrite (checkIdx_ok i (s_len (Arr ps n)) H). cbn [cbind fst].
      rewrite W. cbn [fst]. pose proof (walk_charAt_seen front a back i F P) as V. rewrite <- L in V. rewrite V in B. lia.
Qed.
Print Assumptions C103_charAt.

(** reading all characters one by one costs the square of their number, when each is a piece of a concatenation *)
Lemma sum_app a b : sum (a ++ b) = sum a + sum b.
Proof. unfold sum. induction a as [|x a IH]; cbn [app fold_right]; [lia|rewrite IH; lia]. Qed.
Lemma sum_twice f n : (forall i, (i < n)%nat -> 2 * (Z.of_nat i + 1) <= f i) -> Z.of_nat n * (Z.of_nat n + 1) <= sum (map f (List.seq 0 n)).
Proof.
  induction n as [|n IH]; intros H; [cbn; lia|]. rewrite seq_S, map_app. rewrite sum_app. cbn [map sum fold_right Nat.add].
  assert (forall i, (i < n)%nat -> 2 * (Z.of_nat i + 1) <= f i) as Hn by (intros; apply H; lia). specialize (IH Hn). specialize (H n). lia.
Qed.
Theorem C103_reading_each_is_quadratic : forall l r n k, ne (Cat l r n k) -> Forall (fun a => a_len a = 1) (leaves (Cat l r n k)) -> n = zlen (leaves (Cat l r n k)) ->
  n * (n + 1) <= read_all (Cat l r n k).
Proof.
  intros l r n k N O E. unfold read_all. set (s := Cat l r n k) in *. change (s_len s) with n.
  assert (A : forall i, (i < Z.to_nat n)%nat -> 2 * (Z.of_nat i + 1) <= fst (k_charAt s (Z.of_nat i))).
  { intros i Hi. assert (Hl : (i < List.length (leaves s))%nat) by (unfold zlen in E; lia).
    destruct (nth_error (leaves s) i) as [a|] eqn:T; [|apply nth_error_None in T; lia]. apply nth_error_split in T as (front & back & L & Len).
    assert (S : sum (map a_len front) = Z.of_nat i). { rewrite L in O. apply Forall_app in O as [O _]. rewrite <- Len. clear - O. induction O as [|x l Hx _ IH]; [reflexivity|]. cbn [map List.length]. unfold sum in *. cbn [fold_right]. lia. }
    pose proof (C103_charAt s (Z.of_nat i) N) as [_ C]. specialize (C front a back L).
    assert (Z.of_nat i < n) by lia.
    assert (a_len a = 1) as A1. { rewrite L in O. apply Forall_app in O as [_ O]. inversion O; assumption. }
    unfold s in C at 3. fold s in C. destruct C as [C _].
    - rewrite L in O. apply Forall_app in O as [O _]. eapply Forall_impl; [|exact O]. cbn. intros; lia.
    - change (s_len s) with n. lia.
    - lia.
    - unfold zlen in C. lia. }
  pose proof (sum_twice (fun i => fst (k_charAt s (Z.of_nat i))) (Z.to_nat n) A) as B. rewrite Z2Nat.id in B; [exact B|]. rewrite E. apply zlen_nonneg.
Qed.
Print Assumptions C103_reading_each_is_quadratic.

(** ** Writing *)

(** writing a sequence into a builder passes over the tree once, with two steps for each piece, and writes each character at least once and at most three times *)
Theorem C103_write : forall s t sb, den s t ->
  exists c, k_emit s sb = (c, Ok (sb ++ t, None)) /\ zlen t <= c <= 3 * zlen t + 2 * zlen (leaves s).
Proof.
  intros s t sb D. pose proof (den_wden _ _ D) as W. pose proof (wden_ne _ _ W) as N. destruct (wden_leaves _ _ W) as (ts & F & T).
  assert (G : Forall grows (leaves s)).
  { clear - F. induction F as [|a u l us H _ IH]; constructor; [|exact IH]. intros sb sb' E. rewrite (a_toSB_den _ _ sb H) in E. injection E as <-. rewrite zlen_app. pose proof (zlen_nonneg u). lia. }
  destruct (emit_cost s sb N G) as (c & E & B & _).
  assert (X : emitSB s sb = (sb ++ t, None)).
  { assert (Y : emitAtoms a_toSB (leaves s) sb = (sb ++ t, None)).
    { rewrite T. clear - F. revert sb. induction F as [|a u l us H _ IH]; intros sb; cbn [emitAtoms concat]; [rewrite app_nil_r; reflexivity|].
      rewrite (a_toSB_den _ _ sb H), IH, app_assoc. reflexivity. }
    unfold emitSB, emitWith. destruct s; [exact Y| |]; rewrite (s_iter_spec _ N); exact Y. }
  rewrite X in *. unfold text_len in B. cbn [fst] in B. rewrite zlen_app in B. exists c. split; [exact E|lia].
Qed.
Print Assumptions C103_write.

(** the pieces, one by one: a repeated character goes through an array of its own and an upper-cased text is gone over three times,
    unless they are short; everything else is written at once *)
Theorem C103_copies : forall a t sb, den_atom a t ->
  let c := fst (k_emit (Leaf a) sb) in
  (zlen t < 16 -> c = zlen t) /\
  (16 <= zlen t ->
    match a with
    | ARep _ _ => c = 2 * zlen t
    | AStr _ _ _ up | AArr _ _ _ up => c = (if up then 3 * zlen t else zlen t)
    | AEmpty | ALazy _ _ => c = zlen t
    end).
Proof.
  intros a t sb D c. pose proof (den_atom_len _ _ D) as L.
  assert (E : c = passes a * zlen t).
  { unfold c, k_emit, k_for, k_atom. rewrite (a_toSB_den _ _ sb D). cbn [cbind steps fst snd free]. rewrite zlen_app. lia. }
  clearbody c. rewrite E. unfold passes.
  destruct a as [|x n|s st n []|s st n []|act n]; cbn [a_len] in L; change THRESHOLD with 16; split; intros B; subst;
    try (destruct (Z.ltb_spec (zlen t) 16)); lia.
Qed.
Print Assumptions C103_copies.
Example C103_copies_example :
  fst (k_emit (Leaf (ARep 48 17)) []) = 34 /\ fst (k_emit (Leaf (AStr (rep 97 16) 0 16 true)) []) = 48 /\
  fst (k_emit (Leaf (AArr (rep 97 16) 0 16 true)) []) = 48 /\ fst (k_emit (Leaf (ARep 48 15)) []) = 15.
Proof. vm_compute. auto. Qed.

(** ** Pieces of a directive *)
Lemma den_atom_grows a t : den_atom a t -> grows a.
Proof. intros H sb sb' E. rewrite (a_toSB_den _ _ sb H) in E. injection E as <-. rewrite zlen_app. pose proof (zlen_nonneg t). lia. Qed.
Lemma den_fine q t : den q t -> fine (zlen (leaves q)) q.
Proof.
  intros D. pose proof (den_wden _ _ D) as W. repeat split; [exact (wden_ne _ _ W)| |lia].
  destruct (wden_leaves _ _ W) as (ts & F & _). clear - F. induction F as [|a u l us H _ IH]; constructor; [exact (den_atom_grows _ _ H)|exact IH].
Qed.
Lemma den_filled q t : den q t -> t <> [] -> filled_seq q.
Proof.
  intros D T. destruct (wden_leaves _ _ (den_wden _ _ D)) as (ts & F & ->). clear D. unfold filled_seq.
  induction F as [|a u l us H F IH]; [exfalso; apply T; reflexivity|]. pose proof (den_atom_len _ _ H) as L. pose proof (zlen_nonneg u). cbn [concat] in T. destruct u as [|x u].
  - destruct (IH T) as [I1 I2]. split; [constructor; [lia|exact I1]|right; exact I2].
  - split; [|left; rewrite L, zlen_cons; pose proof (zlen_nonneg u); lia]. constructor; [lia|]. clear - F. induction F as [|a u l us H _ IH]; constructor; [|exact IH].
    rewrite (den_atom_len _ _ H). apply zlen_nonneg.
Qed.

Lemma lazy_fine t n q : lazySeq t n = Ok q -> exists a, q = Leaf a /\ grows a.
Proof.
  unfold lazySeq, s_lazy, checkArgument. destruct (0 <=? n); [|discriminate]. cbn [bind]. destruct (n =? 0); [intros E; injection E as <-; eexists; split; [reflexivity|apply plain_grows; discriminate]|].
  destruct (n =? 1).
  - destruct (buildEagerly _ n) as [sb|]; [|discriminate]. cbn [bind]. destruct (jcharAt sb 0) as [c|]; [|discriminate]. cbn [bind]. intros E. injection E as <-.
    eexists. split; [reflexivity|apply plain_grows; discriminate].
  - cbn [bind]. intros E. injection E as <-. eexists. split; [reflexivity|]. intros sb sb' H. cbn [a_toSB] in H. injection H as <-. rewrite zlen_app. pose proof (zlen_nonneg t). lia.
Qed.

(** an argument as a sequence *)
Lemma value_leaf J v r q : (forall q, v <> VSeq q) -> t_asSeq (traitsOf J v r) = Ok q -> exists a, q = Leaf a /\ grows a.
Proof.
  intros N E. assert (P : forall s : list Z, exists a, wrapS s = Leaf a /\ grows a) by (intros s; eexists; split; [reflexivity|apply plain_grows, wrap_plain]).
  assert (S : forall r, seqOfString r = Ok q -> exists a, q = Leaf a /\ grows a).
  { intros r' H. unfold seqOfString in H. destruct r' as [s|]; [|discriminate]. injection H as <-. apply P. }
  destruct v; cbn in E; try (exact (S _ E)); try (injection E as <-; apply P); try exact (lazy_fine _ _ _ E).
  - injection E as <-. eexists. split; [reflexivity|apply plain_grows; discriminate].
  - exfalso. exact (N s eq_refl).
  - destruct o; exact (S _ E).
Qed.
Lemma argument_seq J x q : argument J x -> t_asSeq x = Ok q -> (exists a, q = Leaf a /\ grows a) \/ (exists t, den q t).
Proof.
  intros A E. destruct A as [|v r N|q' t r D].
  - injection E as <-. left. eexists. split; [reflexivity|apply plain_grows, (wrap_plain (txt "null"))].
  - left. exact (value_leaf J v r q N E).
  - right. injection E as <-. exists t. exact D.
Qed.
Lemma argument_float J x v : argument J x -> t_asFloatForm x = Ok v -> exists k, form k v.
Proof.
  assert (D : forall b, exists k, form k (doubleForm b)) by (intros b; exists 1; apply double_form).
  intros A E. destruct A as [|w r N|q' t r Dn].
  - discriminate.
  - destruct w; cbn in E; try (injection E as <-; apply D).
    + destruct (text_of_res (j_parseDouble J s)) as [b|]; [|discriminate]. injection E as <-. apply D.
    + exfalso. exact (N s eq_refl).
    + destruct (text_of_res (j_parseDouble J s)) as [b|]; [|discriminate]. injection E as <-. apply D.
    + injection E as <-. exists 3. apply decimal_form.
    + injection E as <-. exists 3. apply decimal_form.
    + destruct (match instantFrom J t with Some i => Ok i | None => conv end) as [i|]; [|discriminate]. cbn [bind] in E. injection E as <-. apply D.
    + destruct o as [l d i t|m i t|m t|s|s|l|l|t]; cbn in E; try discriminate;
        first [destruct d as [b|]|destruct m as [b|]]; try discriminate; cbn [bind] in E; injection E as <-; apply D.
  - cbn in E. destruct (s_toString q') as [s|]; [|discriminate]. cbn [bind] in E. destruct (text_of_res (j_parseDouble J s)) as [b|]; [|discriminate]. injection E as <-. apply D.
Qed.
Lemma fine_s J c x q u : argument J x -> t_asSeq x = Ok q -> fmt_s c q = Ok u -> fine (zlen (leaves q) + 1) u.
Proof.
  intros A E. unfold fmt_s. destruct (if isPrecisionSet c && (c_prec c <? s_len q) then s_sub q 0 (c_prec c) else Ok q) as [s|] eqn:S; [|discriminate]. cbn [bind].
  apply fine_justify. destruct (argument_seq J x q A E) as [(a & -> & G)|(t & D)].
  - destruct (isPrecisionSet c && (c_prec c <? s_len (Leaf a))); [exact (fine_sub_leaf _ _ _ S)|injection S as <-; apply fine_leaf, G].
  - destruct (isPrecisionSet c && (c_prec c <? s_len q)) eqn:P; [|injection S as <-; exact (den_fine _ _ D)].
    destruct q as [a|l r n k|ps n]; [exact (fine_sub_leaf _ _ _ S)| |];
    (apply andb_true_iff in P as [_ P]; apply Z.ltb_lt in P; refine (fine_sub _ _ _ _ (den_fine _ _ D) ltac:(discriminate) _ S); apply (den_filled _ _ D);
     intros ->; rewrite (den_len _ _ D), zlen_nil in P; unfold s_sub in S; rewrite checkIdxs_bad in S by lia; discriminate).
Qed.
Lemma directive_fine J sp c x s : argument J x -> formatterFor J sp c x = Ok s -> fine (most sp (weight x)) s.
Proof.
  intros A.
  assert (I : forall f u, (forall v, f v = Ok u -> fine 4 u) -> withInt x f = Ok u -> fine 4 u).
  { intros f u H. unfold withInt. destruct (t_asIntForm x) as [v|]; [|discriminate]. cbn [bind]. apply H. }
  assert (F : forall k f u, (forall j v, form j v -> f v = Ok u -> fine k u) -> withFloat x f = Ok u -> fine k u).
  { intros k f u H. unfold withFloat. destruct (t_asFloatForm x) as [v|] eqn:E; [|discriminate]. cbn [bind]. destruct (argument_float J x v A E) as (j & Hj). exact (H j v Hj). }
  assert (U : forall k r u, (forall v, r = Ok v -> fine k v) -> upperOf r = Ok u -> fine k u).
  { intros k r u H. unfold upperOf. destruct r as [v|]; [|discriminate]. cbn [bind]. apply fine_upper, H. reflexivity. }
  assert (T : forall u, fmt_t J c x = Ok u -> fine 2 u).
  { intros u. unfold fmt_t. destruct (t_asTemporal x); [|discriminate]. cbn [bind]. destruct (match c_dtf c with Some p => _ | None => _ end) as [[f t']|]; [|discriminate]. cbn [bind].
    destruct (j_format J f t'); [|discriminate]. cbn [bind]. apply (fine_justify 1), fine_wrap. }
  assert (S : forall u, (let* s := t_asSeq x in fmt_s c s) = Ok u -> fine (weight x + 1) u).
  { intros u. unfold weight. destruct (t_asSeq x) as [q|] eqn:E; [|discriminate]. cbn [bind]. exact (fine_s J c x q u A E). }
  destruct sp; cbn [formatterFor most].
  all: try (apply I; intros v; first [apply fine_d|apply fine_unsigned]).
  all: try (apply (F 6); intros j v; apply fine_f). all: try (apply (F 10); intros j v; apply fine_e).
  all: try (apply (F 9); intros j v; apply fine_g). all: try (apply (F 8); intros j v; apply fine_a).
  all: try (apply U; intros v; first [apply I; intros w; apply fine_unsigned|apply (F 6); intros j w; apply fine_f|apply (F 10); intros j w; apply fine_e
    |apply (F 9); intros j w; apply fine_g|apply (F 8); intros j w; apply fine_a|exact (S v)|exact (T v)]).
  all: try exact (S s). all: try exact (T s).
  - destruct (t_asChar x); [|discriminate]. cbn [bind]. apply (fine_justify 1), fine_ch.
  - intros E. injection E as <-. apply fine_empty.
  - unfold fmt_p. destruct (t_ref x) as [| |name h]; [discriminate|intros E; apply (fine_le 2); [exact (fine_justify 1 _ _ _ (fine_wrap _) E)|lia]|].
    apply (fine_justify 3). apply (fine_prepend 2 1); [|apply fine_wrap]. apply (fine_prepend 1 1); [apply fine_wrap|apply fine_ch].
  - intros E. injection E as <-. apply fine_ch.
Qed.

(** a directive makes a sequence of at most so many pieces, for every argument; %s and %S keep the pieces of a Seq *)
Theorem C103_pieces : forall J sp c x s, argument J x -> formatterFor J sp c x = Ok s -> 1 <= zlen (leaves s) <= most sp (weight x).
Proof.
  intros J sp c x s A E. pose proof (directive_fine J sp c x s A E) as (N & _ & L). split; [|exact L]. apply ne_leaves in N.
  destruct (leaves s) as [|a l]; [tauto|]. rewrite zlen_cons. pose proof (zlen_nonneg l). lia.
Qed.
Print Assumptions C103_pieces.
(** only a Seq has more than one piece *)
Theorem C103_weight : forall J v r, (forall q, v <> VSeq q) -> weight (traitsOf J v r) <= 1.
Proof.
  intros J v r N. unfold weight. destruct (t_asSeq (traitsOf J v r)) as [q|] eqn:E; [|lia]. destruct (value_leaf J v r q N E) as (a & -> & _). cbn. lia.
Qed.
Print Assumptions C103_weight.

(** ** A call *)
Lemma weight_nonneg x : 0 <= weight x.
Proof. unfold weight. destruct (t_asSeq x); [apply zlen_nonneg|lia]. Qed.
Lemma weights_nonneg it : 0 <= sum (map weight it).
Proof. induction it as [|x it IH]; [cbn; lia|]. cbn [map]. unfold sum in *. cbn [fold_right]. pose proof (weight_nonneg x). lia. Qed.
Lemma most_ten sp w : 0 <= w -> most sp w <= 10 + w.
Proof. intros H. destruct sp; cbn [most]; lia. Qed.
Lemma resolve_rest c it c' it' : resolveCtx c it = Ok (c', it') -> exists used, it = used ++ it'.
Proof.
  unfold resolveCtx. assert (X : forall i v r, nextInt i = Ok (v, r) -> exists u, i = u ++ r).
  { intros i v r H. destruct i as [|x i]; [discriminate|]. cbn [nextInt] in H. destruct (t_asInt x); [|discriminate]. injection H as _ <-. exists [x]. reflexivity. }
  destruct (isPrecedingWidth c).
  - destruct (nextInt it) as [[w i1]|] eqn:N1; [|discriminate]. cbn [bind]. apply X in N1 as [u1 ->].
    destruct (if 0 <=? w then setWidth c w else _) as [c1|]; [|discriminate]. cbn [bind]. destruct (isPrecedingPrecision c1).
    + destruct (nextInt i1) as [[p i2]|] eqn:N2; [|discriminate]. cbn [bind]. apply X in N2 as [u2 ->]. destruct (setPrecision _ _); [|discriminate]. cbn [bind].
      intros E. injection E as _ <-. exists (u1 ++ u2). rewrite app_assoc. reflexivity.
    + intros E. injection E as _ <-. exists u1. reflexivity.
  - cbn [bind]. destruct (isPrecedingPrecision c).
    + destruct (nextInt it) as [[p i2]|] eqn:N2; [|discriminate]. cbn [bind]. apply X in N2 as [u2 ->]. destruct (setPrecision _ _); [|discriminate]. cbn [bind].
      intros E. injection E as _ <-. exists u2. reflexivity.
    + intros E. injection E as _ <-. exists []. reflexivity.
Qed.

(** the work of a call is linear: each character written is counted at most three times, each directive twenty steps, each piece of a Seq argument two *)
Theorem C103_call_is_linear : forall J apps it sb, Forall (argument J) it ->
  exists c, k_run J apps it sb = (c, Ok (run J emitSB apps it sb)) /\
    let written := zlen (fst (run J emitSB apps it sb)) - zlen sb in
    written <= c <= 3 * written + 20 * zlen apps + 2 * sum (map weight it).
Proof.
  intros J apps. induction apps as [|a apps IH]; intros it sb A; cbn [k_run run]; cbv zeta; pose proof (weights_nonneg it) as W0; [exists 0; split; [reflexivity|cbn [fst]; change (zlen (@nil appender)) with 0; lia]|].
  rewrite zlen_cons. pose proof (zlen_nonneg apps).
  assert (X : forall s it', appendOne J a it = Ok (s, it') ->
    Forall (argument J) it' /\ exists k, fine k s /\ 2 * k + 2 * sum (map weight it') <= 20 + 2 * sum (map weight it)).
  { intros s it' E. destruct a as [t|sp c]; cbn [appendOne] in E.
    - injection E as <- <-. split; [exact A|]. exists 1. split; [apply fine_wrap|lia].
    - destruct (resolveCtx c it) as [[c' it1]|] eqn:R; [|discriminate]. cbn [bind] in E. apply resolve_rest in R as [used ->]. apply Forall_app in A as [A1 A2].
      destruct it1 as [|x rest]; [discriminate|]. destruct (formatterFor J sp c' x) as [u|] eqn:F; [|discriminate]. cbn [bind] in E. injection E as <- <-.
      inversion A2 as [|? ? Ax Ar]; subst. split; [exact Ar|]. exists (most sp (weight x)). split; [exact (directive_fine _ _ _ _ _ Ax F)|].
      pose proof (most_ten sp (weight x) (weight_nonneg x)). rewrite map_app, sum_app. cbn [map sum fold_right]. fold (sum (map weight rest)). pose proof (weights_nonneg used). lia. }
  destruct (appendOne J a it) as [[s it']|e]; [|exists 0; split; [reflexivity|cbn [fst]; lia]].
  destruct (X s it' eq_refl) as (A' & k & (N & G & L) & B). destruct (emit_cost s sb N G) as (c & E & C & M). rewrite E. unfold text_len in *.
  destruct (emitSB s sb) as [sb' [e|]]; cbn [cbind fst] in *.
  - exists (c + 0). split; [reflexivity|]. pose proof (weights_nonneg it'). lia.
  - destruct (IH it' sb' A') as (d & D & B2). cbv zeta in B2. rewrite D. exists (c + d). split; [reflexivity|]. lia.
Qed.
Print Assumptions C103_call_is_linear.

(** ** Examples *)
Definition J0 : jdk := mkJdk (fun _ => []) (fun _ => []) (fun _ => None) (fun _ _ => Ok []) (fun i => Ok (TInstant i)) (fun _ => None) (fun _ => []) (fun _ => []) (fun _ => None).
Definition pieces_of (src : list Z) (v : value) : option Z :=
  match compile (fun _ => true) src with
  | Ok [Default sp c] => match formatterFor J0 sp c (traitsOf J0 v RPrimitive) with Ok s => Some (zlen (leaves s)) | Err _ => None end
  | _ => None
  end.

(** the bounds are reached: for %s by any argument with a width, for the others as here *)
Example C103_bounds_are_sharp :
  pieces_of (txt "%+10.5d") (VInt 7) = Some (most Sd 1) /\
  pieces_of (txt "%#10.5x") (VInt 7) = Some (most Sx 1) /\
  pieces_of (txt "%+10.3f") (VDec (mkBD 15 1)) = Some (most Sf 1) /\
  pieces_of (txt "%+20.5e") (VDec (mkBD 15 6)) = Some (most Se 1) /\
  pieces_of (txt "%+20g") (VDec (mkBD 15 8)) = Some (most Sg 1) /\
  pieces_of (txt "%9c") (VChar 65) = Some (most Sc 1) /\
  pieces_of (txt "%9s") (VInt 123) = Some (most Ss 1) /\
  pieces_of (txt "%-9s") (VSeq (s_append (wrapS (txt "ab")) (wrapS (txt "cd")))) = Some (most Ss 2).
Proof. vm_compute. repeat split. Qed.

(** a chain of appends: reading ten characters one by one takes 147 steps, writing them thirty *)
Definition chain : seq := fold_left (fun s c => s_append s (chS c)) (txt "bcdefghij") (chS (ch "a")).
Example C103_example :
  read_all chain = 147 /\ k_emit chain [] = (30, Ok (txt "abcdefghij", None)) /\
  k_concat chain chain = (2, Ok (s_concat chain chain)) /\
  (match compile (fun _ => true) (txt "%s, %5d|%X") with
   | Ok ds => k_run J0 ds (map (fun v => traitsOf J0 v RPrimitive) [VSeq chain; VInt 42; VInt 255]) []
   | Err e => (0, Err e)
   end) = (44, Ok (txt "abcdefghij,    42|FF", None)).
Proof. vm_compute. repeat split. Qed.
