(** Work of the loops over a sequence, and the number of pieces the conversions make. *)
From Verif Require Import Base UtilsM SeqM SeqSpec SeqP CompilerM CostM TraitsM ImplM SeqCostM.

(** ** Loops *)
Section Loop.
  Context {A B : Type}.
  Variable body : atom -> A -> cost (after A B).
  Variable finish : A -> res B.

  (** the loop over a list: atoms seen, work of the bodies, result *)
  Fixpoint walk (atoms : list atom) (x : A) : Z * (Z * res B) :=
    match atoms with
    | [] => (0, (0, finish x))
    | a :: rest =>
        match body a x with
        | (n, Ok (Next y)) => let '(v, (m, b)) := walk rest y in (v + 1, (n + m, b))
        | (n, Ok (Stop b)) => (1, (n, Ok b))
        | (n, Err e) => (1, (n, Err e))
        end
    end.

  Lemma walk_seen atoms : forall x, 0 <= fst (walk atoms x) <= zlen atoms.
  Proof.
    induction atoms as [|a l IH]; intros x; cbn [walk]; [cbn; lia|]. rewrite zlen_cons. pose proof (zlen_nonneg l).
    destruct (body a x) as [n [[y|b]|e]]; cbn [fst]; [|lia|lia]. specialize (IH y). destruct (walk l y) as [v [m b]]. cbn [fst] in *. lia.
  Qed.

  Lemma k_array_walk ps : forall x, k_array body finish ps x = (fst (walk ps x) + fst (snd (walk ps x)), snd (snd (walk ps x))).
  Proof.
    induction ps as [|a l IH]; intros x; cbn [k_array walk]; [reflexivity|]. cbn [cbind steps].
    destruct (body a x) as [n [[y|b]|e]]; cbn [cbind free fst snd].
    - rewrite IH. destruct (walk l y) as [v [m b]]. cbn [fst snd]. f_equal. lia.
    - f_equal. lia.
    - reflexivity.
  Qed.

  Lemma k_descend_spec node : forall stack, ne node -> Forall ne stack ->
    exists p a st, k_descend node stack = (p, Ok (a, st)) /\ a :: flat_map leaves st = leaves node ++ flat_map leaves stack /\
      Forall ne st /\ 0 <= p /\ zlen st = zlen stack + p.
  Proof.
    induction node as [a|l IHl r IHr n k|ps n]; intros stack Hn Hs; cbn [k_descend leaves].
    - exists 0, a, stack. repeat split; auto; lia.
    - destruct Hn as [Hl Hr]. destruct (IHl (r :: stack) Hl) as (p & a & st & E1 & E2 & E3 & E4 & E5); [constructor; assumption|].
      rewrite E1. cbn [cbind steps]. exists (1 + p), a, st. split; [reflexivity|]. rewrite zlen_cons in E5. repeat split; auto; try lia.
      rewrite E2. cbn [flat_map]. rewrite app_assoc. reflexivity.
    - cbn in Hn. destruct ps as [|p ps]; [tauto|]. exists (zlen ps), p, (map Leaf ps ++ stack). split; [reflexivity|]. repeat split.
      + rewrite flat_map_app. cbn [app]. f_equal. f_equal. clear Hn. induction ps; cbn; [reflexivity|]. f_equal. assumption.
      + apply Forall_app; split; [|exact Hs]. apply Forall_forall. intros x Hx. apply in_map_iff in Hx as (y & <- & _). exact I.
      + apply zlen_nonneg.
      + rewrite zlen_app, zlen_map. lia.
  Qed.

  Lemma stack_leaves st : Forall ne st -> zlen st <= zlen (flat_map leaves st).
  Proof.
    induction 1 as [|n st Hn _ IH]; [cbn; lia|]. cbn [flat_map]. rewrite zlen_app, zlen_cons. apply ne_leaves in Hn.
    destruct (leaves n) as [|a l]; [tauto|]. rewrite zlen_cons. pose proof (zlen_nonneg l). lia.
  Qed.

  Lemma k_drain_walk : forall fuel stack x, Forall ne stack -> (List.length (flat_map leaves stack) <= fuel)%nat ->
    let w := walk (flat_map leaves stack) x in
    exists ops, k_drain body finish fuel stack x = (ops + fst (snd w), snd (snd w)) /\
      2 * fst w - zlen stack <= ops <= zlen (flat_map leaves stack) - zlen stack + fst w.
  Proof.
    induction fuel as [|f IH]; intros stack x Hs Hf.
    - destruct stack as [|n st]; [exists 0; cbn; split; [reflexivity|lia]|]. inversion Hs; subst.
      cbn [flat_map] in Hf. rewrite app_length in Hf. apply ne_leaves in H1. destruct (leaves n); [tauto|cbn in Hf; lia].
    - destruct stack as [|n st]; [exists 0; cbn; split; [reflexivity|lia]|]. inversion Hs; subst.
      cbn [k_drain k_next]. destruct (k_descend_spec n st H1 H2) as (p & a & st' & E1 & E2 & E3 & E4 & E5). rewrite E1. cbn [cbind steps].
      cbn [flat_map] in *. rewrite <- E2 in *. cbn [walk]. pose proof (stack_leaves st' E3) as L. pose proof (zlen_nonneg st). rewrite !zlen_cons. cbv zeta.
      destruct (body a x) as [k [[y|b]|e]]; cbn [cbind free].
      + destruct (IH st' y E3) as (ops & D & B1). { cbn [List.length] in Hf. lia. } rewrite D. destruct (walk (flat_map leaves st') y) as [v [m b]].
        cbn [fst snd] in *. exists (1 + p + ops). split; [f_equal; lia|lia].
      + cbn [fst snd]. exists (1 + p). split; [f_equal; lia|]. lia.
      + cbn [fst snd]. exists (1 + p). split; [f_equal; lia|]. lia.
  Qed.

  (** the walk over all leaves, plus between two steps per leaf seen and one per leaf and leaf seen *)
  Lemma k_for_walk s x : ne s ->
    let w := walk (leaves s) x in
    exists ops, k_for body finish s x = (ops + fst (snd w), snd (snd w)) /\
      match s with Leaf _ => ops = 0 | Arr _ _ => ops = fst w | Cat _ _ _ _ => 2 * fst w <= ops <= zlen (leaves s) + fst w end.
  Proof.
    intros H. destruct s as [a|l r n k|ps n]; cbv zeta.
    - cbn [k_for leaves walk]. destruct (body a x) as [m [[y|b]|e]]; cbn [cbind free fst snd]; exists 0; split; reflexivity || (f_equal; lia).
    - unfold k_for. destruct (k_drain_walk (nleaves (Cat l r n k)) [Cat l r n k] x) as (ops & D & B1).
      { constructor; [exact H|constructor]. } { cbn [flat_map]. rewrite app_nil_r, nleaves_leaves. lia. }
      cbn [flat_map] in *. rewrite app_nil_r in *. rewrite D. cbn [cbind steps]. change (zlen [Cat l r n k]) with 1 in B1.
      exists (1 + ops). split; [f_equal; lia|lia].
    - cbn [k_for leaves]. rewrite k_array_walk. eexists. split; [reflexivity|reflexivity].
  Qed.
End Loop.

(** ** Writing *)
Lemma passes_range a : 1 <= passes a <= 3.
Proof. destruct a as [|c n|s st n []|s st n []|act n]; cbn; try lia; destruct (n <? THRESHOLD); lia. Qed.

(** what a sequence writes is added to the target *)
Definition grows (a : atom) : Prop := forall sb sb', a_toSB a sb = Ok sb' -> zlen sb <= zlen sb'.

Lemma appendLoop_grows at_ : forall fuel i e sb sb', appendLoop fuel at_ i e sb = Ok sb' -> zlen sb <= zlen sb'.
Proof.
  induction fuel as [|f IH]; intros i e sb sb' H; cbn [appendLoop] in H; [injection H as <-; lia|].
  destruct (i <? e); [|injection H as <-; lia]. destruct (at_ i); [|discriminate]. cbn [bind] in H. apply IH in H. rewrite zlen_app in H.
  change (zlen [a]) with 1 in H. lia.
Qed.
Lemma plain_grows a : (forall act n, a <> ALazy act n) -> grows a.
Proof.
  intros N sb sb' H.
  assert (P : forall l, Ok (sb ++ l) = Ok sb' -> zlen sb <= zlen sb') by (intros l E; injection E as <-; rewrite zlen_app; pose proof (zlen_nonneg l); lia).
  destruct a as [|c n|s st n up|s st n up|act n]; cbn [a_toSB] in H.
  - injection H as <-. lia.
  - destruct (n =? 0); [injection H as <-; lia|]. destruct (n <? THRESHOLD); [exact (appendLoop_grows _ _ _ _ _ _ H)|exact (P _ H)].
  - destruct up; [destruct (n <? THRESHOLD); [exact (appendLoop_grows _ _ _ _ _ _ H)|exact (P _ H)]|].
    destruct ((st =? 0) && (n =? zlen s)); exact (P _ H).
  - destruct up; [destruct (n <? THRESHOLD); [exact (appendLoop_grows _ _ _ _ _ _ H)|exact (P _ H)]|]. exact (P _ H).
  - exfalso. exact (N act n eq_refl).
Qed.

Definition text_len (o : outcome) : Z := zlen (fst o).

Lemma walk_emit atoms : Forall grows atoms -> forall sb,
  let w := walk k_atom (fun sb => Ok (sb, None)) atoms sb in
  snd (snd w) = Ok (emitAtoms a_toSB atoms sb) /\
  text_len (emitAtoms a_toSB atoms sb) - zlen sb <= fst (snd w) <= 3 * (text_len (emitAtoms a_toSB atoms sb) - zlen sb) /\
  (snd (emitAtoms a_toSB atoms sb) = None -> fst w = zlen atoms).
Proof.
  unfold text_len. induction 1 as [|a l Ha _ IH]; intros sb; cbv zeta; cbn [walk emitAtoms]; [cbn [fst snd]; repeat split; lia|].
  unfold k_atom at 1 3 5 7. specialize (Ha sb). destruct (a_toSB a sb) as [sb1|e]; cbn [steps free].
  - specialize (Ha sb1 eq_refl). specialize (IH sb1). cbv zeta in IH. destruct IH as (I1 & I2 & I3). destruct (walk k_atom _ l sb1) as [v [m b]]. cbn [fst snd] in *.
    split; [exact I1|]. pose proof (passes_range a). split; [|intros E; rewrite zlen_cons, (I3 E); lia]. nia.
  - cbn [fst snd]. repeat split; try lia. discriminate.
Qed.

Lemma emit_cost s sb : ne s -> Forall grows (leaves s) ->
  exists c, k_emit s sb = (c, Ok (emitSB s sb)) /\
    text_len (emitSB s sb) - zlen sb <= c <= 3 * (text_len (emitSB s sb) - zlen sb) + 2 * zlen (leaves s) /\
    zlen sb <= text_len (emitSB s sb).
Proof.
  intros Hn Hg. unfold k_emit, emitSB, emitWith. destruct (k_for_walk k_atom (fun sb => Ok (sb, None)) s sb Hn) as (ops & E & B). rewrite E.
  pose proof (walk_emit (leaves s) Hg sb) as W. cbv zeta in W. destruct W as (W1 & W2 & _). rewrite W1.
  pose proof (walk_seen k_atom (fun sb => Ok (sb, None)) (leaves s) sb) as V.
  destruct s as [a|l r n k|ps n].
  - eexists. split; [reflexivity|]. cbn [leaves] in *. lia.
  - rewrite (s_iter_spec _ Hn). eexists. split; [reflexivity|]. lia.
  - rewrite (s_iter_spec _ Hn). eexists. split; [reflexivity|]. cbn [leaves] in *. lia.
Qed.
