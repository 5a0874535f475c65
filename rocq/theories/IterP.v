(** Proofs about the format loop over the caller's iterators. *)
From Verif Require Import Base Digits UtilsM SeqM ContextM CompilerM IntFormM FormatterM MathM DecimalM FPDecimalM DoubleM
  BigDecM RoundM TraitsM ImplM IterM IterSpec.

Lemma setWidth_prec c w c' : setWidth c w = Ok c' -> isPrecedingPrecision c' = isPrecedingPrecision c.
Proof.
  unfold setWidth. destruct (checkValue WidthRange w) as [u|]; cbn [bind]; [|discriminate]. intros [= <-]. reflexivity.
Qed.
Lemma starWidth_prec c w c' : (if 0 <=? w then setWidth c w else setWidth (addFlag c LEFT_JUSTIFY) (wrap32 (- w))) = Ok c' ->
  isPrecedingPrecision c' = isPrecedingPrecision c.
Proof.
  destruct (0 <=? w); intros H; apply setWidth_prec in H; rewrite H; [reflexivity|]. unfold addFlag. reflexivity.
Qed.

(** ** Two iterators that answer alike *)
Section Two.
  Context {A B : Type}.
  Variable I1 : source A.
  Variable I2 : source B.
  Variable J : jdk.

  Fixpoint agree (n : nat) (a : A) (b : B) : Prop :=
    match n with
    | O => True
    | S n =>
        match i_take I1 a, i_take I2 b with
        | (Ok x, a'), (Ok y, b') => x = y /\ agree n a' b'
        | (Err e, _), (Err e', _) => e = e'
        | _, _ => False
        end
    end.

  Lemma agree_le n : forall m a b, (m <= n)%nat -> agree n a b -> agree m a b.
  Proof.
    induction n as [|n IH]; intros [|m] a b L H; try exact Coq.Init.Logic.I; [lia|]. cbn [agree] in *.
    destruct (i_take I1 a) as [[x|e] a'], (i_take I2 b) as [[y|e'] b']; try contradiction; [|exact H]. destruct H as [-> H]. split; [reflexivity|].
    apply IH; [lia|exact H].
  Qed.

  (** after a step that takes [k] arguments *)
  Definition alike {X} (n : nat) (p : res X * A) (q : res X * B) : Prop :=
    match p, q with
    | (Ok x, a), (Ok y, b) => x = y /\ agree n a b
    | (Err e, _), (Err e', _) => e = e'
    | _, _ => False
    end.

  Lemma nextInt_alike n a b : agree (S n) a b -> alike n (i_nextInt I1 a) (i_nextInt I2 b).
  Proof.
    cbn [agree]. unfold i_nextInt. destruct (i_take I1 a) as [[x|e] a'], (i_take I2 b) as [[y|e'] b']; try contradiction; [|intros ->; reflexivity].
    intros [-> H]. cbn [alike]. destruct (t_asInt y); auto.
  Qed.
  Lemma width_alike n c a b : agree ((if isPrecedingWidth c then 1 else 0) + n) a b ->
    alike n (i_width I1 c a) (i_width I2 c b).
  Proof.
    unfold i_width. destruct (isPrecedingWidth c); cbn [Nat.add]; [|intros H; cbn; auto]. intros H. apply nextInt_alike in H.
    destruct (i_nextInt I1 a) as [[x|e] a'], (i_nextInt I2 b) as [[y|e'] b']; cbn [alike] in H; try contradiction; [|subst; reflexivity].
    destruct H as [-> H]. cbn [alike]. destruct (if 0 <=? y then _ else _); auto.
  Qed.
  Lemma precision_alike n c a b : agree ((if isPrecedingPrecision c then 1 else 0) + n) a b ->
    alike n (i_precision I1 c a) (i_precision I2 c b).
  Proof.
    unfold i_precision. destruct (isPrecedingPrecision c); cbn [Nat.add]; [|intros H; cbn; auto]. intros H. apply nextInt_alike in H.
    destruct (i_nextInt I1 a) as [[x|e] a'], (i_nextInt I2 b) as [[y|e'] b']; cbn [alike] in H; try contradiction; [|subst; reflexivity].
    destruct H as [-> H]. cbn [alike]. destruct (setPrecision c (if 0 <=? y then y else UNSET)); auto.
  Qed.

  Lemma takes1_nat d : Z.to_nat (takes1 d) = match d with Fixed _ => 0%nat | Default _ c => (1 + (if isPrecedingWidth c then 1 else 0) + (if isPrecedingPrecision c then 1 else 0))%nat end.
  Proof. destruct d as [t|sp c]; cbn [takes1]; [reflexivity|]. destruct (isPrecedingWidth c), (isPrecedingPrecision c); reflexivity. Qed.
  Lemma takes1_nonneg d : 0 <= takes1 d.
  Proof. destruct d as [t|sp c]; cbn [takes1]; [lia|]. destruct (isPrecedingWidth c), (isPrecedingPrecision c); lia. Qed.
  Lemma takes_nonneg ds : 0 <= takes ds.
  Proof. induction ds as [|d ds IH]; cbn [takes]; [lia|]. pose proof (takes1_nonneg d). lia. Qed.

  Lemma i_width_prec c a c' a' : i_width I1 c a = (Ok c', a') -> isPrecedingPrecision c' = isPrecedingPrecision c.
  Proof.
    unfold i_width. destruct (isPrecedingWidth c); [|intros [= <- <-]; reflexivity]. destruct (i_nextInt I1 a) as [[w|e] a1]; [|discriminate].
    intros [= H <-]. exact (starWidth_prec _ _ _ H).
  Qed.

  Lemma appendOne_alike n d a b : agree (Z.to_nat (takes1 d) + n) a b -> alike n (i_appendOne I1 J d a) (i_appendOne I2 J d b).
  Proof.
    rewrite takes1_nat. destruct d as [t|sp c]; cbn [i_appendOne]; [intros H; cbn; auto|]. intros H.
    assert (W : alike ((if isPrecedingPrecision c then 1 else 0) + S n) (i_width I1 c a) (i_width I2 c b)).
    { apply width_alike. apply (fun L => agree_le _ _ _ _ L H). destruct (isPrecedingWidth c), (isPrecedingPrecision c); lia. }
    destruct (i_width I1 c a) as [[c1|e] a1] eqn:E, (i_width I2 c b) as [[c2|e'] b1]; cbn [alike] in W; try contradiction; [|subst; reflexivity].
    destruct W as [<- W]. rewrite <- (i_width_prec c a c1 a1 E) in W. apply precision_alike in W.
    destruct (i_precision I1 c1 a1) as [[c3|e] a2], (i_precision I2 c1 b1) as [[c4|e'] b2]; cbn [alike] in W; try contradiction; [|subst; reflexivity].
    destruct W as [<- W]. cbn [agree] in W. destruct (i_take I1 a2) as [[x|e] a3], (i_take I2 b2) as [[y|e'] b3]; try contradiction; [|subst; reflexivity].
    destruct W as [<- W]. cbn [alike]. destruct (formatterFor J sp c3 x); auto.
  Qed.

  Lemma run_alike sb ds : forall a b t, agree (Z.to_nat (takes ds)) a b -> fst (i_run I1 J sb ds a t) = fst (i_run I2 J sb ds b t).
  Proof.
    induction ds as [|d ds IH]; intros a b t H; cbn [i_run]; [reflexivity|]. cbn [takes] in H.
    rewrite Z2Nat.inj_add in H by (apply takes1_nonneg || apply takes_nonneg). apply appendOne_alike in H.
    destruct (i_appendOne I1 J d a) as [[s|e] a'], (i_appendOne I2 J d b) as [[s'|e'] b']; cbn [alike] in H; try contradiction; [|subst; reflexivity].
    destruct H as [<- H]. destruct ((if sb then emitSB else emitApp) s t) as [t' [e|]]; [reflexivity|]. apply IH. exact H.
  Qed.
End Two.

(** ** The list as an iterator *)
Definition lsrc (e : exn) : source (list traits) := mkSource _
  (fun it => (match it with [] => Err e | _ => Ok true end, it))
  (fun it => match it with [] => (Err e, it) | x :: r => (Ok (Some x), r) end).

Lemma take_lsrc e it : i_take (lsrc e) it = match it with [] => (Err e, []) | x :: r => (Ok x, r) end.
Proof. destruct it; reflexivity. Qed.

Section Ends.
  Context {St : Type}.
  Variable I : source St.
  Variable J : jdk.

  Lemma take_stops st e : stops_with I st e -> fst (i_take I st) = Err e.
  Proof. unfold i_take. intros [st1 H|st1 e' H|st1 st2 e' H H'|st1 st2 H H']; rewrite H; try rewrite H'; reflexivity. Qed.

  Lemma supplies_stops st xs st' e : supplies I st xs st' -> stops_with I st' e -> forall n, agree I (lsrc e) n st xs.
  Proof.
    intros S W. induction S as [st|st st1 st2 st3 x xs H H' S IH]; intros [|n]; try exact Coq.Init.Logic.I; cbn [agree]; rewrite take_lsrc.
    - apply take_stops in W. destruct (i_take I st) as [[x|e'] st1]; cbn [fst] in W; congruence.
    - unfold i_take. rewrite H, H'. auto.
  Qed.
  Lemma supplies_enough st xs st' e : supplies I st xs st' -> forall n, Z.of_nat n <= zlen xs -> agree I (lsrc e) n st xs.
  Proof.
    intros S. induction S as [st|st st1 st2 st3 x xs H H' S IH]; intros [|n] L; try exact Coq.Init.Logic.I.
    - unfold zlen in L. cbn in L. lia.
    - cbn [agree]. rewrite take_lsrc. unfold i_take. rewrite H, H'. split; [reflexivity|]. apply IH. rewrite zlen_cons in L. lia.
  Qed.
End Ends.

(** the list model of ImplM.v is the case of the missing argument *)
Section List.
  Variable J : jdk.
  Notation L := (lsrc (Printf MissingArg)).

  Lemma l_nextInt it : nextInt it = match i_nextInt L it with (Ok w, it') => Ok (w, it') | (Err e, _) => Err e end.
  Proof. unfold i_nextInt. rewrite take_lsrc. destruct it as [|x r]; cbn [nextInt]; [reflexivity|]. destruct (t_asInt x); reflexivity. Qed.

  Lemma l_appendOne d it : appendOne J d it = match i_appendOne L J d it with (Ok s, it') => Ok (s, it') | (Err e, _) => Err e end.
  Proof.
    destruct d as [t|sp c]; cbn [appendOne i_appendOne]; [reflexivity|]. unfold resolveCtx, i_width, i_precision.
    assert (P : forall c it, (let* (c0, it0) := (if isPrecedingPrecision c then let* (p, it) := nextInt it in let* c := setPrecision c (if 0 <=? p then p else UNSET) in Ok (c, it) else Ok (c, it)) in
        match it0 with [] => Err (Printf MissingArg) | x :: rest => let* s := formatterFor J sp c0 x in Ok (s, rest) end) =
      match (match (if isPrecedingPrecision c then match i_nextInt L it with (Ok p, st) => (setPrecision c (if 0 <=? p then p else UNSET), st) | (Err e, st) => (Err e, st) end else (Ok c, it)) with
        | (Ok c, st) => match i_take L st with (Ok x, st) => (formatterFor J sp c x, st) | (Err e, st) => (Err e, st) end
        | (Err e, st) => (Err e, st) end) with (Ok s, it') => Ok (s, it') | (Err e, _) => Err e end).
    { intros c0 it0.
      assert (T : forall c1 it1, match it1 with [] => Err (Printf MissingArg) | x :: rest => let* s := formatterFor J sp c1 x in Ok (s, rest) end =
        match (match i_take L it1 with (Ok x, st) => (formatterFor J sp c1 x, st) | (Err e, st) => (Err e, st) end) with (Ok s, it') => Ok (s, it') | (Err e, _) => Err e end).
      { intros c1 it1. rewrite take_lsrc. destruct it1 as [|x r]; [reflexivity|]. destruct (formatterFor J sp c1 x); reflexivity. }
      destruct (isPrecedingPrecision c0); [|exact (T c0 it0)]. rewrite l_nextInt. destruct (i_nextInt L it0) as [[p|e] st]; [|reflexivity]. cbn [bind].
      destruct (setPrecision c0 (if 0 <=? p then p else UNSET)) as [c1|e]; [exact (T c1 st)|reflexivity]. }
    destruct (isPrecedingWidth c); [|exact (P c it)]. rewrite l_nextInt. destruct (i_nextInt L it) as [[w|e] st]; [|reflexivity]. cbn [bind].
    destruct (if 0 <=? w then setWidth c w else setWidth (addFlag c LEFT_JUSTIFY) (wrap32 (- w))) as [c1|e]; [exact (P c1 st)|reflexivity].
  Qed.

  Lemma l_run sb ds : forall it t, fst (i_run L J sb ds it t) = formatInto J sb ds it t.
  Proof.
    unfold formatInto. induction ds as [|d ds IH]; intros it t; cbn [i_run run]; [reflexivity|]. rewrite l_appendOne.
    destruct (i_appendOne L J d it) as [[s|e] it']; [|reflexivity]. destruct ((if sb then emitSB else emitApp) s t) as [t' [e|]]; [reflexivity|]. apply IH.
  Qed.
End List.

(** ** The exception of the iterator *)
Section Dry.
  Variable J : jdk.

  (** either the end of the list is reached, whatever it throws, or it does not matter *)
  Definition dry {X} (f : exn -> res X * list traits) : Prop :=
    (forall e, fst (f e) = Err e) \/ exists r it, forall e, f e = (r, it).

  Lemma dry_take it : dry (fun e => i_take (lsrc e) it).
  Proof. destruct it as [|x r]; [left; reflexivity|right; exists (Ok x), r; intros e; apply take_lsrc]. Qed.
  Lemma dry_then {X Y} (f : exn -> res X * list traits) (g : exn -> X -> list traits -> res Y * list traits) :
    dry f -> (forall x it, dry (fun e => g e x it)) ->
    dry (fun e => match f e with (Err e', it) => (Err e', it) | (Ok x, it) => g e x it end).
  Proof.
    intros [H|(r & it & H)] G.
    - left. intros e. specialize (H e). destruct (f e) as [[x|e'] it]; cbn [fst] in *; congruence.
    - destruct r as [x|e0].
      + destruct (G x it) as [G'|(r' & it' & G')]; [left|right; exists r', it']; intros e; rewrite H; apply G'.
      + right. exists (Err e0), it. intros e. rewrite H. reflexivity.
  Qed.
  Lemma dry_const {X} (r : res X) it : dry (fun _ => (r, it)).
  Proof. right. exists r, it. reflexivity. Qed.

  Lemma dry_nextInt it : dry (fun e => i_nextInt (lsrc e) it).
  Proof. unfold i_nextInt. apply (dry_then (fun e => i_take (lsrc e) it) (fun e x it => (t_asInt x, it))); [apply dry_take|intros; apply dry_const]. Qed.

  Lemma dry_appendOne d it : dry (fun e => i_appendOne (lsrc e) J d it).
  Proof.
    destruct d as [t|sp c]; cbn [i_appendOne]; [apply dry_const|].
    apply (dry_then (fun e => i_width (lsrc e) c it) (fun e c st => match i_precision (lsrc e) c st with (Err e, st) => (Err e, st) | (Ok c, st) =>
      match i_take (lsrc e) st with (Err e, st) => (Err e, st) | (Ok x, st) => (formatterFor J sp c x, st) end end)).
    - unfold i_width. destruct (isPrecedingWidth c); [|apply dry_const].
      apply (dry_then (fun e => i_nextInt (lsrc e) it) (fun e w it => (_, it))); [apply dry_nextInt|intros; apply dry_const].
    - intros c1 it1. apply (dry_then (fun e => i_precision (lsrc e) c1 it1) (fun e c st => match i_take (lsrc e) st with (Err e, st) => (Err e, st) | (Ok x, st) => (formatterFor J sp c x, st) end)).
      + unfold i_precision. destruct (isPrecedingPrecision c1); [|apply dry_const].
        apply (dry_then (fun e => i_nextInt (lsrc e) it1) (fun e w it => (_, it))); [apply dry_nextInt|intros; apply dry_const].
      + intros c2 it2. apply (dry_then (fun e => i_take (lsrc e) it2) (fun e x it => (_, it))); [apply dry_take|intros; apply dry_const].
  Qed.

  Lemma dry_run sb ds : forall it t,
    (exists t', forall e, fst (i_run (lsrc e) J sb ds it t) = (t', Some e)) \/ (exists o, forall e, fst (i_run (lsrc e) J sb ds it t) = o).
  Proof.
    induction ds as [|d ds IH]; intros it t; cbn [i_run]; [right; exists (t, None); reflexivity|].
    destruct (dry_appendOne d it) as [H|(r & it' & H)].
    - left. exists t. intros e. specialize (H e). destruct (i_appendOne (lsrc e) J d it) as [[s|e'] it']; cbn [fst] in *; congruence.
    - destruct r as [s|e0]; [|right; exists (t, Some e0); intros e; rewrite H; reflexivity].
      destruct ((if sb then emitSB else emitApp) s t) as [t' [e0|]] eqn:E.
      + right. exists (t', Some e0). intros e. rewrite H, E. reflexivity.
      + destruct (IH it' t') as [(t1 & G)|(o & G)]; [left; exists t1|right; exists o]; intros e; rewrite H, E; apply G.
  Qed.
End Dry.

(** ** What is called *)
Section Log.
  Context {St : Type}.
  Variable I : source St.
  Variable J : jdk.
  Notation G := (logged I).

  (** [k] arguments taken and nothing else *)
  Inductive took : Z -> list called -> Prop :=
  | to_none : took 0 []
  | to_one k l : took k l -> took (1 + k) (HasNext (Some true) :: Next :: l).

  Lemma took_asked k l : took k l -> asked k l.
  Proof. induction 1; constructor; assumption. Qed.
  Lemma took_then k l : took k l -> forall k' l', asked k' l' -> asked (k + k') (l ++ l').
  Proof. induction 1 as [|k l H IH]; intros k' l' A; cbn [app]; [exact A|]. rewrite <- Z.add_assoc. constructor. apply IH. exact A. Qed.
  Lemma took_app k l : took k l -> forall k' l', took k' l' -> took (k + k') (l ++ l').
  Proof. induction 1 as [|k l H IH]; intros k' l' A; cbn [app]; [exact A|]. rewrite <- Z.add_assoc. constructor. apply IH. exact A. Qed.
  Lemma took_nonneg k l : took k l -> 0 <= k.
  Proof. induction 1; lia. Qed.

  (** a step that takes [n] arguments if it succeeds *)
  Definition steps {X} (n : Z) (l : list called) (p : res X * (St * list called)) : Prop :=
    match p with
    | (Ok _, (_, l1)) => exists l', l1 = l ++ l' /\ took n l'
    | (Err _, (_, l1)) => exists l' k, l1 = l ++ l' /\ asked k l' /\ k <= n
    end.

  Lemma took_1 : took 1 [HasNext (Some true); Next].
  Proof. exact (to_one 0 [] to_none). Qed.

  Lemma steps_take st l : steps 1 l (i_take G (st, l)).
  Proof.
    unfold i_take. cbn [i_hasNext logged]. destruct (i_hasNext I st) as [[[]|e] st1]; cbn [steps].
    - cbn [i_next logged]. destruct (i_next I st1) as [[[x|]|e] st2]; rewrite <- app_assoc; cbn [app].
      + exists [HasNext (Some true); Next]. split; [reflexivity|exact took_1].
      + exists [HasNext (Some true); Next], 1. split; [reflexivity|]. split; [exact (took_asked _ _ took_1)|lia].
      + exists [HasNext (Some true); Next], 1. split; [reflexivity|]. split; [exact (took_asked _ _ took_1)|lia].
    - exists [HasNext (Some false)], 0. split; [reflexivity|]. split; [constructor; discriminate|lia].
    - exists [HasNext None], 0. split; [reflexivity|]. split; [constructor; discriminate|lia].
  Qed.

  Lemma steps_then {X Y} n m l (p : res X * (St * list called)) (g : X -> St * list called -> res Y * (St * list called)) :
    0 <= m -> steps n l p -> (forall x st l1, steps m l1 (g x (st, l1))) ->
    steps (n + m) l (match p with (Err e, st) => (Err e, st) | (Ok x, st) => g x st end).
  Proof.
    intros Hm H F. destruct p as [[x|e] [st l1]]; cbn [steps] in H.
    - destruct H as (l' & -> & T). specialize (F x st (l ++ l')). destruct (g x (st, l ++ l')) as [[y|e] [st2 l2]]; cbn [steps] in *.
      + destruct F as (l2' & -> & T'). exists (l' ++ l2'). rewrite app_assoc. split; [reflexivity|]. apply took_app; assumption.
      + destruct F as (l2' & k & -> & T' & Hk). exists (l' ++ l2'), (n + k). rewrite app_assoc. split; [reflexivity|]. split; [apply took_then; assumption|lia].
    - destruct H as (l' & k & -> & A & Hk). exists l', k. split; [reflexivity|]. split; [exact A|lia].
  Qed.
  Lemma steps_none {X} (r : res X) st l : steps 0 l (r, (st, l)).
  Proof.
    destruct r; cbn [steps]; [exists []|exists [], 0]; rewrite app_nil_r; split; try reflexivity; [constructor|]. split; [constructor|lia].
  Qed.

  Lemma steps_nextInt st l : steps 1 l (i_nextInt G (st, l)).
  Proof.
    unfold i_nextInt. apply (steps_then 1 0 l (i_take G (st, l)) (fun x st => (t_asInt x, st))); [lia|apply steps_take|intros; apply steps_none].
  Qed.

  Lemma steps_appendOne d st l : steps (takes1 d) l (i_appendOne G J d (st, l)).
  Proof.
    destruct d as [t|sp c]; cbn [i_appendOne takes1]; [apply steps_none|].
    assert (P : forall c st l, steps ((if isPrecedingPrecision c then 1 else 0) + 1) l
      (match i_precision G c (st, l) with (Err e, st) => (Err e, st) | (Ok c, st) =>
         match i_take G st with (Err e, st) => (Err e, st) | (Ok x, st) => (formatterFor J sp c x, st) end end)).
    { clear. intros c st l.
      apply (steps_then (if isPrecedingPrecision c then 1 else 0) 1 l (i_precision G c (st, l)) (fun c st => match i_take G st with (Err e, st) => (Err e, st) | (Ok x, st) => (formatterFor J sp c x, st) end)); [lia| |].
      - unfold i_precision. destruct (isPrecedingPrecision c); [|apply steps_none].
        apply (steps_then 1 0 l (i_nextInt G (st, l)) (fun p st => (_, st))); [lia|apply steps_nextInt|intros; apply steps_none].
      - intros c1 st1 l1. apply (steps_then 1 0 l1 (i_take G (st1, l1)) (fun x st => (_, st))); [lia|apply steps_take|intros; apply steps_none]. }
    destruct (i_width G c (st, l)) as [[c1|e] [st1 l1]] eqn:E.
    - assert (W : steps (if isPrecedingWidth c then 1 else 0) l (i_width G c (st, l))).
      { unfold i_width. destruct (isPrecedingWidth c); [|apply steps_none].
        apply (steps_then 1 0 l (i_nextInt G (st, l)) (fun p st => (_, st))); [lia|apply steps_nextInt|intros; apply steps_none]. }
      rewrite E in W. cbn [steps] in W. pose proof (i_width_prec G c (st, l) c1 (st1, l1) E) as Ep. destruct W as (l' & -> & T).
      specialize (P c1 st1 (l ++ l')). rewrite Ep in P.
      set (m := (if isPrecedingPrecision c then 1 else 0)) in *.
      assert (Hm : 0 <= m) by (unfold m; destruct (isPrecedingPrecision c); lia).
      replace (1 + (if isPrecedingWidth c then 1 else 0) + m) with ((if isPrecedingWidth c then 1 else 0) + (m + 1)) by lia.
      destruct (match i_precision G c1 (st1, l ++ l') with (Err e, st) => (Err e, st) | (Ok c, st) =>
         match i_take G st with (Err e, st) => (Err e, st) | (Ok x, st) => (formatterFor J sp c x, st) end end) as [[y|e] [st2 l2]]; cbn [steps] in *.
      + destruct P as (l2' & -> & T'). exists (l' ++ l2'). rewrite app_assoc. split; [reflexivity|]. apply took_app; assumption.
      + destruct P as (l2' & k & -> & T' & Hk). exists (l' ++ l2'), ((if isPrecedingWidth c then 1 else 0) + k). rewrite app_assoc. split; [reflexivity|]. split; [apply took_then; assumption|lia].
    - assert (W : steps (if isPrecedingWidth c then 1 else 0) l (i_width G c (st, l))).
      { unfold i_width. destruct (isPrecedingWidth c); [|apply steps_none].
        apply (steps_then 1 0 l (i_nextInt G (st, l)) (fun p st => (_, st))); [lia|apply steps_nextInt|intros; apply steps_none]. }
      rewrite E in W. cbn [steps] in *. destruct W as (l' & k & -> & A & Hk). exists l', k. split; [reflexivity|]. split; [exact A|].
      destruct (isPrecedingPrecision c); lia.
  Qed.

  Lemma run_log sb ds : forall st l t, let '(o, (st', l1)) := i_run G J sb ds (st, l) t in
    exists l' k, l1 = l ++ l' /\ asked k l' /\ k <= takes ds /\ (snd o = None -> k = takes ds).
  Proof.
    induction ds as [|d ds IH]; intros st l t; cbn [i_run takes].
    - exists [], 0. rewrite app_nil_r. split; [reflexivity|]. split; [constructor|]. split; [lia|reflexivity].
    - pose proof (steps_appendOne d st l) as H. pose proof (takes_nonneg ds) as Hn. destruct (i_appendOne G J d (st, l)) as [[s|e] [st1 l1]]; cbn [steps] in H.
      + destruct H as (l' & -> & T). destruct ((if sb then emitSB else emitApp) s t) as [t' [e|]].
        * exists l', (takes1 d). split; [reflexivity|]. split; [apply took_asked; exact T|]. split; [lia|discriminate].
        * specialize (IH st1 (l ++ l') t'). destruct (i_run G J sb ds (st1, l ++ l') t') as [o [st2 l2]].
          destruct IH as (l2' & k & -> & A & Hk & Hd). exists (l' ++ l2'), (takes1 d + k). rewrite app_assoc. split; [reflexivity|].
          split; [apply took_then; assumption|]. split; [lia|]. intros E. rewrite (Hd E). reflexivity.
      + destruct H as (l' & k & -> & A & Hk). exists l', k. split; [reflexivity|]. split; [exact A|]. split; [lia|discriminate].
  Qed.

  (** logging changes nothing *)
  Lemma logged_agree n : forall st l, agree G I n (st, l) st.
  Proof.
    induction n as [|n IH]; intros st l; [exact Coq.Init.Logic.I|]. cbn [agree]. unfold i_take. cbn [i_hasNext logged].
    destruct (i_hasNext I st) as [[[]|e] st1]; try reflexivity. cbn [i_next logged]. destruct (i_next I st1) as [[[x|]|e] st2]; try reflexivity. auto.
  Qed.
End Log.
