(** Proofs for C40. *)
From Verif Require Import Base Digits UtilsM SeqM ContextM CompilerM IntFormM FormatterM TraitsM ImplM ArgsM.

(** the calls a program can make on an Args *)
Inductive putcall :=
| PutNull
| PutPrimitive (v : value)
| Put (o : jobject).

Definition do_put (J : jdk) (l : list arg) (p : putcall) : list arg :=
  match p with PutNull => putNull l | PutPrimitive v => putPrimitive J l v | Put o => put J l o end.

(** the object each call recorded *)
Definition recorded (p : putcall) : jvalue :=
  match p with
  | PutNull | Put JNull => ONull
  | PutPrimitive v => OBox v
  | Put (JRef v cls h) => OSame v cls h
  | Put (JTraits _ id) => OUser id
  end.

(** the trait object each call gives the format loop *)
Definition given (J : jdk) (p : putcall) : traits :=
  match p with
  | PutNull | Put JNull => nullTraits
  | PutPrimitive v => traitsOf J v RPrimitive
  | Put (JRef v cls h) => traitsOf J v (RObj cls h)
  | Put (JTraits t _) => t
  end.

Lemma do_put_one J l p : do_put J l p = l ++ [mkArg (given J p) (recorded p)].
Proof. destruct p as [|v|[|v cls h|t id]]; try reflexivity. destruct v; reflexivity. Qed.

Lemma do_puts J ps : forall l, fold_left (do_put J) ps l = l ++ map (fun p => mkArg (given J p) (recorded p)) ps.
Proof.
  induction ps as [|p r IH]; intros l; cbn [fold_left map]; [rewrite app_nil_r; reflexivity|].
  rewrite IH, do_put_one, <- app_assoc. reflexivity.
Qed.

Lemma values_spec l : values l = map a_object l.
Proof.
  unfold values. enough (H : forall acc, values_loop l acc = acc ++ map a_object l) by exact (H []).
  induction l as [|a r IH]; intros acc; cbn [values_loop map]; [rewrite app_nil_r; reflexivity|]. rewrite IH, <- app_assoc. reflexivity.
Qed.

Lemma values_in_order J ps : values (fold_left (do_put J) ps []) = map recorded ps.
Proof. rewrite values_spec, do_puts. cbn [app]. rewrite map_map. reflexivity. Qed.

Lemma iterator_in_order J ps : iterator (fold_left (do_put J) ps []) = map (given J) ps.
Proof. unfold iterator. rewrite do_puts. cbn [app]. rewrite map_map. reflexivity. Qed.

Lemma argsOf_puts J vs : argsOf J (Some vs) = fold_left (do_put J) (map Put vs) [].
Proof.
  cbn [argsOf]. generalize (@nil arg). induction vs as [|v r IH]; intros l; [reflexivity|]. apply IH.
Qed.

(** only %p looks at the reference *)
Lemma ref_only_for_p J v r1 r2 sp c : sp <> Sp ->
  formatterFor J sp c (traitsOf J v r1) = formatterFor J sp c (traitsOf J v r2).
Proof.
  intros H. destruct sp; try (exfalso; apply H; reflexivity); destruct v; try reflexivity; destruct o; reflexivity.
Qed.

Lemma asInt_ref J v r1 r2 : t_asInt (traitsOf J v r1) = t_asInt (traitsOf J v r2).
Proof. destruct v; try reflexivity. destruct o; reflexivity. Qed.

Definition no_p (d : appender) : Prop := match d with Default Sp _ => False | _ => True end.

Definition ref_twins (J : jdk) (x y : traits) : Prop :=
  x = y \/ exists v r1 r2, x = traitsOf J v r1 /\ y = traitsOf J v r2.

Lemma nextInt_twins J : forall xs ys, Forall2 (ref_twins J) xs ys ->
  match nextInt xs, nextInt ys with
  | Ok (a, xs'), Ok (b, ys') => a = b /\ Forall2 (ref_twins J) xs' ys'
  | Err a, Err b => a = b
  | _, _ => False
  end.
Proof.
  intros xs ys H. destruct H as [|x y xs ys H H2]; cbn [nextInt]; [reflexivity|].
  assert (t_asInt x = t_asInt y) as ->.
  { destruct H as [->|(v & r1 & r2 & -> & ->)]; [reflexivity|apply asInt_ref]. }
  destruct (t_asInt y); cbn [bind]; auto.
Qed.

Lemma resolve_twins J c xs ys : Forall2 (ref_twins J) xs ys ->
  match resolveCtx c xs, resolveCtx c ys with
  | Ok (a, xs'), Ok (b, ys') => a = b /\ Forall2 (ref_twins J) xs' ys'
  | Err a, Err b => a = b
  | _, _ => False
  end.
Proof.
  intros H. unfold resolveCtx.
  assert (P : forall c xs ys, Forall2 (ref_twins J) xs ys ->
    match (if isPrecedingPrecision c then let* (p, it) := nextInt xs in
      let* c := setPrecision c (if 0 <=? p then p else UNSET) in Ok (c, it) else Ok (c, xs)),
      (if isPrecedingPrecision c then let* (p, it) := nextInt ys in
      let* c := setPrecision c (if 0 <=? p then p else UNSET) in Ok (c, it) else Ok (c, ys)) with
    | Ok (a, xs'), Ok (b, ys') => a = b /\ Forall2 (ref_twins J) xs' ys'
    | Err a, Err b => a = b
    | _, _ => False
    end).
  { clear. intros c xs ys H. destruct (isPrecedingPrecision c); [|auto]. pose proof (nextInt_twins J _ _ H) as N.
    destruct (nextInt xs) as [[p xs']|e], (nextInt ys) as [[p' ys']|e']; cbn [bind]; try contradiction; [|exact N].
    destruct N as [<- N]. destruct (setPrecision c (if 0 <=? p then p else UNSET)); cbn [bind]; auto. }
  destruct (isPrecedingWidth c); [|exact (P c xs ys H)]. pose proof (nextInt_twins J _ _ H) as N.
  destruct (nextInt xs) as [[w xs']|e], (nextInt ys) as [[w' ys']|e']; cbn [bind]; try contradiction; [|exact N].
  destruct N as [<- N].
  destruct (if 0 <=? w then setWidth c w else setWidth (addFlag c LEFT_JUSTIFY) (wrap32 (- w))) as [c1|e]; cbn [bind]; [|reflexivity].
  exact (P c1 xs' ys' N).
Qed.

Lemma run_twins J emit ds : Forall no_p ds -> forall xs ys sb, Forall2 (ref_twins J) xs ys ->
  run J emit ds xs sb = run J emit ds ys sb.
Proof.
  induction 1 as [|d r Hd Hr IH]; intros xs ys sb H; [reflexivity|]. cbn [run].
  destruct d as [t|sp c].
  - cbn [appendOne]. destruct (emit (wrapS t) sb) as [o [e|]]; [reflexivity|]. apply IH, H.
  - cbn [appendOne]. pose proof (resolve_twins J c _ _ H) as R.
    destruct (resolveCtx c xs) as [[c1 xs']|e], (resolveCtx c ys) as [[c2 ys']|e']; cbn [bind]; try contradiction; [|rewrite R; reflexivity].
    destruct R as [<- R]. destruct R as [|x y xs' ys' Hxy R]; [reflexivity|].
    assert (formatterFor J sp c1 x = formatterFor J sp c1 y) as ->.
    { destruct Hxy as [->|(v & r1 & r2 & -> & ->)]; [reflexivity|]. apply ref_only_for_p. intros ->. exact Hd. }
    destruct (formatterFor J sp c1 y) as [s|e]; cbn [bind]; [|reflexivity].
    destruct (emit s sb) as [o [e|]]; [reflexivity|]. apply IH, R.
Qed.

(** putInt(i) and put(Integer) *)
Definition unboxed (p : putcall) : putcall :=
  match p with
  | Put (JRef v _ _) => match v with
                        | VBool _ | VChar _ | VByte _ | VShort _ | VInt _ | VLong _ | VFloat _ | VDouble _ => PutPrimitive v
                        | _ => p
                        end
  | _ => p
  end.

Lemma boxing_irrelevant J ds ps : Forall no_p ds ->
  format J ds (iterator (fold_left (do_put J) ps [])) = format J ds (iterator (fold_left (do_put J) (map unboxed ps) [])) /\
  forall sb target, formatInto J sb ds (iterator (fold_left (do_put J) ps [])) target =
    formatInto J sb ds (iterator (fold_left (do_put J) (map unboxed ps) [])) target.
Proof.
  intros H. rewrite !iterator_in_order.
  assert (T : Forall2 (ref_twins J) (map (given J) ps) (map (given J) (map unboxed ps))).
  { induction ps as [|p r IH]; [constructor|]. constructor; [|exact IH]. unfold ref_twins.
    destruct p as [|v|[|v cls h|t id]]; try (left; reflexivity). destruct v as [b|z|z|z|z|z|b|b|z|d|s|s|s|t|o]; try (left; reflexivity); right; [exists (VBool b)|exists (VChar z)|exists (VByte z)|exists (VShort z)|exists (VInt z)|exists (VLong z)|exists (VFloat b)|exists (VDouble b)]; exists (RObj cls h), RPrimitive; split; reflexivity. }
  split.
  - unfold format. rewrite (run_twins J emitSB ds H _ _ [] T). reflexivity.
  - intros sb target. apply run_twins; assumption.
Qed.

Lemma put_specific J l c h :
    (forall x, put J l (JRef (VBool x) c h) = putBooleanOrNull l (Some (x, c, h))) /\
    (forall x, put J l (JRef (VChar x) c h) = putCharOrNull l (Some (x, c, h))) /\
    (forall x, put J l (JRef (VByte x) c h) = putByteOrNull l (Some (x, c, h))) /\
    (forall x, put J l (JRef (VShort x) c h) = putShortOrNull l (Some (x, c, h))) /\
    (forall x, put J l (JRef (VInt x) c h) = putIntOrNull l (Some (x, c, h))) /\
    (forall x, put J l (JRef (VLong x) c h) = putLongOrNull l (Some (x, c, h))) /\
    (forall x, put J l (JRef (VFloat x) c h) = putFloatOrNull J l (Some (x, c, h))) /\
    (forall x, put J l (JRef (VDouble x) c h) = putDoubleOrNull J l (Some (x, c, h))) /\
    (forall x, put J l (JRef (cs_value x) c h) = putCharSequence J l (Some (x, c, h))) /\
    (forall x, put J l (JRef (VBig x) c h) = putBigInteger l (Some (x, c, h))) /\
    (forall x, put J l (JRef (VDec x) c h) = putBigDecimal J l (Some (x, c, h))) /\
    (forall x, put J l (JRef (VTemporal x) c h) = putDateTime J l (Some (x, c, h))) /\
    (forall x, put J l (JRef (VObj x) c h) = putObject l (JRef (VObj x) c h)) /\
    (forall t id, put J l (JTraits t id) = putObject l (JTraits t id)) /\
    put J l JNull = putNull l.
Proof. repeat split. intros [s|s|s]; reflexivity. Qed.
