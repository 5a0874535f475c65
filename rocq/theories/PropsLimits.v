(** What happens exactly where C14, C15, C16, C43, C44 and C54 are false. *)
From Verif Require Import Base Digits UtilsM SeqM SeqSpec SeqP ContextM CompilerM GrammarSpec CompilerP CompilerP2 PatternP IntFormM FormatterM TraitsM ImplM
  FmtSpec FmtP FmtP2 DirSpec LoopSpec ImplP IntP LoopP WidthP StarP ErrSpec ErrP MathM DecimalM TextM MiscM MiscSpec MiscP ConcM ConcP PropsInt.

(** ** C14 *)

(** A '*' width of zero is no width, for every conversion other than %a (see C14_star_width_zero_floating_partial), every argument
    and whatever else is wrong: the argument of the width is used up and the rest is as if the '*' were not there. *)
Theorem C14_star_width_zero_in_place :
  forall J dtf F fl P p c s x, flags_text F fl -> prec_text P p -> conv_char c s -> s <> Spct -> s <> Sa -> s <> SA -> t_asInt x = Ok 0 ->
  exists ds ds', compile dtf (pct :: F ++ txt "*" ++ P ++ [c]) = Ok ds /\ compile dtf (pct :: F ++ P ++ [c]) = Ok ds' /\
    forall sb rest target, Forall (of_value J) rest -> formatInto J sb ds (x :: rest) target = formatInto J sb ds' rest target.
Proof. exact zero_in_place. Qed.
Print Assumptions C14_star_width_zero_in_place.

(** A '*' width of Integer.MIN_VALUE stands for the flag '-' without a width. *)
Theorem C14_min_value_exact :
  forall J s x w0 F fl P p c, (exists T, renders J s x T) \/ (exists v r, float_arg J s v /\ x = traitsOf J v r) ->
    flags_text F fl -> prec_text P p -> p <> PRECEDING -> conv_char c s -> s <> Spct -> t_asInt w0 = Ok int_min ->
  exists t, prints J (pct :: F ++ txt "*" ++ P ++ [c]) [w0; x] t /\ prints J (pct :: star_flags F (-1) ++ P ++ [c]) [x] t.
Proof.
  intros J s x w0 F fl P p c Hx HF HP Hp Hc Hs H0.
  assert (C : exists T, converts J s x T).
  { destruct Hx as [(T & HT)|(v & r & Hv & ->)].
    - exists T. intros k Hk. apply (renders_den J s x T k HT Hk).
    - destruct (float_converts J s v r Hv) as (T & HT & _). exists T. exact HT. }
  destruct C as (T & HT). eexists. split; [apply (star_min_converts J s x T w0 F fl P p c HT); assumption|].
  pose proof (star_flags_ok F fl (-1) HF) as HF'. change (-1 <? 0) with true in HF'. cbn match in HF'.
  apply (converts_prints J s x T _ _ HT).
  apply (dir_text (star_flags F (-1)) (addF LEFT_JUSTIFY fl) [] UNSET P p c s); try assumption; [constructor|discriminate|].
  intros _ ->. inversion Hc as [E|s0 E E0]; subst s0. destruct s; try discriminate. contradiction.
Qed.
Print Assumptions C14_min_value_exact.

(** ** C15 *)

(** the width a conversion gets at run time is unset, in range, or this one value *)
Theorem C15_run_time_bounds :
  forall dtf s ds sp c args c' it, compile dtf s = Ok ds -> In (Default sp c) ds -> resolveCtx c args = Ok (c', it) ->
    Forall (fun x => forall w, t_asInt x = Ok w -> is_int w) args ->
    (c_width c' = UNSET \/ 0 <= c_width c' <= 65536 \/ (c_width c' = int_min /\ f_left (c_flags c') = true)) /\
    (c_prec c' = UNSET \/ 0 <= c_prec c' <= 65536).
Proof. intros dtf s ds sp c args c' it H Hin Hr Ha. exact (resolved_ok c args c' it (compiled_bounded dtf s ds sp c H Hin) Hr Ha). Qed.
Print Assumptions C15_run_time_bounds.

(** ** C16 *)

(** A call [f] in progress on the cached builder makes another call of the same formatter. That call returns its own text, as it
    should. Then [f] goes on behind what that call left in the builder, its own output so far being lost, unless the builder had
    grown beyond 65536: then the inner call gets a builder of its own and [f] is not disturbed.
    [leaves J f t] is what [f] makes of the builder content [t] with what it still has to append. *)
Theorem C16_reentrant_exact : forall J grow i t f rest r args,
  im_cached i = true -> t_slot t = Some r -> t_stack t = f :: rest -> fr_ref f = r -> (r < List.length (t_heap t))%nat ->
  let kept := (65536 <? b_cap (get (t_heap t) r)) && (im_cap i <=? 65536) in
  let inner := run J emitSB (im_apps i) args [] in
  exists n m, let t1 := Nat.iter n (tstep J grow i Step) (tstep J grow i (Call args) t) in
    t_stack t1 = f :: rest /\ t_done t1 = t_done t ++ [(args, ImplM.format J (im_apps i) args)] /\
    let t2 := Nat.iter m (tstep J grow i Step) t1 in
    t_stack t2 = rest /\
    t_done t2 = t_done t1 ++ [(fr_args f, text_of (leaves J f (if kept then b_text (get (t_heap t) r) else fst inner)))].
Proof. exact nested. Qed.
Print Assumptions C16_reentrant_exact.

(** "A%s" of an object whose toString() formats "x": "A" is lost, then "Ax" is appended to the "Ax" of the inner call *)
Example C16_reentrant_example :
  let s t := traitsOf J0 (VStr t) RPrimitive in
  let i := mkImpl [Fixed (txt "A"); Default Ss (mkCtx noFlags UNSET UNSET None)] 16 true in
  let t := Nat.iter 2 (tstep J0 (fun _ n => n) i Step) (tstep J0 (fun _ n => n) i (Call [s (txt "Ax")]) t_init) in
  exists f, t_stack t = [f] /\ t_slot t = Some (fr_ref f) /\ (fr_ref f < List.length (t_heap t))%nat /\ b_text (get (t_heap t) (fr_ref f)) = txt "A" /\
    run J0 emitSB (im_apps i) [s (txt "x")] [] = (txt "Ax", None) /\ leaves J0 f (txt "Ax") = (txt "AxAx", None).
Proof. eexists. split; [reflexivity|]. split; [reflexivity|]. split; [apply Nat.ltb_lt; reflexivity|]. repeat split. Qed.

(** ** C43 *)

(** the order of two timestamps is kept exactly when both count seconds, both count milliseconds, or the later one is late enough *)
Theorem C43_monotone_exact : forall a b i j, 0 <= a <= b -> longToInstant a = Ok i -> longToInstant b = Ok j ->
  (instant_le i j <-> b <= 4294967295 \/ 4294967295 < a \/ 1000 * a <= b).
Proof.
  intros a b i j H. unfold longToInstant. replace (0 <=? a) with true by lia. replace (0 <=? b) with true by lia.
  unfold ofEpochSecond, ofEpochMilli, instant_le. intros Ei Ej.
  pose proof (Z.div_mod a 1000 ltac:(lia)). pose proof (Z.mod_pos_bound a 1000 ltac:(lia)).
  pose proof (Z.div_mod b 1000 ltac:(lia)). pose proof (Z.mod_pos_bound b 1000 ltac:(lia)).
  destruct (a <=? 4294967295) eqn:Ea; destruct (b <=? 4294967295) eqn:Eb; injection Ei as <-; injection Ej as <-; cbn [fst snd]; lia.
Qed.
Print Assumptions C43_monotone_exact.

Example C43_exact_example : longToInstant 4294967295 = Ok (4294967295, 0) /\ longToInstant 4294967295000 = Ok (4294967295, 0) /\
  longToInstant 4294967294999 = Ok (4294967294, 999000000).
Proof. repeat split. Qed.

(** ** C44 *)

(** the message of every syntax error: the caret is missing exactly when the source ends too early *)
Theorem C44_message_exact : forall dtf src k i nl desc, compile dtf src = Err (Syntax k i) ->
  syntaxMessage nl desc src i =
    desc ++ txt " near index " ++ dec_text i ++ nl ++ src ++ (match k with UnexpectedEnd => [] | _ => nl ++ spaces i ++ txt "^" end) /\
  (k = UnexpectedEnd <-> i = zlen src).
Proof.
  intros dtf src k i nl desc H.
  assert (B : 0 <= i /\ (k = UnexpectedEnd -> i = zlen src) /\ (k <> UnexpectedEnd -> i < zlen src)).
  { apply compile_malformed in H as (s & ds & t & x & -> & Hs & Hx & He).
    assert (L : forall ds r, too_big ds r -> 0 < zlen ds).
    { intros l r (_ & Hb & _). destruct l as [|a l]; [vm_compute in Hb; discriminate|]. rewrite zlen_cons. pose proof (zlen_nonneg l). lia. }
    rewrite zlen_app, zlen_cons. pose proof (zlen_nonneg s).
    destruct Hx as [F fl c r H1 H2|F fl l r H1 H2 H3|F fl W w l r H1 H2 H3|h fl w p W P H1|h fl w p W P c r H1 H2 H3|h fl w p W P c z r H1 H2 H3 H4|h fl w p W P c z r H1 H2 H3|h fl w p W P c z d r H1 H2 H3 H4 H5 H6|h fl w p W P c z T d r H1 H2 H3 H4|h fl w p W P c z T d r H1 H2 H3 H4 H5];
      cbn [shifted] in He; try discriminate; injection He as -> ->; rewrite ?zlen_app, ?zlen_cons, ?zlen_app, ?zlen_cons;
      repeat match goal with |- context [zlen ?l] => lazymatch goal with K : 0 <= zlen l |- _ => fail | _ => pose proof (zlen_nonneg l) end end;
      try (pose proof (L _ _ H3)); (split; [lia|]); (split; [try discriminate; intros _; lia|]); intros N; try congruence; lia. }
  destruct B as (B0 & B1 & B2). unfold syntaxMessage. replace (0 <=? i) with true by lia.
  destruct k; try (specialize (B2 ltac:(discriminate)); replace (i <? zlen src) with true by lia; cbn [andb];
    split; [rewrite <- !app_assoc; reflexivity|split; [discriminate|lia]]).
  rewrite (B1 eq_refl). replace (zlen src <? zlen src) with false by lia. rewrite andb_false_r, <- !app_assoc, app_nil_r. split; [reflexivity|]. split; auto.
Qed.
Print Assumptions C44_message_exact.

(** ** C54 *)

(** joining an Iterable fails exactly when its first element throws, with the exception of that element *)
Theorem C54_join_iterable_exact : forall sb sep l,
  (exists x s r, l = EThrows x s :: r /\ join sb sep (JoinIter l) = Err x) \/
  (forall x s r, l <> EThrows x s :: r) /\ exists t, join sb sep (JoinIter l) = Ok t.
Proof.
  intros sb sep l. destruct l as [|o l].
  - right. split; [discriminate|]. eexists. reflexivity.
  - destruct o as [|t|x s].
    + right. split; [discriminate|]. cbn [join joinIterator appendObject bind]. eexists. reflexivity.
    + right. split; [discriminate|]. cbn [join joinIterator appendObject bind]. eexists. reflexivity.
    + left. exists x, s, l. split; reflexivity.
Qed.
Print Assumptions C54_join_iterable_exact.
