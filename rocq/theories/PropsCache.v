(** C107: a repair of the builder cache. *)
From Verif Require Import Base Digits UtilsM SeqM ContextM CompilerM FormatterM TraitsM ImplM ConcM ConcP CacheM CacheP PropsApi PropsConc.
From Verif Require Import PropsInt.

(** C16 for every history: any threads, any interleaving, calls made while other calls are in progress, calls that fail *)
Theorem C107_every_call_returns_the_uncached_result : forall J grow i evs k args r,
  In (args, r) (t_done (wrun' J grow i evs w_init k)) -> r = ImplM.format J (im_apps i) args.
Proof. exact calls_correct'. Qed.
Print Assumptions C107_every_call_returns_the_uncached_result.

Theorem C107_every_call_finishes : forall J grow i args t,
  exists n, t_stack (Nat.iter n (tstep' J grow i Step) (tstep' J grow i (Call args) t)) = t_stack t.
Proof. exact call_finishes'. Qed.
Print Assumptions C107_every_call_finishes.

(** a call starts on an empty builder that no other call in progress uses *)
Theorem C107_builder_of_a_new_call : forall J grow i evs k args, doubling grow ->
  let t := wrun' J grow i evs w_init k in let t' := tstep' J grow i (Call args) t in
  exists f, t_stack t' = f :: t_stack t /\ fr_args f = args /\ ~ In (fr_ref f) (map fr_ref (t_stack t)) /\
    b_text (get (t_heap t') (fr_ref f)) = [] /\ im_cap i <= b_cap (get (t_heap t') (fr_ref f)) /\
    (im_cap i <= 65536 -> b_cap (get (t_heap t') (fr_ref f)) <= 65536) /\
    (t_slot t = None \/ im_cached i = false -> b_cap (get (t_heap t') (fr_ref f)) = im_cap i).
Proof. exact new_builder. Qed.
Print Assumptions C107_builder_of_a_new_call.

(** C62 at all times: the cached builder is not larger than the limit, unless a larger one is configured *)
Theorem C107_cached_builder : forall J grow i evs k r, t_slot (wrun' J grow i evs w_init k) = Some r ->
  (b_cap (get (t_heap (wrun' J grow i evs w_init k)) r) <= 65536 \/ 65536 < im_cap i) /\ ~ In r (map fr_ref (t_stack (wrun' J grow i evs w_init k))).
Proof. intros J grow i evs k r H. pose proof (inv'_reached J grow i evs k) as [_ _ Hs Hz _]. split; [exact (Hz r H)|exact (proj2 (Hs r H))]. Qed.
Print Assumptions C107_cached_builder.

(** the cache still works: the builder of a call that ends, if not too large, is the one of the next call, which creates none *)
Theorem C107_builder_is_reused : forall J grow i evs k f rest args,
  let t := wrun' J grow i evs w_init k in let t1 := tstep' J grow i Step t in let t2 := tstep' J grow i (Call args) t1 in
  im_cached i = true -> t_stack t = f :: rest -> t_stack t1 = rest -> b_cap (get (t_heap t) (fr_ref f)) <= 65536 \/ 65536 < im_cap i ->
  exists g, t_stack t2 = g :: rest /\ fr_ref g = fr_ref f /\ List.length (t_heap t2) = List.length (t_heap t1).
Proof.
  intros J grow i evs k f rest args t t1 t2 Hc E E1 Hz. pose proof (goes_back J grow i t f rest E E1 Hc Hz) as Hs. fold t1 in Hs.
  assert (I : inv' J i t1) by (apply inv'_step, inv'_reached). destruct (v_slot J i t1 I _ Hs) as [A _].
  destruct (is_reused J grow i t1 _ args Hc Hs A) as (g & X & Y & W). fold t2 in X, W. rewrite E1 in X. exists g. auto.
Qed.
Print Assumptions C107_builder_is_reused.

(** without re-entry, or without the cache, nobody can tell the two apart: at every moment the same calls are finished, with the same results *)
Theorem C107_same_as_before : forall J grow i evs k, im_cached i = false \/ no_reentry J grow i w_init evs ->
  t_done (wrun' J grow i evs w_init k) = t_done (wrun J grow i evs w_init k).
Proof.
  intros J grow i evs k [H|H]; [rewrite (uncached_run J grow i evs H w_init w_init (fun _ => eq_refl)); reflexivity|symmetry; apply same_done, H].
Qed.
Print Assumptions C107_same_as_before.

(** the call of C16_reentrant_refuted *)
Example C107_example :
  let i := mkImpl [Fixed (txt "A"); Default Ss (mkCtx noFlags UNSET UNSET None)] 16 true in
  let evs := map (pair 0%nat) [Call [traitsOf J0 (VStr (txt "Ax")) RPrimitive]; Step; Step;
    Call [traitsOf J0 (VStr (txt "x")) RPrimitive]; Step; Step; Step; Step; Step; Step; Step; Step] in
  map snd (t_done (wrun J0 (fun _ n => n) i evs w_init 0%nat)) = [Ok (txt "Ax"); Ok (txt "AxAx")] /\
  map snd (t_done (wrun' J0 (fun _ n => n) i evs w_init 0%nat)) = [Ok (txt "Ax"); Ok (txt "AAx")] /\
  t_slot (wrun' J0 (fun _ n => n) i evs w_init 0%nat) = Some 0%nat.
Proof. vm_compute. repeat split. Qed.
