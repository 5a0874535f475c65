(** Properties C16, C17, C22: the builder cache and the lazy string cache under any schedule. *)
From Verif Require Import Base Digits SeqM ContextM CompilerM FormatterM TraitsM ImplM ConcM ConcP PropsInt.

(** C16: [wrun] runs any interleaving of calls by any number of threads; [grow] is the StringBuilder growth policy.
    Without re-entrant calls the cached formatter returns what [format] (the uncached loop) returns; the uncached
    formatter does even with re-entrant calls. *)
Theorem C16_every_call_returns_the_uncached_result_partial :
  forall J grow i evs, im_cached i = false \/ no_reentry J grow i w_init evs ->
    forall k args r, In (args, r) (t_done (wrun J grow i evs w_init k)) -> r = ImplM.format J (im_apps i) args.
Proof. exact all_calls_correct. Qed.
Print Assumptions C16_every_call_returns_the_uncached_result_partial.

Theorem C16_every_call_finishes :
  forall J grow i args t, exists n, t_stack (Nat.iter n (tstep J grow i Step) (tstep J grow i (Call args) t)) = t_stack t.
Proof. exact call_finishes. Qed.
Print Assumptions C16_every_call_finishes.

(** C16 is false when an argument's toString() calls the same cached formatter: "A%s" of an object whose toString()
    is the formatter applied to "x" prints "AxAx" instead of "AAx". *)
Theorem C16_reentrant_refuted :
  exists J grow i evs args r, im_cached i = true /\
    In (args, r) (t_done (wrun J grow i evs w_init 0%nat)) /\ r <> ImplM.format J (im_apps i) args.
Proof.
  exists J0, (fun _ n => n), (mkImpl [Fixed (txt "A"); Default Ss (mkCtx noFlags UNSET UNSET None)] 16 true).
  exists (map (pair 0%nat) [Call [traitsOf J0 (VStr (txt "Ax")) RPrimitive]; Step; Step;
            Call [traitsOf J0 (VStr (txt "x")) RPrimitive]; Step; Step; Step; Step; Step; Step; Step; Step]).
  exists [traitsOf J0 (VStr (txt "Ax")) RPrimitive], (Ok (txt "AxAx")).
  split; [reflexivity|]. split; [right; left; reflexivity|]. discriminate.
Qed.
Print Assumptions C16_reentrant_refuted.

(** two threads, interleaved, one call failing, then the cached builder reused *)
Example C16_example :
  let s t := traitsOf J0 (VStr t) RPrimitive in
  let i := mkImpl [Fixed (txt "A"); Default Ss (mkCtx noFlags UNSET UNSET None)] 16 true in
  let evs := [(0, Call []); (0, Step); (1, Call [s (txt "x")]); (0, Step); (0, Step); (1, Step); (0, Call [s (txt "y")]); (1, Step);
              (0, Step); (1, Step); (0, Step); (1, Step); (0, Step); (1, Step); (0, Step); (0, Step)]%nat in
  no_reentry J0 (fun _ n => n) i w_init evs /\
  t_done (wrun J0 (fun _ n => n) i evs w_init 0%nat) = [([], Err (Printf MissingArg)); ([s (txt "y")], Ok (txt "Ay"))] /\
  t_done (wrun J0 (fun _ n => n) i evs w_init 1%nat) = [([s (txt "x")], Ok (txt "Ax"))].
Proof. split; [cbn; repeat split|]. split; reflexivity. Qed.

(** C17 *)
Theorem C17_derived_formatters_run_the_same_appenders : forall i j, derived i j -> im_apps j = im_apps i.
Proof. exact derived_apps. Qed.
Print Assumptions C17_derived_formatters_run_the_same_appenders.

(** same output as the original in any two executions, whatever the capacities and growth policies; calls must not be
    re-entrant on a cached formatter (C16) *)
Theorem C17_derived_formatters_print_the_same :
  forall J grow grow' i j evs evs', derived i j ->
    im_cached j = false \/ no_reentry J grow j w_init evs ->
    im_cached i = false \/ no_reentry J grow' i w_init evs' ->
    forall k k' args r r', In (args, r) (t_done (wrun J grow j evs w_init k)) ->
      In (args, r') (t_done (wrun J grow' i evs' w_init k')) -> r = r'.
Proof. exact derived_output. Qed.
Print Assumptions C17_derived_formatters_print_the_same.

Theorem C17_capacity_must_be_positive :
  forall i n, (exists k, setStringBuilderInitialCapacity i n = Ok k /\ im_cap k = n /\ im_cached k = im_cached i) <-> 0 < n.
Proof. exact capacity_accepted. Qed.
Print Assumptions C17_capacity_must_be_positive.

Example C17_example :
  let i := mkImpl [Fixed (txt "A")] 16 false in
  derived i (mkImpl [Fixed (txt "A")] 70000 true) /\ setStringBuilderInitialCapacity i 0 = Err IllegalArg.
Proof. split; [|reflexivity]. exact (D_capacity _ _ 70000 _ (D_cache _ _ (D_refl _)) eq_refl). Qed.

(** C22: [lrun] lets any number of threads read the sequence in any order; the unsynchronised read of the cache
    may return null or any string written so far *)
Theorem C22_every_read_returns_the_text :
  forall act n evs k r, In (k, r) (l_log (lrun act n evs)) -> r = getCachedString act n.
Proof. exact lazy_reads. Qed.
Print Assumptions C22_every_read_returns_the_text.

(** two threads both build the string; a third reads what the second wrote *)
Example C22_example :
  l_log (lrun (fun sb => Ok (sb ++ txt "42")) 2
           [(1, None); (2, None); (1, None); (2, None); (2, None); (3, Some 0); (1, None)]%nat)
  = [(2, Ok (txt "42")); (3, Ok (txt "42")); (1, Ok (txt "42"))]%nat.
Proof. reflexivity. Qed.
