(** C02 for the whole call FastPrintf.compile, C61 (conversions without output) and C62 (capacity of the builder a
    call starts with). *)
From Verif Require Import Base Digits UtilsM SeqM SeqSpec SeqP ContextM CompilerM GrammarSpec CompilerP CompilerP2 PatternP IntFormM FormatterM
  MathM DecimalM BigDecM TraitsM ImplM FmtSpec FmtP DirSpec ConcM ConcP IntP PropsInt LoopSpec LoopP ApiP.

(** ** C02 *)

(** FastPrintf.compile gives what the parser gives for every source of up to 1431655765 characters. *)
Theorem C02_compile_call_partial :
  forall dtf s, zlen s <= 1431655765 ->
  (exists i, impl_compile dtf s = Ok i /\ compile dtf s = Ok (im_apps i)) \/
  (exists k n, impl_compile dtf s = Err (Syntax k n) /\ 0 <= n <= zlen s) \/
  impl_compile dtf s = Err (Printf WidthRange) \/ impl_compile dtf s = Err (Printf PrecisionRange).
Proof.
  intros dtf s H. rewrite impl_compile_cases by apply zlen_nonneg. rewrite (proj2 (Z.leb_le _ _) H).
  destruct (compile_total dtf s) as [(ds & ->)|[(k & i & -> & Hi)|[-> | ->]]]; eauto 8.
Qed.
Print Assumptions C02_compile_call_partial.

(** C02 is false for longer ones: the capacity computation 1.5 x length throws an ArithmeticException (OtherExn 1). *)
Theorem C02_very_long_source_refuted :
  exists s, zlen s <= int_max /\ ~ In pct s /\ forall dtf, impl_compile dtf s = Err (OtherExn 1).
Proof.
  exists (rep (ch "a") 1431655766).
  assert (N : ~ In pct (rep (ch "a") 1431655766)) by (intros H; apply in_rep in H; discriminate H).
  assert (L : zlen (rep (ch "a") 1431655766) = 1431655766) by (rewrite zlen_rep; reflexivity).
  generalize dependent (rep (ch "a") 1431655766). intros s N L.
  split; [rewrite L; vm_compute; discriminate|]. split; [exact N|].
  intros dtf. rewrite impl_compile_cases by apply zlen_nonneg. rewrite L.
  rewrite (proj2 (compile_iff dtf _ _) (literal_format dtf _ N)). reflexivity.
Qed.
Print Assumptions C02_very_long_source_refuted.

Example C02_call_example :
  impl_compile (fun _ => true) (txt "%d apples") = Ok (mkImpl [Default Sd (mkCtx noFlags UNSET UNSET None); Fixed (txt " apples")] 16 false) /\
  impl_compile (fun _ => true) (txt "%d apples %") = Err (Syntax UnexpectedEnd 11).
Proof. split; reflexivity. Qed.

(** ** C61 *)

(** %n with any flags, width and precision prints nothing, and takes one argument, whatever it is *)
Theorem C61_n_prints_nothing : forall J src q x, directive src Sn q -> prints J src [x] [].
Proof. exact n_prints. Qed.
Print Assumptions C61_n_prints_nothing.

Theorem C61_n_consumes_one_argument :
  forall J src q rest es dtf, directive src Sn q -> compile dtf rest = Ok es ->
  exists ds, compile dtf (src ++ rest) = Ok ds /\
    forall x args, ImplM.format J ds (x :: args) = ImplM.format J es args /\
      forall sb target, formatInto J sb ds (x :: args) target = formatInto J sb es args target.
Proof. exact n_skips. Qed.
Print Assumptions C61_n_consumes_one_argument.

(** every directive, %n included, needs its argument *)
Theorem C61_argument_is_required : forall J src s q, directive src s q -> rejects J src [] (Printf MissingArg).
Proof. exact none_rejects. Qed.
Print Assumptions C61_argument_is_required.

(** the plain %% needs none *)
Theorem C61_double_percent_partial : forall J args, prints J (txt "%%") args (txt "%").
Proof. intros J args. exact (doubled_prints J (txt "%") args). Qed.
Print Assumptions C61_double_percent_partial.

(** a % conversion with a flag, a width or a precision prints the sign alone, but takes an argument *)
Theorem C61_percent_with_a_width : forall J src q x, directive src Spct q -> prints J src [x] (txt "%").
Proof. exact pct_prints. Qed.
Print Assumptions C61_percent_with_a_width.

(** so it is false that a % conversion needs no argument *)
Theorem C61_percent_needs_no_argument_refuted :
  exists src q, directive src Spct q /\ forall J, rejects J src [] (Printf MissingArg).
Proof.
  exists (txt "%5%"), (mkSpec false false false false false 5 None).
  assert (D : directive (txt "%5%") Spct (mkSpec false false false false false 5 None)).
  { is_dir (dir_text [] noFlags (txt "5") 5 [] UNSET (ch "%") Spct). }
  split; [exact D|]. intros J. exact (none_rejects J _ _ _ D).
Qed.
Print Assumptions C61_percent_needs_no_argument_refuted.

Example C61_example :
  exists ds, compile (fun _ => true) (txt "a%-5nb%3%%d") = Ok ds /\
    ImplM.format J0 ds [traitsOf J0 (VStr (txt "x")) RPrimitive; nullTraits; traitsOf J0 (VInt 7) RPrimitive] = Ok (txt "ab%7") /\
    ImplM.format J0 ds [traitsOf J0 (VStr (txt "x")) RPrimitive; traitsOf J0 (VInt 7) RPrimitive] = Err (Printf MissingArg).
Proof. eexists. split; [reflexivity|]. split; reflexivity. Qed.

(** ** C62 *)

(** how the JDK grows a StringBuilder: at least to what is needed, at most to twice the capacity plus 2 beyond it *)
Definition doubling (grow : Z -> Z -> Z) : Prop := forall cap n, cap < n -> n <= grow cap n <= Z.max n (2 * cap + 2).

(** What compile configures: room for one and a half times the source, at least 16 (the default of StringBuilder); no cache. *)
Theorem C62_default_capacity :
  forall dtf s i, impl_compile dtf s = Ok i -> im_cap i = Z.max 16 (3 * zlen s / 2) /\ im_cached i = false.
Proof.
  intros dtf s i. unfold impl_compile. destruct (compile dtf s) as [apps|e]; cbn [bind]; [|discriminate]. cbv zeta.
  destruct (_ <=? int_max); [|discriminate]. intros E. assert (Ei : i = mkImpl apps (Z.max (zlen s) 11 + Z.max (zlen s) 11 / 2) false) by congruence.
  subst i. cbn [im_cap im_cached]. split; [|reflexivity]. pose proof (zlen_nonneg s). Z.to_euclidean_division_equations. lia.
Qed.
Print Assumptions C62_default_capacity.

(** The setters change what they name and nothing else; a capacity below 1 is rejected. *)
Theorem C62_setters :
  forall i, (forall n, 1 <= n -> setStringBuilderInitialCapacity i n = Ok (mkImpl (im_apps i) n (im_cached i))) /\
    (forall n, n < 1 -> setStringBuilderInitialCapacity i n = Err IllegalArg) /\
    enableThreadLocalCache i = mkImpl (im_apps i) (im_cap i) true.
Proof.
  intros [apps cap cached]. unfold setStringBuilderInitialCapacity, enableThreadLocalCache. cbn [im_apps im_cap im_cached]. split; [|split].
  - intros n H. replace (0 <? n) with true by lia. destruct (Z.eqb_spec cap n) as [->|N]; reflexivity.
  - intros n H. replace (0 <? n) with false by lia. reflexivity.
  - destruct cached; reflexivity.
Qed.
Print Assumptions C62_setters.

(** After any history of calls, finished, failed or in progress, on any threads, a new call starts with an empty builder
    of at least the configured capacity, and of no more than 65536 if the configured capacity allows. *)
Theorem C62_builder_of_a_new_call :
  forall J grow i evs k args, doubling grow ->
  exists f rest, let t := tstep J grow i (Call args) (wrun J grow i evs w_init k) in
    t_stack t = f :: rest /\
    let b := get (t_heap t) (fr_ref f) in
    b_text b = [] /\ im_cap i <= b_cap b /\ (im_cap i <= 65536 -> b_cap b <= 65536) /\
    (im_cached i = false -> b_cap b = im_cap i).
Proof.
  intros J grow i evs k args Hg. cbn [tstep].
  destruct (acquire grow i (t_heap (wrun J grow i evs w_init k)) (t_slot (wrun J grow i evs w_init k))) as [[h slot] r] eqn:E.
  exists (mkFr args (im_apps i) args [] r), (t_stack (wrun J grow i evs w_init k)). cbn [t_stack t_heap fr_ref].
  split; [reflexivity|]. exact (call_builder J grow i Hg evs k h slot r E).
Qed.
Print Assumptions C62_builder_of_a_new_call.

(** A builder that grew beyond 65536 is only replaced by the next call: until then the thread keeps it. *)
Theorem C62_idle_builder_refuted :
  exists J grow i evs r, doubling grow /\ im_cached i = true /\ im_cap i <= 65536 /\
    t_stack (wrun J grow i evs w_init 0%nat) = [] /\ t_slot (wrun J grow i evs w_init 0%nat) = Some r /\
    65536 < b_cap (get (t_heap (wrun J grow i evs w_init 0%nat)) r).
Proof.
  set (t := rep (ch "a") 70000).
  assert (L : zlen t = 70000) by (unfold t; rewrite zlen_rep; reflexivity).
  exists J0, (fun cap n => Z.max n (2 * cap + 2)), (mkImpl [Fixed t] 16 true), (map (pair 0%nat) [Call []; Step; Step; Step]), 0%nat.
  split; [intros cap n H; lia|]. split; [reflexivity|]. split; [cbn; lia|].
  clearbody t.
  assert (D : den_atom (s_wrap t) t) by (apply s_wrap_den; rewrite L; vm_compute; discriminate).
  pose proof (a_toSB_den (s_wrap t) t [] D) as E. cbn [app] in E.
  assert (Run : wrun J0 (fun cap n => Z.max n (2 * cap + 2)) (mkImpl [Fixed t] 16 true) (map (pair 0%nat) [Call []; Step; Step; Step]) w_init 0%nat
    = mkT [mkB t 70000] (Some 0%nat) [] [([], Ok t)]).
  { unfold wrun, wstep. cbn [map fold_left fst snd Nat.eqb].
    replace (tstep J0 (fun cap n => Z.max n (2 * cap + 2)) (mkImpl [Fixed t] 16 true) (Call []) (w_init 0%nat))
      with (mkT [mkB [] 16] (Some 0%nat) [mkFr [] [Fixed t] [] [] 0%nat] []) by reflexivity.
    cbn [tstep t_stack step_top fr_pend fr_ds appendOne wrapS atoms_of fr_it fr_args fr_ref t_heap t_slot t_done].
    change (b_text (get [mkB [] 16] 0)) with (@nil Z). rewrite E.
    cbn [tstep t_stack step_top fr_pend fr_ds fr_it fr_args fr_ref t_heap t_slot t_done finish].
    change (b_cap (get [mkB [] 16] 0)) with 16. unfold fit. rewrite L. reflexivity.
  }
  rewrite Run. repeat split.
Qed.
Print Assumptions C62_idle_builder_refuted.

Example C62_example :
  let grow cap n := Z.max n (2 * cap + 2) in
  let t := tstep J0 grow (mkImpl [Fixed (txt "A")] 40000 true) (Call []) t_init in
  doubling grow /\ t_slot t = Some 0%nat /\ b_cap (get (t_heap t) 0) = 40000 /\
  acquire grow (mkImpl [] 40000 true) [mkB (txt "A") 70000] (Some 0%nat) = ([mkB (txt "A") 70000; mkB [] 40000], Some 1%nat, 1%nat) /\
  acquire grow (mkImpl [] 70000 true) [mkB (txt "A") 80000] (Some 0%nat) = ([mkB [] 80000], Some 0%nat, 0%nat).
Proof. split; [intros cap n H; lia|]. repeat split. Qed.
