(** Property C108: repairs of the parser and of its messages. *)
From Verif Require Import Base Digits UtilsM ContextM CompilerM GrammarSpec CompilerP CompilerP2 ErrSpec ErrP DepthM DepthP MsgM MiscM
  DescM DescSpec DescP CharSpec CharP ImplM ParseFixM ParseFixSpec ParseFixP.
From Verif Require PropsErr PropsDesc ApiP.

(** the same result for every format string, with one frame *)
Theorem C108_same_result : forall dtf src free, (1 <= free)%nat -> erase (x_compile dtf src free) = compile dtf src.
Proof.
  intros dtf src [|k] H; [lia|]. rewrite compile_fixed, fixed_erase. apply compile_erase.
Qed.
Print Assumptions C108_same_result.

(** no stack is enough for the recursive parser; a single frame is enough for the loop *)
Theorem C108_constant_stack : forall dtf n, exists src ds,
  compileD dtf src n = Err OutOfFuel /\ x_compile dtf src 1 = DOk ds /\ compile dtf src = Ok ds.
Proof.
  intros dtf n. destruct (PropsErr.C60_bounded_stack_refuted dtf n) as (src & ds & H & O). exists src, ds.
  split; [exact O|]. split; [|exact H]. apply erase_ok. rewrite C108_same_result by lia. exact H.
Qed.
Print Assumptions C108_constant_stack.

(** ** the descriptions *)
Lemma at_index (src : list Z) i c r : 0 <= i -> skipn (Z.to_nat i) src = c :: r -> znth src i = Some c.
Proof.
  intros Hi E. unfold znth. replace (i <? 0) with false by lia. rewrite <- (firstn_skipn (Z.to_nat i) src), E.
  assert (L : (Z.to_nat i < List.length src)%nat).
  { destruct (le_lt_dec (List.length src) (Z.to_nat i)) as [L|L]; [|exact L]. rewrite skipn_all2 in E by exact L. discriminate E. }
  rewrite nth_error_app2 by (rewrite firstn_length; lia). rewrite firstn_length, Nat.min_l by lia. rewrite Nat.sub_diag. reflexivity.
Qed.
Lemma index_range dtf src k i m b : d_compile dtf src = DErr (mkThrown (Syntax k i) m b) -> 0 <= i <= zlen src.
Proof.
  intros D. assert (E : compile dtf src = Err (Syntax k i)) by (rewrite <- compile_erase, D; reflexivity).
  destruct (compile_total dtf src) as [(ds & K)|[(k' & i' & K & Hi)|[K|K]]]; rewrite K in E; try discriminate E. injection E as -> ->. exact Hi.
Qed.
Lemma reworded_fix dtf src e m0 b : d_compile dtf src = DErr (mkThrown e m0 b) -> reworded src e m0 (fix_desc src e m0).
Proof.
  intros D. destruct e as [k i| | | | | | | |]; try reflexivity. pose proof (index_range _ _ _ _ _ _ D) as Hi.
  pose proof (PropsDesc.C80_quotes_partial _ _ _ _ _ _ D) as Q.
  assert (K : forall c r, skipn (Z.to_nat i) src = c :: r -> first_char (skipn (Z.to_nat i) src) (quoted_at src i)).
  { intros c r E. pose proof (at_index _ _ _ _ (proj1 Hi) E) as Z1. unfold quoted_at. rewrite Z1.
    destruct (znth_skip _ _ _ Z1) as (r' & E' & H'). rewrite E'. apply code_point_first; assumption. }
  destruct k; try reflexivity; cbn [fix_desc reworded].
  - destruct Q as (c & r & name & E & _). exists (quoted_at src i). split; [exact (K c r E)|reflexivity].
  - destruct Q as ((c & r & E) & _). exists (quoted_at src i). split; [exact (K c r E)|reflexivity].
Qed.
Lemma reworded_unique src e m0 m m' : reworded src e m0 m -> reworded src e m0 m' -> m = m'.
Proof.
  destruct e as [[] i| | | | | | | |]; cbn [reworded]; try congruence.
  - intros (q & H & ->) (q' & H' & ->). rewrite (first_char_unique _ _ _ H H'). reflexivity.
  - intros (q & H & ->) (q' & H' & ->). rewrite (first_char_unique _ _ _ H H'). reflexivity.
Qed.

Theorem C108_description : forall dtf src free e m b, (1 <= free)%nat ->
  (x_compile dtf src free = DErr (mkThrown e m b) <-> complains dtf src e m b).
Proof.
  intros dtf src [|k] e m b H; [lia|]. rewrite compile_fixed. split.
  - destruct (d_compile dtf src) as [ds|[e0 m0 b0]] eqn:D; [discriminate|]. cbn [fixed t_exn t_desc t_cause]. intros E. injection E as -> <- ->.
    exists m0. split; [apply compile_complaint; exact D|exact (reworded_fix _ _ _ _ _ D)].
  - intros (m0 & C & R). apply compile_complaint in C. rewrite C. cbn [fixed t_exn t_desc t_cause].
    rewrite (reworded_unique _ _ _ _ _ R (reworded_fix _ _ _ _ _ C)). reflexivity.
Qed.
Print Assumptions C108_description.

(** every complaint about a part of the source quotes that part: C80 without its exception *)
Theorem C108_quotes : forall dtf src free k i m b, (1 <= free)%nat -> x_compile dtf src free = DErr (mkThrown (Syntax k i) m b) ->
  match k with
  | DuplicateFlag => PropsDesc.quotes src i (txt "Duplicate flag ") m
  | UnexpectedEnd => i = zlen src
  | BadWidth => PropsDesc.quotes src i (txt "Invalid width: ") m
  | BadPrecision => PropsDesc.quotes src i (txt "Invalid precision: ") m
  | UnclosedDate => (exists r, skipn (Z.to_nat i) src = ch "{" :: r) /\ m = txt "Unclosed date/time pattern starting at index " ++ dec_text i
  | EmptyDate => (exists r, skipn (Z.to_nat i) src = ch "}" :: r) /\ m = txt "Empty date/time pattern"
  | InvalidDate => PropsDesc.quotes src i (txt "Invalid date/time pattern: ") m
  | BadSpecifier => PropsDesc.quotes src i (txt "Unknown format conversion specifier ") m
  end.
Proof.
  intros dtf src free k i m b H E. apply C108_description in E as (m0 & C & R); [|exact H]. apply compile_complaint in C.
  pose proof (PropsDesc.C80_quotes_partial _ _ _ _ _ _ C) as Q. cbn [reworded] in R.
  destruct k; try (subst m; exact Q); destruct R as (q & F & ->).
  - exists q. destruct F as [h l r Hh Hl|c r Hc]; [exists r|exists r]; (split; [discriminate|]); split; reflexivity.
  - exists q. destruct F as [h l r Hh Hl|c r Hc]; [exists r|exists r]; (split; [discriminate|]); split; reflexivity.
Qed.
Print Assumptions C108_quotes.

(** ** well-formed UTF-16 in, well-formed UTF-16 out *)
Lemma utf16_ascii t : forallb (fun c => c <? 128) t = true -> utf16 t.
Proof.
  intros H. apply utf16_plain, Forall_forall. intros c Hc. rewrite forallb_forall in H. specialize (H c Hc). unfold surrogate. lia.
Qed.
Lemma dec_ascii ds : Forall is_dec ds -> utf16 ds.
Proof. intros H. apply utf16_plain. eapply Forall_impl; [|exact H]. intros c. unfold is_dec, surrogate. lia. Qed.
Lemma strip t : Forall (fun c => ~ surrogate c) t -> forall r, utf16 (t ++ r) -> utf16 r.
Proof.
  intros H. induction H as [|c t Hc Ht IH]; intros r U; [exact U|]. apply IH. cbn [app] in U. inversion U; subst; [assumption|].
  exfalso. apply Hc. unfold surrogate, high in *. lia.
Qed.
Lemma flags_plain F fl : flags_text F fl -> Forall (fun c => ~ surrogate c) F.
Proof.
  intros (_ & H & _). apply Forall_forall. intros c Hc. apply H, flag_char_cases in Hc. unfold surrogate. lia.
Qed.
Lemma head_plain h fl w p W P : head h fl w p W P -> Forall (fun c => ~ surrogate c) h.
Proof.
  intros (F & HF & HW & HP & ->). assert (D : forall l, Forall is_dec l -> Forall (fun c => ~ surrogate c) l).
  { intros l. apply Forall_impl. intros c. unfold is_dec, surrogate. lia. }
  apply Forall_app. split; [exact (flags_plain _ _ HF)|]. apply Forall_app. split.
  - destruct HW; [constructor|repeat constructor; unfold surrogate; cbn; lia|auto].
  - destruct HP; [constructor|repeat constructor; unfold surrogate; cbn; lia|]. constructor; [unfold surrogate; lia|auto].
Qed.
Lemma first_utf16 t q : first_char t q -> utf16 t -> utf16 q.
Proof.
  intros F U. destruct F as [h l r Hh Hl|c r Hc].
  - apply uf_pair; [exact Hh|exact Hl|constructor].
  - inversion U; subst; [constructor; [assumption|constructor]|]. exfalso. eapply Hc; [eassumption|reflexivity|assumption].
Qed.
Lemma dec_text_utf16 n : utf16 (dec_text n).
Proof.
  apply utf16_own. unfold dec_text. destruct (n <? 0) eqn:E; [apply own_cons; [reflexivity|]|]; apply own_numeral; lia.
Qed.

Theorem C108_utf16 : forall dtf src free e m b, (1 <= free)%nat -> x_compile dtf src free = DErr (mkThrown e m b) -> utf16 src -> utf16 m.
Proof.
  intros dtf src free e m b H E U. apply C108_description in E as (m0 & C & R); [|exact H].
  destruct C as (s & ds & t & x & -> & Hs & Hx & ->).
  assert (Np : ~ surrogate pct) by (unfold surrogate, pct; lia). pose proof (proj2 (utf16_split _ _ _ Np U)) as Ut.
  assert (N123 : ~ surrogate 123) by (unfold surrogate; lia). assert (N125 : ~ surrogate 125) by (unfold surrogate; lia).
  assert (Q : forall h c r q, Forall (fun c => ~ surrogate c) h -> t = h ++ c :: r ->
    first_char (skipn (Z.to_nat (zlen s + 1 + zlen h)) (s ++ pct :: t)) q -> utf16 q).
  { intros h c r q Hh -> F. apply (first_utf16 (c :: r)); [|exact (strip _ Hh _ Ut)].
    replace (s ++ pct :: h ++ c :: r) with ((s ++ pct :: h) ++ c :: r) in F by (rewrite <- app_assoc; reflexivity).
    rewrite PropsDesc.skip_app in F by (rewrite zlen_app, zlen_cons; lia). exact F. }
  assert (T : forall a q z, forallb (fun c => c <? 128) a = true -> utf16 q -> forallb (fun c => c <? 128) z = true -> utf16 (a ++ q ++ z)).
  { intros a q z Ha Hq Hz. apply utf16_app; [exact (utf16_ascii _ Ha)|]. apply utf16_app; [exact Hq|exact (utf16_ascii _ Hz)]. }
  destruct Hx as [F fl c r name HF Hc Hname|F fl w r HF Hh HB|F fl W w ws r HF HW HB|h fl w p W P m0 Hh Hm|h fl w p W P c r Hh Hc Hsp
      |h fl w p W P c sp r Hh Hc Hsp Hn|h fl w p W P c sp r Hh Hc Hsp|h fl w p W P c sp d r Hh Hc Hsp Hd Hp Hv
      |h fl w p W P c sp T0 d r Hh Hc HT Hw|h fl w p W P c sp T0 d r Hh Hc HT Hw Hp]; cbn [shifted reworded] in R.
  - destruct R as (q & Fq & ->). apply T; [reflexivity| |reflexivity]. exact (Q F c r q (flags_plain _ _ HF) eq_refl Fq).
  - subst m. apply T; [reflexivity| |reflexivity]. apply dec_ascii, HB.
  - subst m. apply T; [reflexivity| |reflexivity]. apply dec_ascii, HB.
  - subst m. destruct Hm; apply utf16_ascii; reflexivity.
  - destruct R as (q & Fq & ->). apply T; [reflexivity| |reflexivity]. exact (Q h c r q (head_plain _ _ _ _ _ _ Hh) eq_refl Fq).
  - subst m. apply utf16_app; [apply utf16_ascii; reflexivity|apply dec_text_utf16].
  - subst m. apply utf16_ascii. reflexivity.
  - subst m. apply T; [reflexivity| |reflexivity].
    replace (h ++ c :: 123 :: d ++ 125 :: r) with ((h ++ [c]) ++ 123 :: d ++ 125 :: r) in Ut by (rewrite <- app_assoc; reflexivity).
    apply utf16_split in Ut as [_ Ut]; [|exact N123]. apply utf16_split in Ut as [Ut _]; [exact Ut|exact N125].
  - subst m. apply T; [reflexivity|apply dec_text_utf16|reflexivity].
  - subst m. apply T; [reflexivity|apply dec_text_utf16|reflexivity].
Qed.
Print Assumptions C108_utf16.

(** the message of every syntax error has the line with the caret, and the caret is under the index *)
Theorem C108_caret : forall dtf src free nl k i m b, (1 <= free)%nat -> x_compile dtf src free = DErr (mkThrown (Syntax k i) m b) ->
  x_getMessage nl src (mkThrown (Syntax k i) m b) =
    m ++ txt " near index " ++ dec_text i ++ nl ++ src ++ nl ++ rep (ch " ") i ++ txt "^".
Proof.
  intros dtf src [|f] nl k i m b H E; [lia|]. rewrite compile_fixed in E.
  assert (R : 0 <= i <= zlen src).
  { destruct (d_compile dtf src) as [ds|[e0 m0 b0]] eqn:D; [discriminate E|]. cbn [fixed t_exn t_desc t_cause] in E. injection E as -> _ _.
    exact (index_range _ _ _ _ _ _ D). }
  cbn [x_getMessage t_exn t_desc]. unfold x_message. replace (0 <=? i) with true by lia. replace (i <=? zlen src) with true by lia.
  cbn [andb]. rewrite <- !app_assoc. reflexivity.
Qed.
Print Assumptions C108_caret.

(** and a message that had one is the same as before for the same description *)
Theorem C108_caret_same : forall nl desc src i, i <> zlen src -> x_message nl desc src i = syntaxMessage nl desc src i.
Proof.
  intros nl desc src i H. unfold x_message, syntaxMessage. replace (i <=? zlen src) with (i <? zlen src); [reflexivity|].
  destruct (i <? zlen src) eqn:E; symmetry; lia.
Qed.
Print Assumptions C108_caret_same.

(** ** the whole call *)
Theorem C108_compile_call : forall dtf s free, (1 <= free)%nat ->
  (exists i, x_impl_compile dtf free s = DOk i /\ compile dtf s = Ok (im_apps i) /\ 16 <= im_cap i <= int_max - 8 /\ im_cached i = false) \/
  (exists k n m b, x_impl_compile dtf free s = DErr (mkThrown (Syntax k n) m b) /\ 0 <= n <= zlen s) \/
  (exists k m b, x_impl_compile dtf free s = DErr (mkThrown (Printf k) m b) /\ (k = WidthRange \/ k = PrecisionRange)).
Proof.
  intros dtf s free H. pose proof (C108_same_result dtf s free H) as E. unfold x_impl_compile.
  destruct (compile_total dtf s) as [(ds & K)|[(k & i & K & Hi)|K]].
  - left. rewrite K in E. apply erase_ok in E. rewrite E. cbn [dbind]. eexists. split; [reflexivity|]. cbn [im_apps im_cap im_cached].
    split; [exact K|]. split; [|reflexivity]. assert (11 / 2 <= Z.max (zlen s) 11 / 2) by (apply Z.div_le_mono; lia).
    change (11 / 2) with 5 in *. change int_max with 2147483647. lia.
  - right. left. rewrite K in E. destruct (x_compile dtf s free) as [ds|[e m b]]; [discriminate E|]. cbn [erase t_exn] in E. injection E as ->.
    exists k, i, m, b. split; [reflexivity|exact Hi].
  - right. right. destruct K as [K|K]; rewrite K in E; (destruct (x_compile dtf s free) as [ds|[e m b]]; [discriminate E|]); cbn [erase t_exn] in E;
      injection E as ->; do 3 eexists; (split; [reflexivity|auto]).
Qed.
Print Assumptions C108_compile_call.

(** the capacity is the one of before, up to the largest one an array can have *)
Theorem C108_same_call : forall dtf s free i, (1 <= free)%nat -> impl_compile dtf s = Ok i ->
  x_impl_compile dtf free s = DOk (mkImpl (im_apps i) (Z.min (im_cap i) (int_max - 8)) (im_cached i)) /\
  (zlen s <= 1431655759 -> Z.min (im_cap i) (int_max - 8) = im_cap i).
Proof.
  intros dtf s free i H E. pose proof (C108_same_result dtf s free H) as S. unfold impl_compile in E. unfold x_impl_compile.
  destruct (compile dtf s) as [ds|e] eqn:C; [|discriminate E]. cbn [bind] in E.
  destruct (Z.max (zlen s) 11 + Z.max (zlen s) 11 / 2 <=? int_max); [|discriminate E]. injection E as <-. cbn [im_apps im_cap im_cached].
  apply erase_ok in S. rewrite S. cbn [dbind]. split; [reflexivity|]. intros L.
  assert (Z.max (zlen s) 11 / 2 <= 1431655759 / 2) by (apply Z.div_le_mono; lia). change (1431655759 / 2) with 715827879 in *.
  change int_max with 2147483647. lia.
Qed.
Print Assumptions C108_same_call.

(** ** examples *)
Definition xsaid_of (src : list Z) : option (list Z * exn) :=
  match x_compile (fun p => negb (hd 0 p =? 98)) src 1 with DErr t => Some (t_desc t, t_exn t) | DOk _ => None end.
Example C108_example :
  xsaid_of (txt "%--d") = Some (txt "Duplicate flag '-'", Syntax DuplicateFlag 2) /\
  xsaid_of (txt "a%%%00d") = Some (txt "Duplicate flag '0'", Syntax DuplicateFlag 5) /\
  xsaid_of [37; 55357; 56832; 100] = Some (txt "Unknown format conversion specifier '" ++ [55357; 56832] ++ txt "'", Syntax BadSpecifier 1) /\
  xsaid_of [37; 55357; 100] = Some (txt "Unknown format conversion specifier '" ++ [55357] ++ txt "'", Syntax BadSpecifier 1) /\
  xsaid_of (txt "%t{b}") = Some (txt "Invalid date/time pattern: 'b'", Syntax InvalidDate 3) /\
  xsaid_of (txt "%10.") = Some (txt "Format string terminates after '.'", Syntax UnexpectedEnd 4) /\
  xsaid_of (txt "%d%%") = None.
Proof. repeat split; vm_compute; reflexivity. Qed.
Example C108_message_example :
  x_getMessage [10] (txt "ab%") (mkThrown (Syntax UnexpectedEnd 3) (txt "Cut") false)
    = txt "Cut near index 3" ++ [10] ++ txt "ab%" ++ [10] ++ txt "   ^" /\
  getMessage [10] (txt "ab%") (mkThrown (Syntax UnexpectedEnd 3) (txt "Cut") false) = txt "Cut near index 3" ++ [10] ++ txt "ab%".
Proof. split; reflexivity. Qed.
Example C108_loop_example :
  x_compile (fun _ => true) (txt "a%d%%b%5s") 1 =
    DOk [Fixed (txt "a"); Default Sd (mkCtx noFlags UNSET UNSET None); Fixed (txt "%"); Fixed (txt "b"); Default Ss (mkCtx noFlags 5 UNSET None)] /\
  compileD (fun _ => true) (txt "a%d%%b%5s") 8 = Err OutOfFuel.
Proof. split; reflexivity. Qed.
Example C108_call_example : x_impl_compile (fun _ => true) 1 (txt "%d apples") =
  DOk (mkImpl [Default Sd (mkCtx noFlags UNSET UNSET None); Fixed (txt " apples")] 16 false).
Proof. reflexivity. Qed.
