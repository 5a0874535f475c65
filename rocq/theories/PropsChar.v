(** C75: where the characters of the output come from. C76: well-formed UTF-16. *)
From Coq Require Import QArith.
From Verif Require Import Base Digits UtilsM SeqM SeqSpec SeqP ContextM CompilerM GrammarSpec CompilerP2 IntFormM FormatterM MathM DecimalM FPDecimalM
  DoubleM BigDecM RoundM TraitsM ImplM ImplP FmtSpec FmtP DecSpec FloatSpec BigSpec DirSpec LoopSpec LoopP IntP PropsInt NearP FloatP DoubleP FloatArgP PropsFloat
  ExactSpec ScaleSpec ScaleP ValueSpec ValueP PropsValue WholeSpec WholeP PropsWhole CharSpec CharP.
Open Scope Z_scope.

(** ** C75 *)

(** every character a call adds to its target is one of the format string, one of the 43 the library writes on its own, or one of
    what a directive of this format shows of an argument; also when the call fails half-way *)
Theorem C75_where_characters_come_from : forall J dtf src ds args sb target out o,
  jdk_ok J -> GrammarSpec.format dtf src ds -> Forall (argument J) args -> formatInto J sb ds args target = (out, o) ->
  exists t, out = target ++ t /\ forall c, In c t -> In c src \/ In c own \/ exists x, In x args /\ of_argument J ds x c.
Proof.
  intros J dtf src ds args sb target out o HJ F Ha E. destruct (C74_the_reference_is_complete J dtf src ds args HJ F Ha) as (t & o' & S & _).
  destruct (C74_calls_follow_the_reference J dtf src ds args t o' HJ F S) as (_ & _ & R). rewrite (R sb target) in E. injection E as <- <-.
  exists t. split; [reflexivity|]. intros c Hc. destruct (format_parts dtf src ds F) as [A B].
  destruct (says_from J ds ds args t o' S (incl_refl _) c Hc) as [(u & Hu & Hcu)|[(k & Hk & ->)|[H|H]]]; [left; exact (A u Hu c Hcu)|left; exact (B _ _ Hk)|auto|auto].
Qed.
Print Assumptions C75_where_characters_come_from.

Theorem C75_returned_text : forall J dtf src ds args t,
  jdk_ok J -> GrammarSpec.format dtf src ds -> Forall (argument J) args -> ImplM.format J ds args = Ok t ->
  forall c, In c t -> In c src \/ In c own \/ exists x, In x args /\ of_argument J ds x c.
Proof.
  intros J dtf src ds args t HJ F Ha E c Hc. destruct (C74_the_reference_is_complete J dtf src ds args HJ F Ha) as (t' & o' & S & _).
  destruct (C74_calls_follow_the_reference J dtf src ds args t' o' HJ F S) as (_ & E' & R). rewrite E in E'. destruct o'; [discriminate|]. injection E' as <-.
  destruct (C75_where_characters_come_from J dtf src ds args true [] _ _ HJ F Ha (R true [])) as (u & E' & H). cbn [app] in E'. subst u. exact (H c Hc).
Qed.
Print Assumptions C75_returned_text.

(** so any set of characters that contains the library's own, and all of the format and of what is shown, contains the output: line breaks or
    other control characters, or characters outside ASCII, come from the format or from an argument *)
Theorem C75_sets_are_kept : forall (P : Z -> Prop) J dtf src ds args t,
  jdk_ok J -> GrammarSpec.format dtf src ds -> Forall (argument J) args -> ImplM.format J ds args = Ok t ->
  Forall P own -> Forall P src -> (forall x c, In x args -> of_argument J ds x c -> P c) -> Forall P t.
Proof.
  intros P J dtf src ds args t HJ F Ha E Ho Hs Hx. apply Forall_forall. intros c Hc. rewrite Forall_forall in Ho, Hs.
  destruct (C75_returned_text J dtf src ds args t HJ F Ha E c Hc) as [H|[H|(x & H & H')]]; eauto.
Qed.
Print Assumptions C75_sets_are_kept.

Definition numeric (s : spec) : bool := integer_conv s || float_spec s || match s with Sn | Spct => true | _ => false end.

(** numeric conversions add nothing but the library's own characters, whatever the arguments are *)
Theorem C75_numbers : forall J dtf src ds args t,
  jdk_ok J -> GrammarSpec.format dtf src ds -> Forall (argument J) args -> ImplM.format J ds args = Ok t ->
  (forall s k, In (Default s k) ds -> numeric s = true) -> forall c, In c t -> In c src \/ In c own.
Proof.
  intros J dtf src ds args t HJ F Ha E Hn c Hc. destruct (C75_returned_text J dtf src ds args t HJ F Ha E c Hc) as [H|[H|(x & _ & H)]]; [auto|auto|].
  exfalso. destruct H as [s k v u c r Hk Hs _ _|s k u w c r Hk Hs _ _|k v c r Hk _|s k v u d c r Hk Hs _ _ _|k v name hash c Hk _];
    apply Hn in Hk; [destruct s; discriminate|destruct s; discriminate|discriminate|destruct s; discriminate|discriminate].
Qed.
Print Assumptions C75_numbers.

(** all of these characters are plain ASCII; each of them is printed by some call whose format does not contain it *)
Theorem C75_own_is_printable_ascii : Forall (fun c => 32 <= c <= 126) own.
Proof. apply Forall_forall. intros c Hc. assert (A : forallb (fun c => (32 <=? c) && (c <=? 126)) own = true) by reflexivity.
  rewrite forallb_forall in A. apply A, andb_prop in Hc as [B C]. apply Z.leb_le in B, C. auto. Qed.
Print Assumptions C75_own_is_printable_ascii.

Definition one_call (src : list Z) (args : list traits) : list Z * list Z :=
  (src, match compile (fun _ => true) src with Ok ds => match ImplM.format J2 ds args with Ok t => t | Err _ => [] end | Err _ => [] end).
Definition calls : list (list Z * list Z) := Eval vm_compute in
  let i z := traitsOf J2 (VInt z) (RObj (txt "Int") 5) in let d b := traitsOf J2 (VDouble b) (RObj (txt "Double") 5) in
  [one_call (txt "%d") [i 1234567890]; one_call (txt "%d") [i (-7)]; one_call (txt "%3d") [i 1]; one_call (txt "%x") [i 11259375]; one_call (txt "%X") [i 11259375];
   one_call (txt "%a") [d 4607182418800017408]; one_call (txt "%A") [d 4607182418800017408]; one_call (txt "%f") [d inf_bits]; one_call (txt "%e") [d inf_bits];
   one_call (txt "%E") [d inf_bits]; one_call (txt "%G") [d inf_bits]; one_call (txt "%s") [nullTraits]; one_call (txt "%S") [nullTraits]; one_call (txt "%p") [i 0];
   one_call (txt "%f") [d (inf_bits + 1)]; one_call (txt "%g") [d 4921056587992461136]].
Example C75_each_is_printed : forall c, In c own -> exists src t, In (src, t) calls /\ ~ In c src /\ In c t.
Proof.
  assert (A : forallb (fun c => existsb (fun st => negb (existsb (Z.eqb c) (fst st)) && existsb (Z.eqb c) (snd st)) calls) own = true) by (vm_compute; reflexivity).
  rewrite forallb_forall in A. intros c Hc. apply A in Hc. apply existsb_exists in Hc as ((src & t) & Hi & H). apply andb_prop in H as [B C]. cbn [fst snd] in *.
  exists src, t. split; [exact Hi|]. split.
  - intros Hs. apply Bool.negb_true_iff in B. assert (D : existsb (Z.eqb c) src = true) by (apply existsb_exists; exists c; split; [exact Hs|apply Z.eqb_refl]). congruence.
  - apply existsb_exists in C as (x & Hx & E). apply Z.eqb_eq in E. subst x. exact Hx.
Qed.
Example C75_example : exists ds t, GrammarSpec.format (fun _ => true) (txt "a%5db%s") ds /\
  ImplM.format J2 ds [traitsOf J2 (VInt 7) RPrimitive; traitsOf J2 (VStr [955; 10]) RNull] = Ok t /\ t = txt "a    7b" ++ [955; 10] /\
  Forall (argument J2) [traitsOf J2 (VInt 7) RPrimitive; traitsOf J2 (VStr [955; 10]) RNull].
Proof.
  eexists. eexists. split; [apply compile_iff; reflexivity|]. split; [vm_compute; reflexivity|]. split; [reflexivity|].
  repeat constructor; cbn; unfold in_range; try lia; vm_compute; congruence.
Qed.

(** ** C76 *)

(** if the format is well-formed and the arguments are sound for it, all output is well-formed, at every point of the call *)
Theorem C76_output_is_well_formed_partial : forall J dtf src ds args sb target out o,
  jdk_ok J -> GrammarSpec.format dtf src ds -> Forall (argument J) args -> formatInto J sb ds args target = (out, o) ->
  utf16 src -> (forall x, In x args -> sound_for J ds x) -> exists t, out = target ++ t /\ utf16 t.
Proof.
  intros J dtf src ds args sb target out o HJ F Ha E U Hx. destruct (C74_the_reference_is_complete J dtf src ds args HJ F Ha) as (t & o' & S & _).
  destruct (C74_calls_follow_the_reference J dtf src ds args t o' HJ F S) as (_ & _ & R). rewrite (R sb target) in E. injection E as <- <-.
  exists t. split; [reflexivity|]. exact (says_utf16 J ds ds args t o' S (incl_refl _) (format_utf16 dtf src ds F U) Hx).
Qed.
Print Assumptions C76_output_is_well_formed_partial.

(** texts without surrogates give output without surrogates, for every format *)
Theorem C76_no_surrogates : forall J dtf src ds args t,
  jdk_ok J -> GrammarSpec.format dtf src ds -> Forall (argument J) args -> ImplM.format J ds args = Ok t ->
  Forall (fun c => ~ surrogate c) src -> (forall x c, In x args -> of_argument J ds x c -> ~ surrogate c) -> Forall (fun c => ~ surrogate c) t /\ utf16 t.
Proof.
  intros J dtf src ds args t HJ F Ha E Hs Hx. assert (A : Forall (fun c => ~ surrogate c) t).
  { apply (C75_sets_are_kept _ J dtf src ds args t HJ F Ha E); [|exact Hs|exact Hx]. apply Forall_forall. exact own_plain. }
  split; [exact A|apply utf16_plain, A].
Qed.
Print Assumptions C76_no_surrogates.

(** %s with a precision: exactly the precisions that separate a pair give ill-formed output *)
Theorem C76_precision_exact : forall J src q v t r p,
  directive src Ss q -> (forall u, v <> VSeq u) -> is_text J v t -> zlen t <= int_max -> q_prec q = Some p -> 0 <= p -> utf16 t ->
  exists o, prints J src [traitsOf J v r] o /\ (utf16 o <-> ~ splits_pair t p).
Proof.
  intros J src q v t r p D Hv Ht Hl Hp Hp0 U. exists (c_s q t). split; [exact (renders_prints J src Ss q _ _ D (rn_s J v t r Ht Hl))|].
  unfold c_s. rewrite Hp, utf16_justify_iff. exact (utf16_firstn_iff t p U Hp0).
Qed.
Print Assumptions C76_precision_exact.

(** %c: exactly the surrogates *)
Theorem C76_character_exact : forall J src q v c r,
  directive src Sc q -> is_char J v c -> exists o, prints J src [traitsOf J v r] o /\ (utf16 o <-> ~ surrogate c).
Proof.
  intros J src q v c r D H. exists (justify q [c]). split; [exact (C48_prints_one_character J v c r src q H D)|]. rewrite utf16_justify_iff. split.
  - intros U. inversion U; assumption.
  - intros S. constructor; [exact S|constructor].
Qed.
Print Assumptions C76_character_exact.

(** so well-formed texts do not always give well-formed output: "%.1s" and "%c" of the emoji U+1F600 *)
Theorem C76_precision_refuted : exists J src t o, jdk_ok J /\ utf16 src /\ utf16 t /\
  prints J src [traitsOf J (VStr t) RNull] o /\ ~ utf16 o.
Proof.
  exists J2, (txt "%.1s"), [55357; 56832], [55357]. split; [exact J2_ok|]. split; [apply utf16_plain; repeat constructor; vm_compute; intros []; congruence|].
  split; [apply uf_pair; [unfold high; lia|unfold low; lia|constructor]|]. split.
  - intros dtf. eexists. split; [reflexivity|]. split; [reflexivity|]. intros [] target; reflexivity.
  - intros U. inversion U as [|? ? H|]. apply H. unfold surrogate. lia.
Qed.
Print Assumptions C76_precision_refuted.

Theorem C76_character_refuted : exists J src t o, jdk_ok J /\ utf16 src /\ utf16 t /\
  prints J src [traitsOf J (VStr t) RNull] o /\ ~ utf16 o.
Proof.
  exists J2, (txt "%c"), [55357; 56832], [55357]. split; [exact J2_ok|]. split; [apply utf16_plain; repeat constructor; vm_compute; intros []; congruence|].
  split; [apply uf_pair; [unfold high; lia|unfold low; lia|constructor]|]. split.
  - intros dtf. eexists. split; [reflexivity|]. split; [reflexivity|]. intros [] target; reflexivity.
  - intros U. inversion U as [|? ? H|]. apply H. unfold surrogate. lia.
Qed.
Print Assumptions C76_character_refuted.

(** a pair is kept where the precision does not separate it; "%.2s" *)
Example C76_example : exists ds, GrammarSpec.format (fun _ => true) (txt "%4.2S|") ds /\ utf16 (txt "%4.2S|") /\
  sound_for J2 ds (traitsOf J2 (VStr [55357; 56832; 97]) RNull) /\
  formatInto J2 true ds [traitsOf J2 (VStr [55357; 56832; 97]) RNull] [] = (txt "  " ++ [55357; 56832] ++ txt "|", None).
Proof.
  set (x := traitsOf J2 (VStr [55357; 56832; 97]) RNull).
  assert (Hx : argument J2 x) by (apply arg_value; [vm_compute; discriminate|exact I|exact I]).
  set (q := mkSpec false false false false false 0 None).
  destruct (C74_conversions_are_complete J2 Ss None q x J2_ok Hx ltac:(cbn; lia) I) as (o & _ & Q).
  assert (T : shown J2 Ss None q x (Ok [55357; 56832; 97])).
  { apply (sh_text J2 Ss None q (VStr [55357; 56832; 97]) [55357; 56832; 97] RNull); [reflexivity|discriminate|constructor|vm_compute; discriminate]. }
  assert (JU : forall t, justify q t = t) by (intros t; unfold justify, spaces; cbn [q q_left q_width]; rewrite rep_nonpos by (pose proof (zlen_nonneg t); lia); reflexivity).
  assert (N : utf16 [55357; 56832; 97] /\ forall n, may_cut 2 n -> ~ splits_pair [55357; 56832; 97] n).
  { split; [apply uf_pair; [unfold high; lia|unfold low; lia|]; constructor; [unfold surrogate; lia|constructor]|].
    intros n [<- |[A _]]; [|discriminate A]. intros (a & h & l & b & E & L & A & B). destruct a as [|y [|z a]]; cbn [zlen] in L.
    - discriminate L.
    - injection E as <- <- <- <-. unfold high in A. lia.
    - rewrite !zlen_cons in L. pose proof (zlen_nonneg a). lia. }
  eexists. split; [apply compile_iff; reflexivity|]. split; [apply utf16_plain; repeat constructor; vm_compute; intros []; congruence|]. split; [|vm_compute; reflexivity].
  split.
  - intros s k v t r E [D|[D|[]]] Hs Hv Ht Hl; [|discriminate D]. injection D as <- <-.
    assert (S : shown J2 Ss None q x (Ok (c_s q t))) by (rewrite E; apply (sh_text J2 Ss None q v t r); [reflexivity|exact Hv|exact Ht|exact Hl]).
    apply Q in S. apply Q in T. rewrite <- T in S. injection S as S. unfold c_s in S. cbn [q q_prec] in S. fold q in S. rewrite JU in S. subst t. exact N.
  - intros s k u t r E [D|[D|[]]] Hs Ht; [|discriminate D]. injection D as <- <-. destruct (wden_leaves u t (den_wden u t Ht)) as (ts & Hts & _).
    assert (S : shown J2 Ss None q x (Ok (seq_text q t ts))) by (rewrite E; apply (sh_seq J2 Ss None q u t ts r); [reflexivity|exact Ht|exact Hts]).
    apply Q in S. apply Q in T. rewrite <- T in S. injection S as S. unfold seq_text in S. cbn [q q_prec] in S. fold q in S. rewrite JU in S. subst t. exact N.
  - intros k v c r _ [D|[D|[]]]; discriminate D.
  - intros s k v t d r _ [D|[D|[]]] Hs; [|discriminate D]. injection D as <- <-. discriminate Hs.
  - intros k v name hash _ [D|[D|[]]]; discriminate D.
Qed.
