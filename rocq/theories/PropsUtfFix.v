(** Property C109: a repair of %s, %S and %c that never breaks a surrogate pair. *)
From Coq Require Import QArith.
From Verif Require Import Base Digits UtilsM SeqM SeqSpec SeqP ContextM CompilerM GrammarSpec CompilerP2 IntFormM FormatterM MathM DecimalM FPDecimalM
  DoubleM BigDecM RoundM TraitsM ImplM ImplP FmtSpec FmtP DecSpec FloatSpec BigSpec DirSpec LoopSpec LoopP IntP ExactSpec ScaleSpec ValueSpec ValueP PropsValue
  WholeSpec WholeP PropsWhole CharSpec CharP UtfFixM UtfFixSpec UtfFixP.
Open Scope Z_scope.

(** every call follows the reference *)
Theorem C109_calls_follow_the_reference : forall J dtf src ds args t o,
  jdk_ok J -> GrammarSpec.format dtf src ds -> says_whole J ds args t o ->
  formatU J ds args = match o with None => Ok t | Some e => Err e end /\
  forall sb target, formatIntoU J sb ds args target = (target ++ t, o).
Proof.
  intros J dtf src ds args t o HJ F S. apply compile_iff, compiled_sane in F. split.
  - unfold formatU. rewrite (whole_runs J ds args t o HJ F S emitSB (or_introl eq_refl) []). destruct o; reflexivity.
  - intros sb target. unfold formatIntoU. apply (whole_runs J ds args t o HJ F S). destruct sb; [left|right]; reflexivity.
Qed.
Print Assumptions C109_calls_follow_the_reference.

(** and the reference says exactly one thing *)
Theorem C109_the_reference_is_complete : forall J dtf src ds args,
  jdk_ok J -> GrammarSpec.format dtf src ds -> Forall (argument J) args ->
  exists t o, says_whole J ds args t o /\ forall t' o', says_whole J ds args t' o' -> t' = t /\ o' = o.
Proof.
  intros J dtf src ds args HJ F Ha. assert (Hs := F). apply compile_iff, compiled_sane in Hs. destruct (whole_says_total J ds HJ Hs args Ha) as (t & o & S).
  exists t, o. split; [exact S|]. intros t' o' S'. pose proof (whole_runs J ds args t o HJ Hs S emitSB (or_introl eq_refl) []) as E.
  rewrite (whole_runs J ds args t' o' HJ Hs S' emitSB (or_introl eq_refl) []) in E. cbn [app] in E. injection E as -> ->. auto.
Qed.
Print Assumptions C109_the_reference_is_complete.

(** from well-formed formats, texts, dates and class names comes well-formed output, at every point of the call; no condition on precisions or on characters *)
Theorem C109_output_is_well_formed : forall J dtf src ds args sb target out o,
  jdk_ok J -> GrammarSpec.format dtf src ds -> Forall (argument J) args -> formatIntoU J sb ds args target = (out, o) ->
  utf16 src -> (forall s k x, In (Default s k) ds -> In x args -> well_formed J s (c_dtf k) x) -> exists t, out = target ++ t /\ utf16 t.
Proof.
  intros J dtf src ds args sb target out o HJ F Ha E U Hx. destruct (C109_the_reference_is_complete J dtf src ds args HJ F Ha) as (t & o' & S & _).
  rewrite (proj2 (C109_calls_follow_the_reference J dtf src ds args t o' HJ F S) sb target) in E. injection E as <- <-.
  exists t. split; [reflexivity|]. exact (says_whole_utf16 J ds args t o' S (format_utf16 dtf src ds F U) Hx).
Qed.
Print Assumptions C109_output_is_well_formed.

(** where C76 says that the code of the repository is fine, the call is the same *)
Theorem C109_same_call : forall J dtf src ds args sb target,
  jdk_ok J -> GrammarSpec.format dtf src ds -> Forall (argument J) args -> (forall x, In x args -> sound_for J ds x) ->
  formatIntoU J sb ds args target = formatInto J sb ds args target.
Proof.
  intros J dtf src ds args sb target HJ F Ha Hx. destruct (C74_the_reference_is_complete J dtf src ds args HJ F Ha) as (t & o & S & _).
  destruct (C74_calls_follow_the_reference J dtf src ds args t o HJ F S) as (_ & _ & R). rewrite (R sb target).
  apply (C109_calls_follow_the_reference J dtf src ds args t o HJ F). exact (says_is_whole J ds ds args t o S (incl_refl _) Hx).
Qed.
Print Assumptions C109_same_call.

(** every call ends the same way: it returns, or throws the same exception *)
Theorem C109_same_exceptions : forall J dtf src ds args sb target,
  jdk_ok J -> GrammarSpec.format dtf src ds -> Forall (argument J) args ->
  snd (formatIntoU J sb ds args target) = snd (formatInto J sb ds args target).
Proof.
  intros J dtf src ds args sb target HJ F Ha. destruct (C74_the_reference_is_complete J dtf src ds args HJ F Ha) as (t & o & S & _).
  destruct (C74_calls_follow_the_reference J dtf src ds args t o HJ F S) as (_ & _ & R). rewrite (R sb target).
  destruct (says_pair J ds args t o HJ Ha S) as [t' W]. rewrite (proj2 (C109_calls_follow_the_reference J dtf src ds args t' o HJ F W) sb target). reflexivity.
Qed.
Print Assumptions C109_same_exceptions.

(** a conversion of a well-formed argument shows something else exactly where it showed something ill-formed *)
Theorem C109_changes_exactly_the_ill_formed : forall J s d q x t t',
  jdk_ok J -> argument J x -> 0 <= q_width q <= 65536 -> (match q_prec q with Some p => 0 <= p <= 65536 | None => True end) ->
  well_formed J s d x -> shown J s d q x (Ok t) -> shown_whole J s d q x (Ok t') -> (t = t' <-> utf16 t).
Proof.
  intros J s d q x t t' HJ Hx Hw Hp W S S'. assert (P0 : forall p, q_prec q = Some p -> 0 <= p) by (intros p E; rewrite E in Hp; lia).
  pose proof (whole_utf16 J s d q x t' S' W P0) as U'. split; [intros ->; exact U'|]. intros U. remember (Ok t') as o eqn:Eo.
  destruct S' as [x o Un H|v t0 r p o Hs Ht Eq Sp H|v h l t0 r -> Hh Ht Hi Lo|v k r -> Hv Hk Su N]; subst.
  - destruct (C74_conversions_are_complete J s d q x HJ Hx Hw Hp) as (o & _ & Q). apply Q in S, H. congruence.
  - exfalso. exact (broken_text J s d q v t0 r p t Hs Ht Eq Sp (wf_text _ _ _ _ W v t0 r eq_refl Hs Ht) S U).
  - exfalso. refine (broken_char J d q v h r t Hh _ S U). unfold surrogate, high in *. lia.
  - exfalso. exact (broken_char J d q v k r t Hk Su S U).
Qed.
Print Assumptions C109_changes_exactly_the_ill_formed.

(** for whole calls this is not so: "%c%c" of the two halves of a pair prints the pair, and the repair prints U+FFFD twice *)
Theorem C109_well_formed_calls_are_kept_refuted : exists J src ds args t t',
  jdk_ok J /\ GrammarSpec.format (fun _ => true) src ds /\ Forall (argument J) args /\
  ImplM.format J ds args = Ok t /\ utf16 t /\ formatU J ds args = Ok t' /\ t' <> t.
Proof.
  exists J2, (txt "%c%c"). eexists. exists [traitsOf J2 (VChar 55357) RPrimitive; traitsOf J2 (VChar 56832) RPrimitive], [55357; 56832], [65533; 65533].
  split; [exact J2_ok|]. split; [apply compile_iff; reflexivity|]. split; [repeat (apply Forall_cons; [apply arg_value; [cbn; lia|exact I|exact I]|]); apply Forall_nil|].
  split; [vm_compute; reflexivity|]. split; [apply uf_pair; [unfold high; lia|unfold low; lia|constructor]|]. split; [vm_compute; reflexivity|discriminate].
Qed.
Print Assumptions C109_well_formed_calls_are_kept_refuted.

(** the emoji U+1F600: "%.1s" prints nothing, "%-3.1S|" the padding, "a%.2s" the pair, "%3c" the pair after one space, %c of one half U+FFFD *)
Definition emoji : traits := traitsOf J2 (VStr [55357; 56832; 97]) RNull.
Definition callU (src : string) (x : traits) : res (list Z) := let* ds := compile (fun _ => true) (txt src) in formatU J2 ds [x].
Example C109_example_texts : callU "%.1s" emoji = Ok [] /\ callU "%-3.1S|" emoji = Ok (txt "   |") /\ callU "%.2s" emoji = Ok [55357; 56832] /\
  callU "%.3S" emoji = Ok [55357; 56832; 65] /\ callU "%.0s" emoji = Ok [].
Proof. repeat split; vm_compute; reflexivity. Qed.
Example C109_example_characters : callU "%3c" emoji = Ok [32; 55357; 56832] /\ callU "%c" (traitsOf J2 (VChar 55357) RPrimitive) = Ok [65533] /\
  callU "%c" (traitsOf J2 (VInt 56832) RPrimitive) = Ok [65533] /\ callU "%c" (traitsOf J2 (VInt 97) RPrimitive) = Ok [97] /\
  callU "%c" (traitsOf J2 (VSeq (s_concat (wrapS [55357]) (wrapS [56832; 98]))) RNull) = Ok [55357; 56832] /\
  callU "%c" (traitsOf J2 (VStr [56832; 56833]) RNull) = Ok [65533] /\ callU "%c" nullTraits = Err (Printf BadConversion).
Proof. repeat split; vm_compute; reflexivity. Qed.

(** the arguments are as required, and the reference tells the same *)
Example C109_example : exists ds, GrammarSpec.format (fun _ => true) (txt "%.1s%c") ds /\ Forall (argument J2) [emoji; emoji] /\
  (forall s k x, In (Default s k) ds -> In x [emoji; emoji] -> well_formed J2 s (c_dtf k) x) /\ says_whole J2 ds [emoji; emoji] [55357; 56832] None.
Proof.
  eexists. split; [apply compile_iff; reflexivity|].
  assert (T : has_text J2 (VStr [55357; 56832; 97]) [55357; 56832; 97]) by (left; split; [discriminate|]; split; [constructor|vm_compute; discriminate]).
  assert (Ha : argument J2 emoji) by (apply arg_value; [vm_compute; discriminate|exact I|exact I]).
  split; [apply Forall_cons; [exact Ha|apply Forall_cons; [exact Ha|apply Forall_nil]]|]. split.
  - intros s k x Hd Hx. assert (x = emoji) as -> by (destruct Hx as [<- |[<- |[]]]; reflexivity).
    assert (D : s = Ss \/ s = Sc) by (destruct Hd as [E|[E|[]]]; injection E as <- _; auto). split.
    + intros v t r E _ Ht. rewrite <- (has_text_one J2 _ _ RNull v t r E T Ht). apply uf_pair; [unfold high; lia|unfold low; lia|]. constructor; [unfold surrogate; lia|constructor].
    + intros v t d r _ H. destruct D as [-> | ->]; discriminate H.
    + intros v name hash _ H. destruct D as [-> | ->]; discriminate H.
  - apply (yw_piece J2 _ _ _ [] [emoji] [55357; 56832]).
    + apply (pw_shown J2 Ss noFlags UNSET 1 None [emoji; emoji] false 0 [emoji; emoji] (Some 1) emoji [emoji] (Ok [])); [apply wi_none|apply pi_number; lia|].
      apply (sw_cut J2 Ss None (asked noFlags false 0 (Some 1)) _ [55357; 56832; 97] RNull 1 _ eq_refl T eq_refl).
      * exists [], 55357, 56832, [97]. repeat split; unfold high, low; lia.
      * exact (sh_text J2 Ss None (with_prec (asked noFlags false 0 (Some 1)) 0) (VStr [55357; 56832; 97]) [55357; 56832; 97] RNull eq_refl ltac:(discriminate) ltac:(constructor) ltac:(vm_compute; discriminate)).
    + apply (yw_piece J2 _ _ _ [55357; 56832] [] []); [|constructor].
      apply (pw_shown J2 Sc noFlags UNSET UNSET None [emoji] false 0 [emoji] None emoji [] (Ok [55357; 56832])); [apply wi_none|apply pi_none|].
      refine (sw_pair J2 Sc None (asked noFlags false 0 None) _ 55357 56832 [97] RNull eq_refl _ T _ _); [|unfold high; lia|unfold low; lia].
      apply (ic_first J2 _ 55357 [56832; 97]); [constructor|vm_compute; discriminate|discriminate].
Qed.
