(** C106: a version of the library that prints what C prints. *)
From Coq Require Import QArith.
From Verif Require Import Base Digits UtilsM SeqM SeqSpec SeqP ContextM CompilerM GrammarSpec CompilerP2 IntFormM FormatterM MathM DecimalM
  DoubleM BigDecM TraitsM ImplM ImplP FmtSpec FmtP DecSpec FloatSpec BigSpec DirSpec LoopSpec LoopP IntP PropsInt FloatArgP PropsFloat
  ExactSpec ScaleSpec ValueSpec ValueP PropsValue WholeSpec WholeP PropsWhole PortSpec PortP PropsPort RepairM RepairSpec RepairP3 PropsRepair GlibcM GlibcSpec GlibcP3 GlibcP4 GlibcP5.
From Verif Require Import PropsSame.
From Verif Require BoundP ScanP3 PortP4.
Open Scope Z_scope.

(** ** The calls *)

Theorem C106_calls_follow_the_reference : forall J dtf src ds args t o,
  jdk_ok J -> GrammarSpec.format dtf src ds -> meansC J ds args t o ->
  compile dtf src = Ok ds /\
  formatC J ds args = match o with None => Ok t | Some e => Err e end /\
  forall sb target, formatIntoC J sb ds args target = (target ++ t, o).
Proof.
  intros J dtf src ds args t o HJ F S. apply compile_iff in F. pose proof (meansC_runs J ds args t o HJ (compiled_sane _ _ _ F) S) as R.
  split; [exact F|]. split.
  - unfold formatC. rewrite (R _ emits_sb []). destruct o; reflexivity.
  - intros sb target. apply R. destruct sb; [left|right]; reflexivity.
Qed.
Print Assumptions C106_calls_follow_the_reference.

Theorem C106_the_reference_is_complete : forall J dtf src ds args,
  jdk_ok J -> GrammarSpec.format dtf src ds -> Forall allowed args ->
  exists t o, meansC J ds args t o /\ forall t' o', meansC J ds args t' o' -> t' = t /\ o' = o.
Proof.
  intros J dtf src ds args HJ F Ha. apply compile_iff, compiled_sane in F. destruct (meansC_total J ds HJ F args Ha) as (t & o & S).
  exists t, o. split; [exact S|]. intros t' o' S'. exact (meansC_unique J ds args t' o' t o HJ F S' S).
Qed.
Print Assumptions C106_the_reference_is_complete.

Theorem C106_calls_give_exactly_the_reference : forall J dtf src ds args t o target,
  jdk_ok J -> GrammarSpec.format dtf src ds -> Forall allowed args ->
  (meansC J ds args t o <-> forall sb, formatIntoC J sb ds args target = (target ++ t, o)).
Proof.
  intros J dtf src ds args t o target HJ F Ha. split.
  - intros S sb. apply (C106_calls_follow_the_reference J dtf src ds args t o HJ F S).
  - intros E. destruct (C106_the_reference_is_complete J dtf src ds args HJ F Ha) as (t' & o' & S & _).
    pose proof (proj2 (proj2 (C106_calls_follow_the_reference J dtf src ds args t' o' HJ F S)) true target) as E'.
    rewrite (E true) in E'. injection E' as E1 E2. apply app_inv_head in E1. subst. exact S.
Qed.
Print Assumptions C106_calls_give_exactly_the_reference.

(** ** C *)

(** every call whose arguments C has prints a line of C, through every entry point *)
Theorem C106_prints_what_C_prints : forall J dtf src ds args, jdk_ok J -> GrammarSpec.format dtf src ds -> c_able J ds args ->
  exists t, formatC J ds args = Ok t /\ (forall sb target, formatIntoC J sb ds args target = (target ++ t, None)) /\ c_call J any ds args t.
Proof.
  intros J dtf src ds args HJ F H. destruct (c_able_means J ds args H) as (t & S & C). exists t.
  destruct (C106_calls_follow_the_reference J dtf src ds args t None HJ F S) as (_ & A & B). repeat split; assumption.
Qed.
Print Assumptions C106_prints_what_C_prints.

(** and where C has one line only, that line *)
Theorem C106_the_only_line : forall J dtf src ds args t, jdk_ok J -> GrammarSpec.format dtf src ds -> c_call J settled ds args t ->
  formatC J ds args = Ok t /\ forall sb target, formatIntoC J sb ds args target = (target ++ t, None).
Proof.
  intros J dtf src ds args t HJ F H. exact (proj2 (C106_calls_follow_the_reference J dtf src ds args t None HJ F (settled_means J ds args t H))).
Qed.
Print Assumptions C106_the_only_line.

(** ** What stays as it is *)

(** away from doubles the conversions are those of C105 *)
Theorem C106_other_arguments : forall J s d q g o, no_double J s g -> (meantC J s d q g o <-> meant J s d q g o).
Proof.
  intros J s d q g o N. split; [|apply mc_other; exact N].
  intros M. revert N. destruct M as [v b M r Hs H|v b S X r Hs H|v b S X r Hs H|v b S X r Hs H|v b r Hs H|v b M r Hs H|v b r Hs H|v r Hs H|g o _ H]; intros N; [..|exact H]; exfalso;
    assert (F : float_spec s = true) by (unfold float_spec; rewrite ?Hs, ?orb_true_r; first [reflexivity|exact Hs]);
    destruct (N F v r eq_refl) as [A B]; solve [exact (A _ H)|exact (B H)].
Qed.
Print Assumptions C106_other_arguments.

(** both [printsC] and [prints] *)
Definition printsC (J : jdk) (src : list Z) (args : list given) (t : list Z) : Prop :=
  forall dtf, exists ds, compile dtf src = Ok ds /\ formatC J ds args = Ok t /\ forall sb target, formatIntoC J sb ds args target = (target ++ t, None).

Lemma meantC_prints J src s q g t : jdk_ok J -> directive src s q -> s <> St -> s <> ST -> meantC J s None q g (Ok t) -> printsC J src [g] t.
Proof.
  intros HJ Hd N1 N2 H dtf. destruct Hd as [F fl W w P p c s HF HW NW HP NP Hc Hn].
  assert (G : GrammarSpec.format dtf (pct :: F ++ W ++ P ++ c :: [] ++ []) [Default s (mkCtx fl w p None)]).
  { apply fmt_dir; try assumption; [apply D_other; assumption|constructor]. }
  assert (S : meansC J [Default s (mkCtx fl w p None)] [g] (t ++ []) None).
  { apply (mk_piece J _ [] [g] t [] [] None); [|constructor].
    apply (GlibcSpec.pc_shown J s fl w p None [g] (f_left fl) (if w =? UNSET then 0 else w) [g] (if p =? UNSET then None else Some p) g []); [| |exact H].
    - destruct HW as [| |d ds A B C]; [constructor|tauto|]. pose proof (CompilerP.dec_value_nonneg (d :: ds) B) as Q0.
      destruct (Z.eqb_spec (dec_value (d :: ds)) UNSET) as [E|E]; [unfold UNSET in E; lia|]. constructor. exact Q0.
    - destruct HP as [| |ds B C]; [constructor|tauto|]. pose proof (CompilerP.dec_value_nonneg ds B) as Q0.
      destruct (Z.eqb_spec (dec_value ds) UNSET) as [E|E]; [unfold UNSET in E; lia|]. constructor. exact Q0. }
  rewrite app_nil_r in S. eexists. apply (C106_calls_follow_the_reference J dtf _ _ [g] t None HJ G S).
Qed.
Lemma printsC_unique J src args t t' : printsC J src args t -> printsC J src args t' -> t = t'.
Proof.
  intros H H'. destruct (H (fun _ => true)) as (ds & E & F & _), (H' (fun _ => true)) as (ds' & E' & F' & _). rewrite E in E'. injection E' as <-. congruence.
Qed.

Lemma directive_prec src s q : directive src s q -> prec_at_least_0 q.
Proof. intros Hd p E. destruct (directive_bounds _ _ _ Hd) as [_ B]. unfold prec_or in B. rewrite E in B. lia. Qed.

(** the text of one directive changes exactly where it departs from C *)
Theorem C106_changes_where_C_differs : forall J src s q v r a t, jdk_ok J -> directive src s q -> (forall u, v <> VSeq u) ->
  c_arg J s (Given v r) a -> settled s a -> prints J src [traitsOf J v r] t ->
  (printsC J src [Given v r] t <-> ~ departs s q a).
Proof.
  intros J src s q v r a t HJ Hd Hv Ha Hs Hp. pose proof (directive_prec _ _ _ Hd) as P0.
  assert (Hm : PortSpec.means J s (traitsOf J v r) a).
  { inversion Ha; subst; [apply me_int|apply me_uns|apply me_char|apply me_str|exfalso; eapply Hv; reflexivity|apply me_double|apply me_nan]; assumption || reflexivity. }
  destruct (PortP4.means_spec J s _ a Hm) as (_ & N1 & N2). assert (Q0 : prec_at_least_0 q) by exact P0.
  destruct (one_text J s None q (Given v r) a Ha Q0) as (t' & M & T). pose proof (meantC_prints J src s q _ t' HJ Hd N1 N2 M) as Pr.
  rewrite <- (C98_one_directive J src s q _ a t HJ Hd Hm Hp). split.
  - intros H. rewrite (printsC_unique J src _ t t' H Pr). exact T.
  - intros H. rewrite (settled_text s q a t t' Q0 Hs H T). exact Pr.
Qed.
Print Assumptions C106_changes_where_C_differs.

(** a text of C for every argument of C, for any flags, width and precision; as C98 asks of fast-printf *)
Theorem C106_one_directive : forall J src s q v r a, jdk_ok J -> directive src s q -> c_arg J s (Given v r) a ->
  exists t, printsC J src [Given v r] t /\ c_text s q a t.
Proof.
  intros J src s q v r a HJ Hd Ha. pose proof (directive_prec _ _ _ Hd) as P0. destruct (one_text J s None q (Given v r) a Ha P0) as (t & M & T).
  assert (N : s <> St /\ s <> ST) by (inversion Ha; split; intros E; subst; discriminate). exists t. split; [|exact T]. apply (meantC_prints J src s q); tauto.
Qed.
Print Assumptions C106_one_directive.

(** ** Examples *)

Definition exact (src : list Z) (args : list given) : res (list Z) :=
  match compile (fun _ => true) src with Ok ds => formatC J2 ds args | Err e => Err e end.
Definition d_half := 4602678819172646912. (* 0.5 *)
Definition d_15 := 4594572339843380019. (* 0.15 *)
Example C106_texts :
  (before (txt "%.1f") [G (VDouble d_15)], exact (txt "%.1f") [G (VDouble d_15)]) = (Ok (txt "0.2"), Ok (txt "0.1")) /\
  (before (txt "%.0f") [G (VDouble d_half)], exact (txt "%.0f") [G (VDouble d_half)]) = (Ok (txt "1"), Ok (txt "0")) /\
  (before (txt "%.20f") [G (VDouble d_15)], exact (txt "%.20f") [G (VDouble d_15)]) = (Ok (txt "0.15000000000000000000"), Ok (txt "0.14999999999999999445")) /\
  (before (txt "% f") [G (VDouble inf_bits)], exact (txt "% f") [G (VDouble inf_bits)]) = (Ok (txt "Infinity"), Ok (txt " inf")) /\
  (before (txt "%.0a") [G (VDouble 4609434218613702656)], exact (txt "%.0a") [G (VDouble 4609434218613702656)]) = (Ok (txt "0x1.8p+0"), Ok (txt "0x2p+0")) /\
  (before (txt "%#.1g") [G (VDouble 4756540486875873280)], exact (txt "%#.1g") [G (VDouble 4756540486875873280)]) = (Ok (txt "1e+10"), Ok (txt "1.e+10")).
Proof. vm_compute. repeat split. Qed.

(** the premises hold: of a call with a width, two numbers and a text *)
Example C106_able : forall ds dtf, GrammarSpec.format dtf (txt "%*d %s %.1f") ds ->
  c_call J2 settled ds [G (VInt 4); G (VInt 7); G (VStr (txt "ab")); G (VDouble d_15)] (txt "   7 ab 0.1").
Proof.
  intros ds dtf F. apply compile_iff in F. cbv in F. injection F as <-.
  apply (cc_directive J2 settled Sd noFlags PRECEDING UNSET None [G (VInt 4); G (VInt 7); G (VStr (txt "ab")); G (VDouble d_15)] false 4 [G (VInt 7); G (VStr (txt "ab")); G (VDouble d_15)] None (G (VInt 7)) [G (VStr (txt "ab")); G (VDouble d_15)] (CInt 7) (txt "   7") _ (txt " ab 0.1")).
  - apply wm_star; [|lia]. apply ts_int. apply iv_int. vm_compute. split; congruence.
  - apply pm_none.
  - apply ca_int; [reflexivity|]. exists (Some 32). apply ii_int. vm_compute. split; congruence.
  - exact I.
  - apply (ct_d Sd (asked noFlags false 4 None) 7). reflexivity.
  - apply (cc_literal J2 settled (txt " ")).
    apply (cc_directive J2 settled Ss noFlags UNSET UNSET None [G (VStr (txt "ab")); G (VDouble d_15)] false 0 [G (VStr (txt "ab")); G (VDouble d_15)] None (G (VStr (txt "ab"))) [G (VDouble d_15)] (CStr (txt "ab")) (txt "ab") _ (txt " 0.1")).
    + apply wm_none.
    + apply pm_none.
    + apply ca_str; [reflexivity|discriminate|apply it_str|vm_compute; congruence].
    + exact I.
    + apply (ct_s Ss (asked noFlags false 0 None) (txt "ab")). reflexivity.
    + apply (cc_literal J2 settled (txt " ")).
      apply (cc_directive J2 settled Sf noFlags UNSET 1 None [G (VDouble d_15)] false 0 [G (VDouble d_15)] (Some 1) (G (VDouble d_15)) [] (CDouble d_15) (txt "0.1") _ []).
      * apply wm_none.
      * apply pm_number. lia.
      * apply ca_double; [reflexivity|apply id_double; vm_compute; split; congruence|vm_compute; congruence].
      * split; [vm_compute; reflexivity|reflexivity].
      * apply (ct_f Sf (asked noFlags false 0 (Some 1)) d_15 1); [reflexivity|vm_compute; reflexivity|].
        split; [vm_compute; split; congruence|]. vm_compute. intros [E|E]; discriminate E.
      * apply cc_end.
Qed.
