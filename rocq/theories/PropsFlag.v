(** C81: parts of a directive that are documented to be ignored change nothing. *)
From Verif Require Import Base Digits SeqM ContextM CompilerM GrammarSpec CompilerP2 FormatterM TraitsM ImplM LoopP ErrP PropsErr ValueSpec PropsValue WholeP FlagSpec FlagP.

(** the two format strings do the same with the arguments: the same text in the target, the same returned text and the same exception *)
Definition same_calls (J : jdk) (dtf : list Z -> bool) (src src' : list Z) (args : list traits) : Prop :=
  exists ds ds', compile dtf src = Ok ds /\ compile dtf src' = Ok ds' /\
    (forall sb target, formatInto J sb ds args target = formatInto J sb ds' args target) /\ ImplM.format J ds args = ImplM.format J ds' args.

Lemma directive_in_place dtf a da F fl W w P p c s T d r dr : GrammarSpec.format dtf a da -> flags_text F fl -> width_text W w -> prec_text P p -> conv_char c s ->
  date_text dtf s r T d -> (F ++ W ++ P = [] -> c <> pct) -> GrammarSpec.format dtf r dr ->
  compile dtf (a ++ pct :: F ++ W ++ P ++ c :: T ++ r) = Ok (da ++ Default s (mkCtx fl w p d) :: dr).
Proof. intros Ha HF HW HP Hc HT Hne Hr. apply compile_iff. apply PropsErr.format_app; [exact Ha|]. apply fmt_dir; assumption. Qed.

Lemma replaced J dtf a da F fl F' fl' W w W' w' P p P' p' c s T d r dr args :
  jdk_ok J -> Forall (argument J) args -> GrammarSpec.format dtf a da -> GrammarSpec.format dtf r dr -> conv_char c s -> date_text dtf s r T d ->
  flags_text F fl -> width_text W w -> prec_text P p -> (F ++ W ++ P = [] -> c <> pct) ->
  flags_text F' fl' -> width_text W' w' -> prec_text P' p' -> (F' ++ W' ++ P' = [] -> c <> pct) ->
  stands_for (Default s (mkCtx fl w p d)) (Default s (mkCtx fl' w' p' d)) ->
  same_calls J dtf (a ++ pct :: F ++ W ++ P ++ c :: T ++ r) (a ++ pct :: F' ++ W' ++ P' ++ c :: T ++ r) args.
Proof.
  intros HJ Hg Ha Hr Hc HT HF HW HP Hn HF' HW' HP' Hn' Hs.
  pose proof (directive_in_place dtf a da F fl W w P p c s T d r dr Ha HF HW HP Hc HT Hn Hr) as E1.
  pose proof (directive_in_place dtf a da F' fl' W' w' P' p' c s T d r dr Ha HF' HW' HP' Hc HT Hn' Hr) as E2.
  eexists. eexists. split; [exact E1|]. split; [exact E2|].
  apply (swap J _ _ da (Default s (mkCtx fl w p d)) (Default s (mkCtx fl' w' p' d)) dr args HJ Hg eq_refl eq_refl (compiled_sane _ _ _ E1) (compiled_sane _ _ _ E2) Hs).
Qed.

(** C81: an ignored flag may be left out, wherever the directive stands and whatever the arguments are *)
Theorem C81_ignored_flags : forall J dtf a da F fl F' W w P p c s T d r dr g args,
  jdk_ok J -> Forall (argument J) args ->
  GrammarSpec.format dtf a da -> GrammarSpec.format dtf r dr ->
  flags_text F fl -> width_text W w -> prec_text P p -> conv_char c s -> date_text dtf s r T d ->
  ignored s F w p g -> In g F -> NoDup F' -> (forall x, In x F' <-> In x F /\ x <> g) -> (F' ++ W ++ P = [] -> c <> pct) ->
  same_calls J dtf (a ++ pct :: F ++ W ++ P ++ c :: T ++ r) (a ++ pct :: F' ++ W ++ P ++ c :: T ++ r) args.
Proof.
  intros J dtf a da F fl F' W w P p c s T d r dr g args HJ Hg Ha Hr HF HW HP Hc HT Hi HgF Nd HF' Hn.
  destruct (ignored_idle s F fl w p g HF Hi HgF) as (G & Hid & HG).
  assert (HFt : flags_text F' (dropF G fl)).
  { split; [exact Nd|]. split; [intros x Hx; apply HF; apply HF' in Hx; tauto|]. symmetry. apply (HG F' _ HF').
    split; [exact Nd|]. split; [intros x Hx; apply HF; apply HF' in Hx; tauto|reflexivity]. }
  apply (replaced J dtf a da F fl F' (dropF G fl) W w W w P p P p c s T d r dr args); try assumption.
  - intros E. exfalso. apply app_eq_nil in E as [E _]. subst F. destruct HgF.
  - apply idle_stands_for. exact Hid.
Qed.
Print Assumptions C81_ignored_flags.

(** C81: the order of the flags is irrelevant: the same program is compiled, for all arguments *)
Theorem C81_flag_order : forall dtf a da F fl F' fl' W w P p c s T d r dr,
  GrammarSpec.format dtf a da -> GrammarSpec.format dtf r dr ->
  flags_text F fl -> flags_text F' fl' -> width_text W w -> prec_text P p -> conv_char c s -> date_text dtf s r T d ->
  (F ++ W ++ P = [] -> c <> pct) -> (forall x, In x F <-> In x F') ->
  exists ds, compile dtf (a ++ pct :: F ++ W ++ P ++ c :: T ++ r) = Ok ds /\ compile dtf (a ++ pct :: F' ++ W ++ P ++ c :: T ++ r) = Ok ds.
Proof.
  intros dtf a da F fl F' fl' W w P p c s T d r dr Ha Hr HF HF' HW HP Hc HT Hn Hs. eexists. split.
  - apply (directive_in_place dtf a da F fl W w P p c s T d r dr); assumption.
  - rewrite (same_flags F F' fl fl' Hs HF HF'). apply (directive_in_place dtf a da F' fl' W w P p c s T d r dr); try assumption.
    intros E. apply Hn. apply app_eq_nil in E as [E ->]. destruct F as [|x F]; [reflexivity|]. exfalso. subst F'. apply (Hs x). left. reflexivity.
Qed.
Print Assumptions C81_flag_order.

(** C81: a precision written as a number has no effect on %c, %p, %t, %n and %%; it may be changed or left out *)
Theorem C81_ignored_precision : forall J dtf a da F fl W w P p P' p' c s T d r dr args,
  jdk_ok J -> Forall (argument J) args ->
  GrammarSpec.format dtf a da -> GrammarSpec.format dtf r dr ->
  flags_text F fl -> width_text W w -> prec_text P p -> prec_text P' p' -> conv_char c s -> date_text dtf s r T d ->
  In s [Sc; Sp; St; ST; Sn; Spct] -> p = UNSET \/ 0 <= p -> p' = UNSET \/ 0 <= p' ->
  (F ++ W ++ P = [] -> c <> pct) -> (F ++ W ++ P' = [] -> c <> pct) ->
  same_calls J dtf (a ++ pct :: F ++ W ++ P ++ c :: T ++ r) (a ++ pct :: F ++ W ++ P' ++ c :: T ++ r) args.
Proof.
  intros J dtf a da F fl W w P p P' p' c s T d r dr args HJ Hg Ha Hr HF HW HP HP' Hc HT Hs Hp Hp' Hn Hn'.
  apply (replaced J dtf a da F fl F fl W w W w P p P' p' c s T d r dr args); try assumption. apply precision_stands_for; assumption.
Qed.
Print Assumptions C81_ignored_precision.

(** C81: a width written as a number has no effect on %n and %% *)
Theorem C81_ignored_width : forall J dtf a da F fl W w W' w' P p c s T d r dr args,
  jdk_ok J -> Forall (argument J) args ->
  GrammarSpec.format dtf a da -> GrammarSpec.format dtf r dr ->
  flags_text F fl -> width_text W w -> width_text W' w' -> prec_text P p -> conv_char c s -> date_text dtf s r T d ->
  In s [Sn; Spct] -> w = UNSET \/ 0 <= w -> w' = UNSET \/ 0 <= w' ->
  (F ++ W ++ P = [] -> c <> pct) -> (F ++ W' ++ P = [] -> c <> pct) ->
  same_calls J dtf (a ++ pct :: F ++ W ++ P ++ c :: T ++ r) (a ++ pct :: F ++ W' ++ P ++ c :: T ++ r) args.
Proof.
  intros J dtf a da F fl W w W' w' P p c s T d r dr args HJ Hg Ha Hr HF HW HW' HP Hc HT Hs Hw Hw' Hn Hn'.
  apply (replaced J dtf a da F fl F fl W w W' w' P p P p c s T d r dr args); try assumption. apply width_stands_for; assumption.
Qed.
Print Assumptions C81_ignored_width.

(** the theorems apply: "[%+ -05d]" and "[%+-05d]", and the texts *)
Example C81_flags_example : same_calls J2 (fun _ => true) (txt "[%+ -05d]") (txt "[%+-05d]") [traitsOf J2 (VInt 42) RPrimitive].
Proof.
  apply (C81_ignored_flags J2 (fun _ => true) (txt "[") [Fixed (txt "[")] (txt "+ -0") (mkFlags true false true true true) (txt "+-0") (txt "5") 5 [] UNSET
    (ch "d") Sd [] None (txt "]") [Fixed (txt "]")] (ch " ")).
  - exact J2_ok.
  - repeat constructor; cbn; lia.
  - apply compile_iff. reflexivity.
  - apply compile_iff. reflexivity.
  - split; [|split; [|reflexivity]].
    + repeat constructor; cbn; intuition discriminate.
    + intros x Hx. cbn in *. intuition.
  - apply (W_num (ch "5") []); [discriminate| |vm_compute; discriminate]. repeat constructor; vm_compute; discriminate.
  - constructor.
  - exact (conv_self Sd).
  - apply D_other; discriminate.
  - apply ig_blank. cbn. tauto.
  - cbn. tauto.
  - repeat constructor; cbn; intuition discriminate.
  - intros x. change (In x [43; 45; 48] <-> In x [43; 32; 45; 48] /\ x <> 32). cbn [In]. split.
    + intros [<-|[<-|[<-|[]]]]; (split; [tauto|discriminate]).
    + intros ([<-|[<-|[<-|[<-|[]]]]] & N); tauto.
  - discriminate.
Qed.
Example C81_flags_texts : let args := [traitsOf J2 (VInt 42) RPrimitive] in
  (exists ds, compile (fun _ => true) (txt "[%+ -05d]") = Ok ds /\ ImplM.format J2 ds args = Ok (txt "[+42  ]")) /\
  (exists ds, compile (fun _ => true) (txt "[%+-d]") = Ok ds /\ ImplM.format J2 ds args = Ok (txt "[+42]")).
Proof. cbv zeta. split; eexists; (split; [reflexivity|vm_compute; reflexivity]). Qed.

(** each condition of [ignored] is needed: without it, leaving the flag out changes the text *)
Definition text_of (s : list Z) (v : value) : res (list Z) :=
  match compile (fun _ => true) s with Ok ds => ImplM.format J2 ds [traitsOf J2 v RPrimitive] | Err e => Err e end.
Example C81_other_flags_matter :
  (text_of (txt "% d") (VInt 1) = Ok (txt " 1") /\ text_of (txt "%d") (VInt 1) = Ok (txt "1")) /\
  (text_of (txt "%+d") (VInt 1) = Ok (txt "+1") /\ text_of (txt "%d") (VInt 1) = Ok (txt "1")) /\
  (text_of (txt "%03d") (VInt 1) = Ok (txt "001") /\ text_of (txt "%3d") (VInt 1) = Ok (txt "  1")) /\
  (text_of (txt "%-3d") (VInt 1) = Ok (txt "1  ") /\ text_of (txt "%3d") (VInt 1) = Ok (txt "  1")) /\
  (text_of (txt "%05.1f") (VDouble 4612811918334230528) = Ok (txt "002.5") /\ text_of (txt "%5.1f") (VDouble 4612811918334230528) = Ok (txt "  2.5")) /\
  (text_of (txt "%#.0f") (VDouble 4612811918334230528) = Ok (txt "3.") /\ text_of (txt "%.0f") (VDouble 4612811918334230528) = Ok (txt "3")) /\
  (text_of (txt "%#x") (VInt 1) = Ok (txt "0x1") /\ text_of (txt "%x") (VInt 1) = Ok (txt "1")) /\
  (text_of (txt "%#o") (VInt 1) = Ok (txt "01") /\ text_of (txt "%o") (VInt 1) = Ok (txt "1")) /\
  (text_of (txt "%#g") (VDouble 4612811918334230528) = Ok (txt "2.50000") /\ text_of (txt "%g") (VDouble 4612811918334230528) = Ok (txt "2.5")) /\
  (text_of (txt "%-3n") (VInt 1) = Ok [] /\ text_of (txt "%.7c") (VChar 97) = Ok (txt "a") /\ text_of (txt "%.1s") (VStr (txt "ab")) = Ok (txt "a")).
Proof. repeat split; vm_compute; reflexivity. Qed.
