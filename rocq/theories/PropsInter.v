(** C104: which directives of a conversion are interchangeable. *)
From Verif Require CtxP.
From Verif Require Import Base Digits ContextM CompilerM GrammarSpec CompilerP TraitsM ImplM FmtSpec FmtP FloatSpec DirSpec ValueSpec WholeSpec PropsValue IntP PropsFlag PropsWhole PropsSame
  InterSpec InterP InterP2 InterP3 InterE InterA InterP4.
Open Scope Z_scope.

(** one may stand for the other in every format string: the calls do the same with all arguments *)
Definition interchangeable (src src' : list Z) : Prop :=
  forall J dtf a da r dr args, jdk_ok J -> Forall (argument J) args -> GrammarSpec.format dtf a da -> GrammarSpec.format dtf r dr ->
    same_calls J dtf (a ++ src ++ r) (a ++ src' ++ r) args.

(** the text of a directive *)
Definition written (s : spec) (q : fspec) : list Z :=
  pct :: ((if q_left q then [45] else []) ++ (if q_alt q then [35] else []) ++ (if q_plus q then [43] else []) ++ (if q_space q then [32] else []) ++ (if q_zero q then [48] else [])) ++
  (if q_width q =? 0 then [] else numeral 10 (q_width q)) ++ (match q_prec q with Some p => 46 :: numeral 10 p | None => [] end) ++ [letter s].

Lemma numeral_decimal n : 0 <= n -> Forall GrammarSpec.is_dec (numeral 10 n) /\ dec_value (numeral 10 n) = n.
Proof.
  intros Hn. pose proof (CtxP.numeral_dec n Hn) as D.
  split; [exact D|]. rewrite <- dec_value_eq by exact D. apply of_numeral_numeral; lia.
Qed.

Lemma written_directive s q : s <> Spct -> bounded q -> directive (written s q) s q.
Proof.
  intros Ns [Hw Hp]. unfold written.
  set (F := (if q_left q then [45] else []) ++ (if q_alt q then [35] else []) ++ (if q_plus q then [43] else []) ++ (if q_space q then [32] else []) ++ (if q_zero q then [48] else [])).
  assert (FT : flags_text F (mkFlags (q_left q) (q_alt q) (q_plus q) (q_space q) (q_zero q))).
  { unfold F. destruct (q_left q), (q_alt q), (q_plus q), (q_space q), (q_zero q); (split; [|split; [|reflexivity]]); cbn [app]; try (repeat constructor; cbn; intuition discriminate); intros x Hx; cbn in *; tauto. }
  assert (WT : width_text (if q_width q =? 0 then [] else numeral 10 (q_width q)) (if q_width q =? 0 then UNSET else q_width q)).
  { destruct (Z.eqb_spec (q_width q) 0); [constructor|]. destruct (numeral_decimal (q_width q) ltac:(lia)) as [A B]. destruct (numeral_head_nonzero 10 (q_width q) ltac:(lia) ltac:(lia)) as (d & r & E & Nd).
    rewrite E in *. rewrite <- B. apply W_num; [exact Nd|exact A|lia]. }
  assert (PT : prec_text (match q_prec q with Some p => 46 :: numeral 10 p | None => [] end) (match q_prec q with Some p => p | None => UNSET end)).
  { destruct (q_prec q) as [p|]; [|constructor]. destruct (numeral_decimal p ltac:(lia)) as [A B]. rewrite <- B at 2. apply P_num; [exact A|lia]. }
  assert (E : mkSpec (q_left q) (q_alt q) (q_plus q) (q_space q) (q_zero q) (if (if q_width q =? 0 then UNSET else q_width q) =? UNSET then 0 else if q_width q =? 0 then UNSET else q_width q)
    (if (match q_prec q with Some p => p | None => UNSET end) =? UNSET then None else Some (match q_prec q with Some p => p | None => UNSET end)) = q).
  { destruct q as [l a pl sp z w p]. cbn [q_left q_alt q_plus q_space q_zero q_width q_prec] in *. f_equal.
    - destruct (Z.eqb_spec w 0) as [->|]; [reflexivity|]. destruct (Z.eqb_spec w UNSET) as [E|]; [unfold UNSET in E; lia|reflexivity].
    - destruct p as [p|]; [|reflexivity]. destruct (Z.eqb_spec p UNSET) as [E|]; [unfold UNSET in E; lia|reflexivity]. }
  refine (eq_ind _ (directive _ s) (dir_text F _ _ _ _ _ (letter s) s FT WT _ PT _ (conv_self s) _) _ E).
  - unfold UNSET, PRECEDING, int_min. destruct (_ =? 0); lia.
  - unfold UNSET, PRECEDING, int_min. destruct (q_prec q); lia.
  - intros _. destruct s; try discriminate. contradiction.
Qed.

Lemma directive_bounded src s q : directive src s q -> bounded q.
Proof.
  intros D. destruct (directive_bounds _ _ _ D) as [W P]. split; [exact W|]. destruct (q_prec q) as [p|] eqn:E; [|exact I]. unfold prec_or in P. rewrite E in P. exact P.
Qed.
Lemma bounded_prec q : bounded q -> prec_or 6 q <= 65536.
Proof. unfold bounded, prec_or. destruct (q_prec q); lia. Qed.
Lemma plainest_bounded s q : covered s = true -> bounded q -> bounded (plainest s q).
Proof.
  intros Hc [Hw Hp]. assert (W : forall S, 0 <= width_above S (q_width q) <= 65536) by (intros S; unfold width_above; destruct (_ <=? S); lia).
  assert (A : forall m, 0 <= m <= 65536 -> match at_least m with Some p => 0 <= p <= 65536 | None => True end) by (intros m H; unfold at_least; destruct (m =? 1); [exact I|exact H]).
  assert (Z0 : bounded plain) by (split; cbn; [lia|exact I]).
  assert (U : forall s, bounded (plainest_u s q)).
  { intros s'. split; [apply W|]. cbn [plainest_u q_prec]. apply A. unfold zero_digits. pose proof (zlen_nonneg (prefix s' q)) as L. rewrite prefix_len in L. unfold prefix_length, has_prefix, is_octal in *.
    destruct (q_prec q) as [p|].
    - destruct (Z.eqb_spec p 0); [rewrite andb_false_r; lia|]. destruct s'; cbn [andb]; try lia. destruct (q_alt q); cbn [andb]; [|lia]. destruct (Z.ltb_spec 1 (Z.max 1 (p - 1))); lia.
    - destruct (q_zero q && negb (q_left q)); destruct s'; cbn [andb]; try (destruct (q_alt q); cbn [andb]; try (destruct (Z.ltb_spec 1 (Z.max 1 (q_width q - 1)))); cbn; lia); cbn; lia. }
  assert (Fx : bounded (plainest_f q)) by (split; [apply W|]; cbn [plainest_f q_prec]; unfold prec_or; destruct (q_prec q); lia).
  assert (Ex : bounded (plainest_e q)) by (split; [apply W|]; cbn [plainest_e q_prec]; unfold prec_or; destruct (q_prec q); lia).
  assert (Ax : bounded (plainest_a q)) by (split; [apply W|]; cbn [plainest_a q_prec]; destruct (q_prec q); [lia|exact I]).
  destruct s; try discriminate; try apply U; try exact Fx; try exact Ex; try exact Ax; try exact Z0.
  - cbn [plainest]. unfold plainest_d. cbv zeta. destruct (zero_filled q).
    + destruct (_ || _); [split; [cbn; lia|cbn [q_prec]; apply A; lia]|]. destruct (_ <=? _); [exact Z0|split; cbn; [lia|exact I]].
    + split; [apply W|]. cbn [q_prec]. apply A. unfold digits_asked. destruct (q_prec q); lia.
  - split; [apply W|exact I].
  - split; [exact Hw|exact Hp].
  - split; [exact Hw|exact Hp].
  - split; [apply W|exact I].
Qed.

(** C104: two directives of a conversion are interchangeable exactly if their plainest forms are the same *)
Theorem C104_interchangeable_iff : forall src src' s q q', covered s = true -> directive src s q -> directive src' s q' ->
  (interchangeable src src' <-> plainest s q = plainest s q').
Proof.
  intros src src' s q q' Hc D D'. pose proof (directive_bounded _ _ _ D) as B. pose proof (directive_bounded _ _ _ D') as B'.
  destruct (bounded_fine q B) as [Hp Hw]. destruct (bounded_fine q' B') as [Hp' Hw']. split.
  - intros H. apply plainest_tells; try assumption. intros x t t' Hi S S'. destruct (probe_shown s q q' x Hc B B' Hi) as [Hx _].
    apply (same_calls_texts J2 src s q src' q' x t t'); try assumption; [exact J2_ok|intros ->; discriminate|intros ->; discriminate|].
    pose proof (H J2 (fun _ => true) [] [] [] [] [x] J2_ok (Forall_cons _ Hx (Forall_nil _)) (fmt_end _) (fmt_end _)) as C. rewrite !app_nil_r in C. exact C.
  - intros E J dtf a da r dr args HJ Hg Ha Hr. apply (agree_calls J dtf a da r dr src s q src' q' args); try assumption.
    apply (agree_trans s q (plainest s q)); [apply agree_plainest; try assumption; apply bounded_prec; assumption|]. rewrite E. apply agree_sym, agree_plainest; try assumption; apply bounded_prec; assumption.
Qed.
Print Assumptions C104_interchangeable_iff.

(** C104: the plainest form can be written, and is interchangeable with the directive *)
Theorem C104_plainest_form : forall src s q, covered s = true -> s <> Spct -> directive src s q ->
  directive (written s (plainest s q)) s (plainest s q) /\ interchangeable src (written s (plainest s q)) /\ plainest s (plainest s q) = plainest s q.
Proof.
  intros src s q Hc Ns D. pose proof (directive_bounded _ _ _ D) as B. destruct (bounded_fine q B) as [Hp Hw].
  pose proof (plainest_bounded s q Hc B) as B'. destruct (bounded_fine _ B') as [Hp' Hw']. pose proof (written_directive s _ Ns B') as D'.
  assert (X : interchangeable src (written s (plainest s q))).
  { intros J dtf a da r dr args HJ Hg Ha Hr. apply (agree_calls J dtf a da r dr src s q _ (plainest s q) args); try assumption. apply agree_plainest; try assumption; apply bounded_prec; assumption. }
  split; [exact D'|]. split; [exact X|]. symmetry. apply (proj1 (C104_interchangeable_iff _ _ s q (plainest s q) Hc D D') X).
Qed.
Print Assumptions C104_plainest_form.

(** C104: otherwise one argument tells them apart, and neither directive refuses it *)
Theorem C104_told_apart : forall src src' s q q', covered s = true -> directive src s q -> directive src' s q' -> plainest s q <> plainest s q' ->
  exists J x t t', jdk_ok J /\ argument J x /\ prints J src [x] t /\ prints J src' [x] t' /\ t <> t'.
Proof.
  intros src src' s q q' Hc D D' N. pose proof (directive_bounded _ _ _ D) as B. pose proof (directive_bounded _ _ _ D') as B'.
  destruct (bounded_fine q B) as [Hp Hw]. destruct (bounded_fine q' B') as [Hp' Hw'].
  assert (N1 : s <> St) by (intros ->; discriminate). assert (N2 : s <> ST) by (intros ->; discriminate).
  destruct (found traits (fun x => forall t t', shown J2 s None q x (Ok t) -> shown J2 s None q' x (Ok t') -> t = t') (probes s q q')) as [H|(x & Hi & H)].
  - intros x Hi. destruct (probe_shown s q q' x Hc B B' Hi) as (Hx & Sh). destruct (Sh q Hp) as [t S]. destruct (Sh q' Hp') as [t' S'].
    destruct (C74_conversions_are_complete J2 s None q x J2_ok Hx (proj1 B) (proj2 B)) as (o & _ & U). destruct (C74_conversions_are_complete J2 s None q' x J2_ok Hx (proj1 B') (proj2 B')) as (o' & _ & U').
    destruct (list_eq_dec Z.eq_dec t t') as [E|E].
    + left. intros u u' A A'. pose proof (U _ S) as E1. pose proof (U _ A) as E2. pose proof (U' _ S') as E3. pose proof (U' _ A') as E4. congruence.
    + right. intros C. apply E. apply C; assumption.
  - exfalso. apply N. apply plainest_tells; try assumption. intros x t t' Hi. apply H. exact Hi.
  - destruct (probe_shown s q q' x Hc B B' Hi) as (Hx & Sh). destruct (Sh q Hp) as [t S]. destruct (Sh q' Hp') as [t' S'].
    exists J2, x, t, t'. split; [exact J2_ok|]. split; [exact Hx|]. split; [apply (ScanP3.shown_prints J2 src s q); try assumption; exact J2_ok|].
    split; [apply (ScanP3.shown_prints J2 src' s q'); try assumption; exact J2_ok|]. intros <-. apply H. intros u u' A A'.
    destruct (C74_conversions_are_complete J2 s None q x J2_ok Hx (proj1 B) (proj2 B)) as (o & _ & U). destruct (C74_conversions_are_complete J2 s None q' x J2_ok Hx (proj1 B') (proj2 B')) as (o' & _ & U').
    pose proof (U _ S) as E1. pose proof (U _ A) as E2. pose proof (U' _ S') as E3. pose proof (U' _ A') as E4. congruence.
Qed.
Print Assumptions C104_told_apart.

(** no directive that says the same has fewer flags or a smaller width *)
Definition no_more (q q' : fspec) : Prop :=
  (q_left q = true -> q_left q' = true) /\ (q_alt q = true -> q_alt q' = true) /\ (q_plus q = true -> q_plus q' = true) /\
  (q_space q = true -> q_space q' = true) /\ (q_zero q = true -> q_zero q' = true) /\ q_width q <= q_width q'.
Lemma width_above_le n w : 0 <= w -> width_above n w <= w.
Proof. unfold width_above. destruct (w <=? n); lia. Qed.
Lemma plainest_no_more s q : covered s = true -> 0 <= q_width q -> no_more (plainest s q) q.
Proof.
  intros Hc Hw. unfold no_more. assert (A : forall n, width_above n (q_width q) <= q_width q) by (intros; apply width_above_le; assumption).
  assert (O : forall (b : bool) n, width_above (if b then n else 0) (q_width q) <= q_width q) by (intros; apply A).
  destruct q as [l a p b z w r]. cbn [q_left q_alt q_plus q_space q_zero q_width] in *.
  destruct s; try discriminate Hc; unfold plainest, plainest_d, plainest_u, plainest_f, plainest_e, plainest_a, plain, zero_filled; cbv zeta;
    cbn [q_left q_alt q_plus q_space q_zero q_width q_prec].
  all: destruct l, a, p, b, z; cbn [negb andb orb q_left q_alt q_plus q_space q_zero q_width q_prec];
    repeat match goal with |- context [if ?c then _ else _] => destruct c eqn:? end;
    cbn [negb andb orb q_left q_alt q_plus q_space q_zero q_width q_prec];
    repeat apply conj; try (intros; discriminate); try (intros; reflexivity); try (intros; assumption); try apply A; try apply Z.le_refl; try exact Hw; try lia.
Qed.
Theorem C104_plainest_is_least : forall src src' s q q', covered s = true -> directive src s q -> directive src' s q' ->
  interchangeable src src' -> no_more (plainest s q) q'.
Proof.
  intros src src' s q q' Hc D D' H. apply (C104_interchangeable_iff src src' s q q' Hc D D') in H. rewrite H. apply plainest_no_more; [exact Hc|].
  destruct (bounded_fine q' (directive_bounded _ _ _ D')). assumption.
Qed.
Print Assumptions C104_plainest_is_least.

(** directives that are interchangeable and directives that are not *)
Example C104_example :
  interchangeable (txt "%+05d") (txt "%+.4d") /\ ~ interchangeable (txt "%05d") (txt "%.5d") /\ interchangeable (txt "%05x") (txt "%.5x") /\ ~ interchangeable (txt "%-1d") (txt "%-2d").
Proof.
  assert (D1 : directive (txt "%+05d") Sd (mkSpec false false true false true 5 None)) by (is_dir (dir_text (txt "+0") (mkFlags false false true false true) (txt "5") 5 [] UNSET (ch "d") Sd)).
  assert (D2 : directive (txt "%+.4d") Sd (mkSpec false false true false false 0 (Some 4))) by (is_dir (dir_text (txt "+") (mkFlags false false true false false) [] UNSET (txt ".4") 4 (ch "d") Sd)).
  assert (D3 : directive (txt "%05d") Sd (mkSpec false false false false true 5 None)) by (is_dir (dir_text (txt "0") (mkFlags false false false false true) (txt "5") 5 [] UNSET (ch "d") Sd)).
  assert (D4 : directive (txt "%.5d") Sd (mkSpec false false false false false 0 (Some 5))) by (is_dir (dir_text [] (mkFlags false false false false false) [] UNSET (txt ".5") 5 (ch "d") Sd)).
  assert (D5 : directive (txt "%05x") Sx (mkSpec false false false false true 5 None)) by (is_dir (dir_text (txt "0") (mkFlags false false false false true) (txt "5") 5 [] UNSET (ch "x") Sx)).
  assert (D6 : directive (txt "%.5x") Sx (mkSpec false false false false false 0 (Some 5))) by (is_dir (dir_text [] (mkFlags false false false false false) [] UNSET (txt ".5") 5 (ch "x") Sx)).
  assert (D7 : directive (txt "%-1d") Sd (mkSpec true false false false false 1 None)) by (is_dir (dir_text (txt "-") (mkFlags true false false false false) (txt "1") 1 [] UNSET (ch "d") Sd)).
  assert (D8 : directive (txt "%-2d") Sd (mkSpec true false false false false 2 None)) by (is_dir (dir_text (txt "-") (mkFlags true false false false false) (txt "2") 2 [] UNSET (ch "d") Sd)).
  refine (conj _ (conj _ (conj _ _))).
  - apply (C104_interchangeable_iff _ _ Sd _ _ eq_refl D1 D2). reflexivity.
  - intros H. apply (C104_interchangeable_iff _ _ Sd _ _ eq_refl D3 D4) in H. discriminate H.
  - apply (C104_interchangeable_iff _ _ Sx _ _ eq_refl D5 D6). reflexivity.
  - intros H. apply (C104_interchangeable_iff _ _ Sd _ _ eq_refl D7 D8) in H. discriminate H.
Qed.
(** more plainest forms *)
Example C104_plainest_examples :
  let a f := written f in
  let q l al pl sp z w p := mkSpec l al pl sp z w p in
  map (fun x => a (fst x) (plainest (fst x) (snd x)))
    [(Sd, q false true false false true 5 None); (Sd, q true false true true true 0 (Some 1)); (Sd, q false false false true true 7 None); (Su, q false true true true true 6 None);
     (So, q false true false false false 0 None); (So, q false true false false true 6 None); (Sx, q false true false false true 8 None); (SX, q true false false false false 1 None);
     (Sc, q true true true true true 1 (Some 9)); (Ss, q true false true false true 1 (Some 4)); (SS, q true false false false false 9 (Some 0)); (Sf, q true true true true true 3 None);
     (Sf, q false true false false true 8 (Some 3)); (SF, q false true false true true 12 (Some 0)); (Sf, q false false false false true 8 None);
     (Se, q true true false true true 3 None); (Se, q false false false true false 20 (Some 6)); (Se, q false false false true false 21 (Some 6)); (SE, q false true true true true 12 (Some 0));
     (Se, q false false false false true 14 (Some 9)); (Se, q false false false false true 15 (Some 9)); (SE, q false false false true true 21 None);
     (Sa, q true true false true true 3 None); (Sa, q false false false true false 23 None); (Sa, q false false false true false 24 None); (SA, q false true true true true 12 (Some 0));
     (Sa, q false false false false true 8 None); (Sa, q false false false false true 9 None); (SA, q false false false true false 15 (Some 4));
     (Sp, q true true true true true 3 (Some 2)); (Sp, q true false false true true 4 None)]
  = [txt "%05d"; txt "%+d"; txt "% .6d"; txt "%.6u"; txt "%#o"; txt "%#6.6o"; txt "%#8.6x"; txt "%X"; txt "%c"; txt "%1.4s"; txt "%9.0S"; txt "%+.6f"; txt "%08.3f"; txt "%# 012.0F"; txt "%8.6f";
     txt "% .6e"; txt "% 20.6e"; txt "%21.6e"; txt "%#+012.0E"; txt "%14.9e"; txt "%015.9e"; txt "% 021.6E";
     txt "% a"; txt "% 23a"; txt "%24a"; txt "%+012.1A"; txt "%8a"; txt "%09a"; txt "%15.4A"; txt "%p"; txt "%-4p"].
Proof. vm_compute. reflexivity. Qed.
(** a blank in front shows in a field of 20 characters and not in one of 21: the longest numbers have 20 *)
Example C104_blank_example :
  ~ interchangeable (txt "% 20e") (txt "%20e") /\ interchangeable (txt "% 21e") (txt "%21e") /\ interchangeable (txt "%014.9E") (txt "%14.9E") /\ ~ interchangeable (txt "%015.9E") (txt "%15.9E").
Proof.
  assert (D1 : directive (txt "% 20e") Se (mkSpec false false false true false 20 None)) by (is_dir (dir_text (txt " ") (mkFlags false false false true false) (txt "20") 20 [] UNSET (ch "e") Se)).
  assert (D2 : directive (txt "%20e") Se (mkSpec false false false false false 20 None)) by (is_dir (dir_text [] (mkFlags false false false false false) (txt "20") 20 [] UNSET (ch "e") Se)).
  assert (D3 : directive (txt "% 21e") Se (mkSpec false false false true false 21 None)) by (is_dir (dir_text (txt " ") (mkFlags false false false true false) (txt "21") 21 [] UNSET (ch "e") Se)).
  assert (D4 : directive (txt "%21e") Se (mkSpec false false false false false 21 None)) by (is_dir (dir_text [] (mkFlags false false false false false) (txt "21") 21 [] UNSET (ch "e") Se)).
  assert (D5 : directive (txt "%014.9E") SE (mkSpec false false false false true 14 (Some 9))) by (is_dir (dir_text (txt "0") (mkFlags false false false false true) (txt "14") 14 (txt ".9") 9 (ch "E") SE)).
  assert (D6 : directive (txt "%14.9E") SE (mkSpec false false false false false 14 (Some 9))) by (is_dir (dir_text [] (mkFlags false false false false false) (txt "14") 14 (txt ".9") 9 (ch "E") SE)).
  assert (D7 : directive (txt "%015.9E") SE (mkSpec false false false false true 15 (Some 9))) by (is_dir (dir_text (txt "0") (mkFlags false false false false true) (txt "15") 15 (txt ".9") 9 (ch "E") SE)).
  assert (D8 : directive (txt "%15.9E") SE (mkSpec false false false false false 15 (Some 9))) by (is_dir (dir_text [] (mkFlags false false false false false) (txt "15") 15 (txt ".9") 9 (ch "E") SE)).
  refine (conj _ (conj _ (conj _ _))).
  - intros H. apply (C104_interchangeable_iff _ _ Se _ _ eq_refl D1 D2) in H. discriminate H.
  - apply (C104_interchangeable_iff _ _ Se _ _ eq_refl D3 D4). reflexivity.
  - apply (C104_interchangeable_iff _ _ SE _ _ eq_refl D5 D6). reflexivity.
  - intros H. apply (C104_interchangeable_iff _ _ SE _ _ eq_refl D7 D8) in H. discriminate H.
Qed.
(** the shortest text of %p has three characters *)
Example C104_pointer_example : interchangeable (txt "%#-3.2p") (txt "%p") /\ ~ interchangeable (txt "%4p") (txt "%p").
Proof.
  assert (D1 : directive (txt "%#-3.2p") Sp (mkSpec true true false false false 3 (Some 2))) by (is_dir (dir_text (txt "#-") (mkFlags true true false false false) (txt "3") 3 (txt ".2") 2 (ch "p") Sp)).
  assert (D2 : directive (txt "%p") Sp (mkSpec false false false false false 0 None)) by (is_dir (dir_text [] (mkFlags false false false false false) [] UNSET [] UNSET (ch "p") Sp)).
  assert (D3 : directive (txt "%4p") Sp (mkSpec false false false false false 4 None)) by (is_dir (dir_text [] (mkFlags false false false false false) (txt "4") 4 [] UNSET (ch "p") Sp)).
  split; [apply (C104_interchangeable_iff _ _ Sp _ _ eq_refl D1 D2); reflexivity|]. intros H. apply (C104_interchangeable_iff _ _ Sp _ _ eq_refl D3 D2) in H. discriminate H.
Qed.
(** %.0a is %.1a, %.13a is not %a, and '#' never shows *)
Example C104_hex_example :
  interchangeable (txt "%#.0a") (txt "%.1a") /\ ~ interchangeable (txt "%.13a") (txt "%a") /\ interchangeable (txt "%08a") (txt "%8a") /\ ~ interchangeable (txt "%09A") (txt "%9A").
Proof.
  assert (D1 : directive (txt "%#.0a") Sa (mkSpec false true false false false 0 (Some 0))) by (is_dir (dir_text (txt "#") (mkFlags false true false false false) [] UNSET (txt ".0") 0 (ch "a") Sa)).
  assert (D2 : directive (txt "%.1a") Sa (mkSpec false false false false false 0 (Some 1))) by (is_dir (dir_text [] (mkFlags false false false false false) [] UNSET (txt ".1") 1 (ch "a") Sa)).
  assert (D3 : directive (txt "%.13a") Sa (mkSpec false false false false false 0 (Some 13))) by (is_dir (dir_text [] (mkFlags false false false false false) [] UNSET (txt ".13") 13 (ch "a") Sa)).
  assert (D4 : directive (txt "%a") Sa (mkSpec false false false false false 0 None)) by (is_dir (dir_text [] (mkFlags false false false false false) [] UNSET [] UNSET (ch "a") Sa)).
  assert (D5 : directive (txt "%08a") Sa (mkSpec false false false false true 8 None)) by (is_dir (dir_text (txt "0") (mkFlags false false false false true) (txt "8") 8 [] UNSET (ch "a") Sa)).
  assert (D6 : directive (txt "%8a") Sa (mkSpec false false false false false 8 None)) by (is_dir (dir_text [] (mkFlags false false false false false) (txt "8") 8 [] UNSET (ch "a") Sa)).
  assert (D7 : directive (txt "%09A") SA (mkSpec false false false false true 9 None)) by (is_dir (dir_text (txt "0") (mkFlags false false false false true) (txt "9") 9 [] UNSET (ch "A") SA)).
  assert (D8 : directive (txt "%9A") SA (mkSpec false false false false false 9 None)) by (is_dir (dir_text [] (mkFlags false false false false false) (txt "9") 9 [] UNSET (ch "A") SA)).
  refine (conj _ (conj _ (conj _ _))).
  - apply (C104_interchangeable_iff _ _ Sa _ _ eq_refl D1 D2). reflexivity.
  - intros H. apply (C104_interchangeable_iff _ _ Sa _ _ eq_refl D3 D4) in H. discriminate H.
  - apply (C104_interchangeable_iff _ _ Sa _ _ eq_refl D5 D6). reflexivity.
  - intros H. apply (C104_interchangeable_iff _ _ SA _ _ eq_refl D7 D8) in H. discriminate H.
Qed.
