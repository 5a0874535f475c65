(** Property C80: what the exceptions for malformed format strings say. *)
From Verif Require Import Base Digits UtilsM ContextM CompilerM GrammarSpec CompilerP CompilerP2 ErrSpec ErrP MiscM DescM DescSpec DescP CharSpec.

(** the exceptions are those of CompilerM.v (to which C44 and C33 apply) *)
Theorem C80_same_errors : forall dtf src, erase (d_compile dtf src) = compile dtf src.
Proof. exact compile_erase. Qed.
Print Assumptions C80_same_errors.

(** description and cause, for every malformed format string *)
Theorem C80_description : forall dtf src e m b,
  d_compile dtf src = DErr (mkThrown e m b) <-> complaint dtf src e m b.
Proof. exact compile_complaint. Qed.
Print Assumptions C80_description.

Lemma complaint_total dtf src e : malformed dtf src e -> exists m b, complaint dtf src e m b.
Proof.
  intros (s & ds & t & x & E & F & S & ->). destruct (slip_said dtf (zlen s + 1) t x S) as (m & b & H).
  exists m, b, s, ds, t, x. repeat split; assumption.
Qed.
Theorem C80_every_error_is_described : forall dtf src e, malformed dtf src e ->
  exists m b, d_compile dtf src = DErr (mkThrown e m b) /\ complaint dtf src e m b /\
    forall m' b', complaint dtf src e m' b' -> m' = m /\ b' = b.
Proof.
  intros dtf src e H. destruct (complaint_total _ _ _ H) as (m & b & C). exists m, b. pose proof (proj2 (C80_description dtf src e m b) C) as D.
  split; [exact D|]. split; [exact C|]. intros m' b' C'. apply C80_description in C'. rewrite D in C'. split; congruence.
Qed.
Print Assumptions C80_every_error_is_described.

(** the part of the source that starts at the index is quoted *)
Definition quotes (src : list Z) (i : Z) (intro m : list Z) : Prop :=
  exists q r, q <> [] /\ skipn (Z.to_nat i) src = q ++ r /\ m = intro ++ txt "'" ++ q ++ txt "'".

Lemma skip_app (a b : list Z) n : n = zlen a -> skipn (Z.to_nat n) (a ++ b) = b.
Proof. intros ->. unfold zlen. rewrite Nat2Z.id, skipn_app, skipn_all, Nat.sub_diag. reflexivity. Qed.
Lemma too_big_ne ds r : too_big ds r -> ds <> [].
Proof. intros (_ & H & _) ->. vm_compute in H. discriminate. Qed.

Theorem C80_quotes_partial : forall dtf src k i m b, d_compile dtf src = DErr (mkThrown (Syntax k i) m b) ->
  match k with
  | DuplicateFlag => exists c r name, skipn (Z.to_nat i) src = c :: r /\ In (c, name) constant_names /\ m = txt "Duplicate flag '" ++ name ++ txt "'"
  | UnexpectedEnd => i = zlen src
  | BadWidth => quotes src i (txt "Invalid width: ") m
  | BadPrecision => quotes src i (txt "Invalid precision: ") m
  | UnclosedDate => (exists r, skipn (Z.to_nat i) src = ch "{" :: r) /\ m = txt "Unclosed date/time pattern starting at index " ++ dec_text i
  | EmptyDate => (exists r, skipn (Z.to_nat i) src = ch "}" :: r) /\ m = txt "Empty date/time pattern"
  | InvalidDate => quotes src i (txt "Invalid date/time pattern: ") m
  | BadSpecifier => (exists c r, skipn (Z.to_nat i) src = c :: r) /\ quotes src i (txt "Unknown format conversion specifier ") m
  end.
Proof.
  intros dtf src k i m b D. apply C80_description in D. destruct D as (s & ds & t & x & -> & Hs & Hx & E).
  assert (Sk : forall a r q, s ++ pct :: a ++ q :: r = (s ++ pct :: a) ++ q :: r) by (intros; rewrite <- app_assoc; reflexivity).
  assert (Z1 : forall a, zlen s + 1 + zlen a = zlen (s ++ pct :: a)) by (intros; rewrite zlen_app, zlen_cons; lia).
  destruct Hx as [F fl c r name HF Hc Hname|F fl w r HF Hh HB|F fl W w ws r HF HW HB|h fl w p W P m Hh Hm|h fl w p W P c r Hh Hc Hsp
      |h fl w p W P c sp r Hh Hc Hsp Hn|h fl w p W P c sp r Hh Hc Hsp|h fl w p W P c sp d r Hh Hc Hsp Hd Hp Hv
      |h fl w p W P c sp T d r Hh Hc HT Hw|h fl w p W P c sp T d r Hh Hc HT Hw Hp]; cbn [shifted] in E; try discriminate E; injection E as -> ->.
  - exists c, r, name. split; [|split; [exact Hname|reflexivity]]. rewrite Sk. apply skip_app. apply Z1.
  - exists w, r. split; [eapply too_big_ne; eassumption|]. split; [|reflexivity].
    change (s ++ pct :: F ++ w ++ r) with (s ++ (pct :: F) ++ w ++ r). rewrite app_assoc. apply skip_app. apply Z1.
  - exists ws, r. split; [eapply too_big_ne; eassumption|]. split; [|reflexivity].
    replace (s ++ pct :: F ++ W ++ 46 :: ws ++ r) with ((s ++ pct :: F ++ W ++ [46]) ++ ws ++ r) by (rewrite <- !app_assoc; cbn [app]; rewrite <- !app_assoc; reflexivity).
    apply skip_app. rewrite !zlen_app, zlen_cons, !zlen_app. change (zlen [46]) with 1. lia.
  - rewrite zlen_app, zlen_cons. lia.
  - assert (K : skipn (Z.to_nat (zlen s + 1 + zlen h)) (s ++ pct :: h ++ c :: r) = c :: r) by (rewrite Sk; apply skip_app; apply Z1).
    split; [eauto|]. exists [c], r. split; [discriminate|]. split; [exact K|reflexivity].
  - split.
    + exists r. replace (s ++ pct :: h ++ c :: 123 :: r) with ((s ++ pct :: h ++ [c]) ++ 123 :: r) by (rewrite <- !app_assoc; cbn [app]; rewrite <- !app_assoc; reflexivity).
      apply skip_app. rewrite zlen_app, zlen_cons, zlen_app. change (zlen [c]) with 1. lia.
    + do 2 f_equal. lia.
  - split; [|reflexivity]. exists r.
    replace (s ++ pct :: h ++ c :: 123 :: 125 :: r) with ((s ++ pct :: h ++ [c; 123]) ++ 125 :: r) by (rewrite <- !app_assoc; cbn [app]; rewrite <- !app_assoc; reflexivity).
    apply skip_app. rewrite zlen_app, zlen_cons, zlen_app. change (zlen [c; 123]) with 2. lia.
  - exists d, (125 :: r). split; [exact Hd|]. split; [|reflexivity].
    replace (s ++ pct :: h ++ c :: 123 :: d ++ 125 :: r) with ((s ++ pct :: h ++ [c; 123]) ++ d ++ 125 :: r) by (rewrite <- !app_assoc; cbn [app]; rewrite <- !app_assoc; reflexivity).
    apply skip_app. rewrite zlen_app, zlen_cons, zlen_app. change (zlen [c; 123]) with 2. lia.
Qed.
Print Assumptions C80_quotes_partial.

(** C80 is false for a repeated flag: what is quoted is the name of an enum constant ... *)
Theorem C80_flag_quote_refuted :
  exists dtf src i m b, d_compile dtf src = DErr (mkThrown (Syntax DuplicateFlag i) m b) /\
    m = txt "Duplicate flag 'LEFT_JUSTIFY'" /\ skipn (Z.to_nat i) src = txt "-d" /\
    ~ (exists intro, quotes src i intro m).
Proof.
  exists (fun _ => true), (txt "%--d"), 2, (txt "Duplicate flag 'LEFT_JUSTIFY'"), false. split; [vm_compute; reflexivity|]. split; [reflexivity|]. split; [reflexivity|].
  intros (intro & q & r & Hq & E & Em). change (skipn (Z.to_nat 2) (txt "%--d")) with [45; 100] in E.
  assert (In 45 (txt "Duplicate flag 'LEFT_JUSTIFY'")).
  { destruct q as [|x q]; [congruence|]. injection E as <- _. rewrite Em, !in_app_iff. right. right. left. left. reflexivity. }
  vm_compute in H. intuition discriminate.
Qed.
Print Assumptions C80_flag_quote_refuted.

Lemma split_unique (x : Z) a : forall a' b b', a ++ [x] ++ b = a' ++ [x] ++ b' -> ~ In x a -> ~ In x a' -> b = b'.
Proof.
  induction a as [|y a IH]; intros [|y' a'] b b' E Ha Ha'; cbn [app] in E.
  - injection E as E. exact E.
  - injection E as E1 E2. exfalso. apply Ha'. left. congruence.
  - injection E as E1 E2. exfalso. apply Ha. left. congruence.
  - injection E as E1 E2. apply (IH a' b b' E2); intros K; [apply Ha|apply Ha']; right; exact K.
Qed.

(** ... and never the flag itself *)
Theorem C80_flag_is_never_quoted : forall dtf src i m b, d_compile dtf src = DErr (mkThrown (Syntax DuplicateFlag i) m b) ->
  ~ (exists intro, quotes src i intro m).
Proof.
  intros dtf src i m b D. pose proof (C80_quotes_partial _ _ _ _ _ _ D) as (c & r & name & E & Hn & Em).
  intros (intro & q & r' & Hq & E' & Em').
  destruct q as [|x q]; [congruence|]. rewrite E in E'. injection E' as <- E2.
  assert (N0 : count_occ Z.eq_dec name 39 = 0%nat /\ ~ In c name).
  { unfold constant_names in Hn.
    repeat (destruct Hn as [Hn|Hn]; [injection Hn as <- <-; split; [reflexivity|intros K; vm_compute in K; intuition discriminate]|]). destruct Hn. }
  destruct N0 as (N0 & N1). rewrite Em in Em'. pose proof (f_equal (fun l => count_occ Z.eq_dec l 39) Em') as C.
  cbv beta in C. rewrite !count_occ_app, N0 in C. change (count_occ Z.eq_dec (txt "Duplicate flag '") 39) with 1%nat in C. change (count_occ Z.eq_dec (txt "'") 39) with 1%nat in C.
  assert (Ci : count_occ Z.eq_dec intro 39 = 0%nat) by lia. apply count_occ_not_In in Ci.
  rewrite !app_assoc in Em'. apply app_inv_tail in Em'.
  change (txt "Duplicate flag '") with (txt "Duplicate flag " ++ [39]) in Em'. change (txt "'") with [39] in Em'. rewrite <- !app_assoc in Em'.
  apply (split_unique 39) in Em'; [|intros K; vm_compute in K; intuition discriminate|exact Ci].
  apply N1. rewrite Em'. left. reflexivity.
Qed.
Print Assumptions C80_flag_is_never_quoted.

(** only a pattern rejected by DateTimeFormatter.ofPattern has a cause *)
Theorem C80_cause : forall dtf src e m b, d_compile dtf src = DErr (mkThrown e m b) ->
  (b = true <-> exists i, e = Syntax InvalidDate i).
Proof.
  intros dtf src e m b D. apply C80_description in D. destruct D as (s & ds & t & x & -> & Hs & Hx & ->).
  destruct Hx; cbn [shifted]; split; intros H'; try discriminate H'; try (destruct H' as (j & H'); discriminate H'); try reflexivity.
  eexists. reflexivity.
Qed.
Print Assumptions C80_cause.

(** the whole message: description, index, format string and caret; for a width or precision out of range the number *)
Theorem C80_message : forall dtf nl src e m b, d_compile dtf src = DErr (mkThrown e m b) ->
  getMessage nl src (mkThrown e m b) =
  match e with
  | Syntax k i => m ++ txt " near index " ++ dec_text i ++ nl ++ src
                    ++ (if i <? zlen src then nl ++ rep (ch " ") i ++ txt "^" else [])
  | _ => m
  end.
Proof.
  intros dtf nl src e m b D. unfold getMessage. cbn [t_exn t_desc]. destruct e as [k i| | | | | | | |]; try reflexivity.
  assert (Hi : 0 <= i).
  { apply C80_description in D. destruct D as (s & ds & t & x & -> & Hs & Hx & E).
    destruct Hx; cbn [shifted] in E; try discriminate E; injection E as _ ->;
      repeat match goal with |- context [zlen ?l] => pose proof (zlen_nonneg l); generalize dependent (zlen l); intros end; lia. }
  unfold syntaxMessage. assert (0 <=? i = true) as -> by lia. cbn [andb]. destruct (i <? zlen src); rewrite <- ?app_assoc, ?app_nil_r; reflexivity.
Qed.
Print Assumptions C80_message.

(** the description is well-formed UTF-16 if the format string is, unless the unknown conversion is one half of a pair *)
Theorem C80_utf16_refuted : exists dtf src i m b, d_compile dtf src = DErr (mkThrown (Syntax BadSpecifier i) m b) /\
  utf16 src /\ ~ utf16 m.
Proof.
  exists (fun _ => true), [37; 55357; 56832], 1, (txt "Unknown format conversion specifier '" ++ [55357] ++ txt "'"), false.
  split; [vm_compute; reflexivity|]. split.
  - apply uf_one; [unfold surrogate; lia|]. apply uf_pair; [unfold high; lia|unfold low; lia|constructor].
  - assert (P : forall t, Forall (fun c => ~ surrogate c) t -> forall r, utf16 (t ++ r) -> utf16 r).
    { intros t H. induction H as [|c t Hc Ht IH]; intros r U; [exact U|]. apply IH. cbn [app] in U. inversion U; subst; [assumption|].
      exfalso. apply Hc. unfold surrogate, high in *. lia. }
    intros U. apply P in U.
    + cbn [app] in U. inversion U as [|c t Hc _|h l t Hh Hl _]; subst; [apply Hc; unfold surrogate; lia|].
      unfold low in Hl. change (ch "'") with 39 in Hl. lia.
    + repeat (constructor; [unfold surrogate; cbn; lia|]). constructor.
Qed.
Print Assumptions C80_utf16_refuted.

(** the expectations of CompilerTest.java:228-280 and MoreCompilerTest.java:197-203, and of the other kinds *)
Definition said_of (src : list Z) : option (list Z * exn) :=
  match d_compile (fun p => negb (hd 0 p =? 98)) src with DErr t => Some (t_desc t, t_exn t) | DOk _ => None end.
Example C80_example :
  said_of (txt "%") = Some (txt "Format string terminates in the middle of a format specifier", Syntax UnexpectedEnd 1) /\
  said_of (txt "%-") = Some (txt "Format string lacks width or specifier", Syntax UnexpectedEnd 2) /\
  said_of (txt "hello %10") = Some (txt "Format string lacks specifier", Syntax UnexpectedEnd 9) /\
  said_of (txt "%10.") = Some (txt "Format string terminates after '.'", Syntax UnexpectedEnd 4) /\
  said_of (txt "%.*") = Some (txt "Format string lacks specifier", Syntax UnexpectedEnd 3) /\
  said_of (txt "%99999999999d") = Some (txt "Invalid width: '99999999999'", Syntax BadWidth 1) /\
  said_of (txt "%1.02147483648d") = Some (txt "Invalid precision: '02147483648'", Syntax BadPrecision 3) /\
  said_of (txt "%t{HH:mm") = Some (txt "Unclosed date/time pattern starting at index 2", Syntax UnclosedDate 2) /\
  said_of (txt "%t{}") = Some (txt "Empty date/time pattern", Syntax EmptyDate 3) /\
  said_of (txt "%t{b'}'}") = Some (txt "Invalid date/time pattern: 'b'}''", Syntax InvalidDate 3) /\
  said_of (txt "ab%!d") = Some (txt "Unknown format conversion specifier '!'", Syntax BadSpecifier 3) /\
  said_of (txt "%70000d") = Some (txt "Width 70000 exceeds the maximum allowed value of 65536", Printf WidthRange) /\
  said_of (txt "%.070000d") = Some (txt "Precision 70000 exceeds the maximum allowed value of 65536", Printf PrecisionRange) /\
  said_of (txt "%--d") = Some (txt "Duplicate flag 'LEFT_JUSTIFY'", Syntax DuplicateFlag 2) /\
  said_of (txt "%d%%") = None.
Proof. repeat split; vm_compute; reflexivity. Qed.
Example C80_message_example :
  getMessage [10] (txt "%+ +d") (mkThrown (Syntax DuplicateFlag 3) (txt "Duplicate flag 'PLUS'") false)
  = txt "Duplicate flag 'PLUS' near index 3" ++ [10] ++ txt "%+ +d" ++ [10] ++ txt "   ^".
Proof. reflexivity. Qed.
