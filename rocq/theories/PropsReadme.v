(** C87: what README.md says the library prints. *)
From Coq Require Import QArith.
From Verif Require Import Base Digits UtilsM SeqM SeqSpec SeqP ContextM CompilerM GrammarSpec CompilerP2 IntFormM FormatterM MathM DecimalM FPDecimalM
  DoubleM BigDecM RoundM TraitsM ImplM ImplP FmtSpec FmtP DecSpec FloatSpec BigSpec DirSpec LoopSpec LoopP IntP PropsInt NearP FloatP DoubleP FloatArgP PropsFloat
  ExactSpec ScaleSpec ScaleP ValueSpec ValueP PropsValue WholeSpec WholeP PropsWhole ErrSpec ErrP PropsErr HexP BoundP.
Open Scope Z_scope.

(** ** The example call (README.md, "Usage") *)

Definition usage : list Z := txt "ID: %#08X, Score: %05.2f, User: %.5S, Time: %t{yyyy-MM-dd HH:mm:ss}".
Definition math_pi : Z := 4614256656552045848.

Lemma digits_pi : exists f e, its_digits math_pi f e /\ forall q, q = mkSpec false false false false true 5 (Some 2) -> c_f q false f e = txt "03.14".
Proof.
  eexists _, _. split.
  - apply digits_printed. apply printed_by; [vm_compute; split; reflexivity|vm_compute; reflexivity].
  - intros q ->. vm_compute. reflexivity.
Qed.

Theorem C87_usage_example : forall J dtf now tm r1 r2 r3 r4, jdk_ok J -> dtf (txt "yyyy-MM-dd HH:mm:ss") = true ->
  j_format J (Pattern (txt "yyyy-MM-dd HH:mm:ss")) (TLocalDateTime now) = Ok tm ->
  exists ds, compile dtf usage = Ok ds /\
    ImplM.format J ds [traitsOf J (VInt 255) r1; traitsOf J (VDouble math_pi) r2; traitsOf J (VStr (txt "test-user")) r3;
                       traitsOf J (VTemporal (TLocalDateTime now)) r4] =
      Ok (txt "ID: 0X0000FF, Score: 03.14, User: TEST-, Time: " ++ tm).
Proof.
  intros J dtf now tm r1 r2 r3 r4 HJ Hd Hf.
  set (ds := [Fixed (txt "ID: "); Default SX (mkCtx (mkFlags false true false false true) 8 UNSET None);
              Fixed (txt ", Score: "); Default Sf (mkCtx (mkFlags false false false false true) 5 2 None);
              Fixed (txt ", User: "); Default SS (mkCtx noFlags UNSET 5 None);
              Fixed (txt ", Time: "); Default St (mkCtx noFlags UNSET UNSET (Some (txt "yyyy-MM-dd HH:mm:ss")))]).
  assert (E : GrammarSpec.format dtf usage ds).
  { change usage with (txt "ID: %#08X, Score: %05.2f, User: %.5S, Time: " ++ pct :: txt "t{yyyy-MM-dd HH:mm:ss}").
    change ds with (firstn 7 ds ++ skipn 7 ds). apply PropsErr.format_app.
    - apply compile_iff. vm_compute. reflexivity.
    - change (pct :: txt "t{yyyy-MM-dd HH:mm:ss}") with (pct :: [] ++ [] ++ [] ++ ch "t" :: ([123] ++ txt "yyyy-MM-dd HH:mm:ss" ++ [125]) ++ []).
      apply (fmt_dir dtf [] _ [] _ [] _ (ch "t") St _ _ _ []).
      + split; [constructor|]. split; [intros ? []|reflexivity].
      + constructor.
      + constructor.
      + exact (conv_self St).
      + apply D_pat; auto; [discriminate|]. repeat (apply pat_char; [discriminate|discriminate|]). constructor.
      + discriminate.
      + constructor. }
  exists ds. split; [apply compile_iff; exact E|]. destruct digits_pi as (f & e & Hp & Ht).
  assert (S : says J ds [traitsOf J (VInt 255) r1; traitsOf J (VDouble math_pi) r2; traitsOf J (VStr (txt "test-user")) r3;
                       traitsOf J (VTemporal (TLocalDateTime now)) r4]
    (txt "ID: " ++ txt "0X0000FF" ++ txt ", Score: " ++ txt "03.14" ++ txt ", User: " ++ txt "TEST-" ++ txt ", Time: " ++ tm ++ []) None).
  { unfold ds. eapply sy_piece; [apply pc_literal|].
    eapply sy_piece.
    { eapply pc_shown; [apply wi_number; lia|apply pi_none|].
      change (txt "0X0000FF") with (in_case SX (j_x (mkSpec false true false false true 8 None) 255)).
      apply sh_hex; [auto|]. exists (Some 32), 255. split; [constructor; vm_compute; split; congruence|reflexivity]. }
    eapply sy_piece; [apply pc_literal|].
    eapply sy_piece.
    { eapply pc_shown; [apply wi_number; lia|apply pi_number; lia|]. rewrite <- (Ht _ eq_refl).
      apply (sh_fixed J Sf None _ (VDouble math_pi) math_pi f e); [reflexivity|constructor; vm_compute; split; congruence|exact Hp]. }
    eapply sy_piece; [apply pc_literal|].
    eapply sy_piece.
    { eapply pc_shown; [apply wi_none|apply pi_number; lia|].
      change (txt "TEST-") with (in_case SS (c_s (mkSpec false false false false false 0 (Some 5)) (txt "test-user"))).
      apply sh_text; [reflexivity|discriminate|constructor|vm_compute; discriminate]. }
    eapply sy_piece; [apply pc_literal|].
    eapply sy_piece; [|apply sy_end].
    eapply pc_shown; [apply wi_none|apply pi_none|].
    assert (Et : in_case St (justify (asked noFlags (f_left noFlags) 0 None) tm) = tm).
    { unfold in_case, justify. cbn [is_upper asked q_left f_left noFlags q_width]. unfold spaces. rewrite rep_nonpos by (pose proof (zlen_nonneg tm); lia). reflexivity. }
    rewrite <- Et. apply (sh_date J St _ _ (VTemporal (TLocalDateTime now)) (TLocalDateTime now) tm); [reflexivity|constructor|]. rewrite <- Hf. constructor. }
  destruct (C74_calls_follow_the_reference J dtf usage ds _ _ None HJ E S) as (_ & F & _).
  rewrite F. rewrite app_nil_r. reflexivity.
Qed.
Print Assumptions C87_usage_example.

(** ** The table of conversions *)

(** how the texts of %e end: with an exponent of at least two digits, or of a single 9 (C36), or with one of the words *)
Definition e_ends (t : list Z) : Prop :=
  (exists a d ds n, t = a ++ d :: ds ++ spaces n /\ Forall is_dig (d :: ds) /\ (ds = [] -> d = ch "9")) \/
  (exists a c n, t = a ++ c :: spaces n /\ ~ is_dig c /\ c <> 32).

Lemma padded q zp p b : exists a n, pad_number q zp p b = a ++ b ++ spaces n.
Proof.
  unfold pad_number, justify. destruct (zp && negb (q_left q)).
  - exists (p ++ zeros (q_width q - zlen p - zlen b)), 0. rewrite app_nil_r, app_assoc. reflexivity.
  - destruct (q_left q).
    + exists p. eexists. rewrite <- app_assoc. reflexivity.
    + exists (spaces (q_width q - zlen (p ++ b)) ++ p), 0. rewrite app_nil_r, app_assoc. reflexivity.
Qed.

Lemma spaces_upper n : map ascii_upper (spaces n) = spaces n.
Proof. unfold spaces. unfold rep. induction (Z.to_nat n) as [|k IH]; [reflexivity|]. cbn [repeat map]. rewrite IH. reflexivity. Qed.

Lemma is_dig_upper c : is_dig c -> ascii_upper c = c.
Proof. unfold is_dig, ascii_upper. intros H. destruct (97 <=? c) eqn:E; [apply Z.leb_le in E; lia|reflexivity]. Qed.

Lemma digs_upper l : Forall is_dig l -> map ascii_upper l = l.
Proof. induction 1 as [|c l Hc H IH]; [reflexivity|]. cbn [map]. rewrite IH, is_dig_upper by exact Hc. reflexivity. Qed.

Lemma e_ends_case s t : e_ends t -> e_ends (in_case s t).
Proof.
  unfold in_case. destruct (is_upper s); [|auto]. intros [(a & d & ds & n & -> & Hd & H1)|(a & c & n & -> & Hc & H2)].
  - left. exists (map ascii_upper a), d, ds, n. split; [|auto]. change (d :: ds ++ spaces n) with ((d :: ds) ++ spaces n).
    rewrite !map_app, spaces_upper, (digs_upper _ Hd). reflexivity.
  - right. exists (map ascii_upper a), (ascii_upper c), n. split; [rewrite map_app; cbn [map]; rewrite spaces_upper; reflexivity|].
    unfold is_dig, ascii_upper in *. destruct ((97 <=? c) && (c <=? 122)) eqn:E; [|auto]. apply andb_prop in E as [E1 E2]. apply Z.leb_le in E1, E2. lia.
Qed.

(** what can end the digits of a number *)
Definition exp_tail (l : list Z) : Prop := exists a d ds, l = a ++ d :: ds /\ Forall is_dig (d :: ds) /\ (ds = [] -> d = ch "9").

Lemma exp_text_tail x : exp_tail (exp_text x).
Proof.
  unfold exp_text. set (sg := if x <? 0 then ch "-" else ch "+").
  assert (H : exists d d' ds, min_digits 2 (numeral 10 (Z.abs x)) = d :: d' :: ds /\ Forall is_dig (d :: d' :: ds)).
  { assert (F : Forall is_dig (min_digits 2 (numeral 10 (Z.abs x)))).
    { unfold min_digits. apply Forall_app. split; [|apply numeral_dig; lia]. unfold zeros, rep. apply Forall_forall. intros c Hc. apply repeat_spec in Hc. subst. vm_compute. intuition congruence. }
    assert (L : 2 <= zlen (min_digits 2 (numeral 10 (Z.abs x)))).
    { unfold min_digits. rewrite zlen_app. unfold zeros. pose proof (zlen_nonneg (numeral 10 (Z.abs x))). rewrite zlen_rep. lia. }
    destruct (min_digits 2 (numeral 10 (Z.abs x))) as [|d [|d' ds]]; [unfold zlen in L; cbn in L; lia..|]. exists d, d', ds. auto. }
  destruct H as (d & d' & ds & -> & F). exists [ch "e"; sg], d, (d' :: ds). split; [reflexivity|]. split; [exact F|discriminate].
Qed.

Lemma big_exp_tail f P x : exp_tail (big_exp_text f P x).
Proof.
  unfold big_exp_text. destruct (_ && _); [|apply exp_text_tail]. exists (txt "e+"), (ch "9"), []. split; [reflexivity|]. split; [|reflexivity].
  constructor; [vm_compute; intuition congruence|constructor].
Qed.

Lemma finite_ends q neg B E : exp_tail E -> e_ends (finite_text q neg (B ++ E)).
Proof.
  intros (a & d & ds & -> & F & H). unfold finite_text. destruct (padded q (q_zero q) (sign_text q neg) (B ++ a ++ d :: ds)) as (a' & n & ->). left.
  exists (a' ++ B ++ a), d, ds, n. split; [rewrite <- !app_assoc; reflexivity|auto].
Qed.

Lemma justify_ends q t c : ~ is_dig c -> c <> 32 -> e_ends (justify q (t ++ [c])).
Proof.
  intros H1 H2. right. unfold justify. destruct (q_left q).
  - eexists t, c, _. rewrite <- app_assoc. split; [reflexivity|auto].
  - exists (spaces (q_width q - zlen (t ++ [c])) ++ t), c, 0. split; [rewrite <- app_assoc; reflexivity|auto].
Qed.

Lemma shown_e_ends J s pat q x o : shown J s pat q x o -> exp_conv s = true -> forall t, o = Ok t -> e_ends t.
Proof.
  intros H Hs t E. destruct s; try discriminate Hs;
    destruct H; try discriminate; try (destruct H; discriminate); injection E as <-; apply e_ends_case.
  all: try (unfold c_e, e_body; destruct (sig0 _ _ _) as [S X]; apply finite_ends, exp_text_tail).
  all: try (unfold j_inf; change (txt "Infinity") with (txt "Infinit" ++ [ch "y"]); rewrite app_assoc; apply justify_ends; [vm_compute; intuition congruence|discriminate]).
  all: try (unfold c_nan; change (txt "NaN") with (txt "Na" ++ [ch "N"]); apply justify_ends; [vm_compute; intuition congruence|discriminate]).
  all: unfold b_e, be_body; destruct (Z.abs u =? 0); [apply finite_ends, exp_text_tail|].
  all: destruct (sig _ _ _) as [S X]; apply finite_ends, big_exp_tail.
Qed.

Lemma rev_spaces n c l : rev (spaces n) = c :: l -> c = 32.
Proof. intros E. assert (H : In c (rev (spaces n))) by (rewrite E; left; reflexivity). apply in_rev in H. apply repeat_spec in H. exact H. Qed.

Lemma one_digit_end L R : rev L = ch "2" :: ch "+" :: R -> ~ e_ends L.
Proof.
  intros E [(a & d & ds & n & -> & F & H)|(a & c & n & -> & H1 & H2)].
  - rewrite rev_app_distr in E. cbn [rev] in E. rewrite rev_app_distr in E. destruct (rev (spaces n)) as [|c l] eqn:Es.
    + cbn [app] in E. inversion F as [|? ? Fd Fs]; subst. apply Forall_rev in Fs. destruct (rev ds) as [|c l] eqn:Ed.
      * apply (f_equal (@rev Z)) in Ed. rewrite rev_involutive in Ed. cbn in Ed. rewrite (H Ed) in E. discriminate.
      * cbn [app] in E. injection E as -> E. inversion Fs as [|? ? _ Fl]; subst. destruct l as [|c l]; cbn [app] in E; injection E as -> E.
        -- vm_compute in Fd. intuition congruence.
        -- inversion Fl as [|? ? Fc _]; subst. vm_compute in Fc. intuition congruence.
    + cbn [app] in E. injection E as E _. apply rev_spaces in Es. rewrite Es in E. discriminate.
  - rewrite rev_app_distr in E. cbn [rev] in E. destruct (rev (spaces n)) as [|c' l] eqn:Es; cbn [app] in E; injection E as E _.
    + apply H1. rewrite E. vm_compute. intuition congruence.
    + apply rev_spaces in Es. rewrite Es in E. discriminate.
Qed.

(** a call with one directive prints what [shown] says *)
Lemma single_shown J dtf src s c args t : jdk_ok J -> Forall (argument J) args -> compile dtf src = Ok [Default s c] ->
  ImplM.format J [Default s c] args = Ok t -> exists pat q x, shown J s pat q x (Ok t).
Proof.
  intros HJ Ha Hc E. apply compile_iff in Hc. destruct (C74_the_reference_is_complete J dtf src _ args HJ Hc Ha) as (t' & o & S & _).
  destruct (C74_calls_follow_the_reference J dtf src _ args t' o HJ Hc S) as (_ & F & _). rewrite E in F.
  destruct o; [discriminate|]. injection F as <-. inversion S as [|? ? ? u rest v o P S'|]; subst. inversion S'; subst. rewrite app_nil_r.
  inversion P; subst. eauto.
Qed.

(** %e: the text ends with an exponent of two digits or more, with the exponent 9, or with a word *)
Theorem C87_exponents : forall J dtf src s c args t, jdk_ok J -> Forall (argument J) args -> exp_conv s = true ->
  compile dtf src = Ok [Default s c] -> ImplM.format J [Default s c] args = Ok t -> e_ends t.
Proof.
  intros J dtf src s c args t HJ Ha Hs Hc E. destruct (single_shown J dtf src s c args t HJ Ha Hc E) as (pat & q & x & S).
  exact (shown_e_ends J s pat q x _ S Hs t eq_refl).
Qed.
Print Assumptions C87_exponents.

(** so the examples of README.md for %e and %E are never printed *)
Theorem C87_exponent_example_refuted : forall J dtf src s c args, jdk_ok J -> Forall (argument J) args -> exp_conv s = true ->
  compile dtf src = Ok [Default s c] ->
  ImplM.format J [Default s c] args <> Ok (txt "3.9265e+2") /\ ImplM.format J [Default s c] args <> Ok (txt "3.9265E+2").
Proof.
  intros J dtf src s c args HJ Ha Hs Hc.
  split; intros E; apply (C87_exponents J dtf src s c args _ HJ Ha Hs Hc) in E; revert E; eapply one_digit_end; reflexivity.
Qed.
Print Assumptions C87_exponent_example_refuted.

(** %a: after blanks and a sign, "0x" or "0X" and the digit 0 or 1; the words have no x *)
Definition a_starts (t : list Z) : Prop :=
  (exists n sg x d r, t = spaces n ++ sg ++ ch "0" :: x :: d :: r /\ zlen sg <= 1 /\ In d [ch "0"; ch "1"]) \/
  ~ In (ch "x") t /\ ~ In (ch "X") t.

Lemma numeral_01 i : 0 <= i < 2 -> exists d, numeral 16 i = [d] /\ In d [ch "0"; ch "1"].
Proof. intros H. assert (i = 0 \/ i = 1) as [-> | ->] by lia; eexists; (split; [reflexivity|]); cbn; tauto. Qed.

Lemma hex_text_starts M k : 0 <= k -> 0 <= M < 2 * 16 ^ k -> exists d r, hex_text M k = d :: r /\ In d [ch "0"; ch "1"].
Proof.
  intros Hk HM. unfold hex_text. destruct (numeral_01 (M / 16 ^ k)) as (d & -> & Hd).
  - split; [apply Z.div_pos; lia|]. apply Z.div_lt_upper_bound; lia.
  - exists d. eexists. split; [reflexivity|exact Hd].
Qed.

Lemma a_body_starts q b : 0 <= b < inf_bits -> exists d r, a_body q b = d :: r /\ In d [ch "0"; ch "1"].
Proof.
  intros Hb. unfold a_body. destruct (q_prec q) as [p|].
  - destruct (b =? 0) eqn:E0.
    + destruct (hex_text_starts 0 (Z.max 1 p)) as (d & r & -> & Hd); [lia|lia|]. exists d. eexists. split; [reflexivity|exact Hd].
    + apply Z.eqb_neq in E0. destruct (hex_digits b (Z.max 1 p)) as [M x] eqn:E. apply hex_digits_bounds in E; [|lia|lia].
      destruct (hex_text_starts M (Z.max 1 p)) as (d & r & -> & Hd); [lia|lia|]. exists d. eexists. split; [reflexivity|exact Hd].
  - destruct (bin_parts b) as [c x] eqn:E. apply bin_parts_range in E; [|exact Hb]. destruct E as (Hc & _).
    pose proof (drop_hex_spec 12 c ltac:(lia)) as D. destruct (drop_hex 13 c) as [M k]. destruct D as (Hk & Ec & HM).
    change (Z.of_nat 13) with 13 in *. assert (Hlt : M < 2 * 16 ^ k).
    { apply (Z.mul_lt_mono_pos_r (16 ^ (13 - k))); [apply Z.pow_pos_nonneg; lia|]. rewrite <- Ec, <- Z.mul_assoc, <- Z.pow_add_r by lia.
      replace (k + (13 - k)) with 13 by lia. exact (proj2 Hc). }
    destruct (hex_text_starts M k) as (d & r & -> & Hd); [lia|lia|]. exists d. eexists. split; [reflexivity|exact Hd].
Qed.

Lemma sign_short q neg : zlen (sign_text q neg) <= 1.
Proof. unfold sign_text. destruct neg, (q_plus q), (q_space q); vm_compute; discriminate. Qed.

Lemma zeros_cases n : zeros n = [] \/ exists m, zeros n = 48 :: zeros m.
Proof.
  unfold zeros. destruct (Z_le_gt_dec n 0) as [H|H]; [left; apply rep_nonpos; exact H|right; exists (n - 1)].
  replace n with (n - 1 + 1) at 1 by lia. rewrite rep_succ by lia. reflexivity.
Qed.

Lemma j_a_starts q neg b : 0 <= b < inf_bits -> a_starts (j_a q neg b).
Proof.
  intros Hb. left. unfold j_a. destruct (a_body_starts q b Hb) as (d & r & -> & Hd). unfold pad_number, justify.
  pose proof (sign_short q neg) as Hs. destruct (q_zero q && negb (q_left q)).
  - exists 0, (sign_text q neg), (ch "x"). rewrite <- app_assoc. destruct (zeros_cases (q_width q - zlen (sign_text q neg ++ txt "0x") - zlen (d :: r))) as [-> |(m & ->)].
    + exists d, r. split; [reflexivity|auto].
    + exists 48, (zeros m ++ d :: r). split; [reflexivity|]. split; [exact Hs|left; reflexivity].
  - destruct (q_left q).
    + eexists 0, (sign_text q neg), (ch "x"), d, _. rewrite <- !app_assoc. split; [reflexivity|auto].
    + eexists _, (sign_text q neg), (ch "x"), d, r. rewrite <- !app_assoc. split; [reflexivity|auto].
Qed.

Lemma no_x_justify q t : forallb (fun c => negb (c =? ch "x") && negb (c =? ch "X")) t = true ->
  forallb (fun c => negb (c =? ch "x") && negb (c =? ch "X")) (justify q t) = true.
Proof.
  intros H. unfold justify. assert (S : forall n, forallb (fun c => negb (c =? ch "x") && negb (c =? ch "X")) (spaces n) = true).
  { intros n. unfold spaces, rep. induction (Z.to_nat n); [reflexivity|]. cbn [repeat forallb]. exact IHn0. }
  destruct (q_left q); rewrite forallb_app, H, S; reflexivity.
Qed.

Lemma no_x_starts t : forallb (fun c => negb (c =? ch "x") && negb (c =? ch "X")) t = true -> a_starts t.
Proof. intros H. right. rewrite forallb_forall in H. split; intros Hi; apply H in Hi; discriminate. Qed.

Lemma a_starts_case s t : a_starts t -> a_starts (in_case s t).
Proof.
  unfold in_case. destruct (is_upper s); [|auto]. intros [(n & sg & x & d & r & -> & Hl & Hd)|[H1 H2]].
  - left. exists n, (map ascii_upper sg), (ascii_upper x), d, (map ascii_upper r). split.
    + rewrite !map_app, spaces_upper. cbn [map]. repeat f_equal. destruct Hd as [<-|[<-|[]]]; reflexivity.
    + split; [unfold zlen in *; rewrite map_length; exact Hl|exact Hd].
  - right. split; intros Hi; apply in_map_iff in Hi as (c & Hc & Hi); unfold ascii_upper in Hc; destruct ((97 <=? c) && (c <=? 122)) eqn:E.
    + apply andb_prop in E as [E1 E2]. apply Z.leb_le in E1, E2. change (ch "x") with 120 in *. lia.
    + subst c. contradiction.
    + change (ch "X") with 88 in Hc. assert (c = ch "x") as -> by (change (ch "x") with 120; lia). contradiction.
    + subst c. contradiction.
Qed.

Lemma shown_a_starts J s pat q x o : shown J s pat q x o -> hex_conv s = true -> forall t, o = Ok t -> a_starts t.
Proof.
  intros H Hs t E. destruct s; try discriminate Hs;
    destruct H; try discriminate; try (destruct H; discriminate); injection E as <-; apply a_starts_case.
  all: try (apply no_x_starts, no_x_justify; destruct (b <? 0), (q_plus q); reflexivity).
  all: try (apply no_x_starts, no_x_justify; reflexivity).
  all: apply j_a_starts; unfold finite, magnitude in *; split; [apply Z.mod_pos_bound; reflexivity|assumption].
Qed.

Theorem C87_hexadecimal_digits : forall J dtf src s c args t, jdk_ok J -> Forall (argument J) args -> hex_conv s = true ->
  compile dtf src = Ok [Default s c] -> ImplM.format J [Default s c] args = Ok t -> a_starts t.
Proof.
  intros J dtf src s c args t HJ Ha Hs Hc E. destruct (single_shown J dtf src s c args t HJ Ha Hc E) as (pat & q & x & S).
  exact (shown_a_starts J s pat q x _ S Hs t eq_refl).
Qed.
Print Assumptions C87_hexadecimal_digits.

Lemma c_digit L R x c : L = ch "-" :: ch "0" :: x :: c :: R -> In x [ch "x"; ch "X"] -> ~ In c [ch "0"; ch "1"] -> ~ a_starts L.
Proof.
  intros EL Hx Hc [(n & sg & x' & d & r & E & Hl & Hd)|[H1 H2]].
  - rewrite EL in E. destruct (spaces n) as [|c0 l] eqn:Es.
    + destruct sg as [|c1 [|c2 sg]]; [discriminate| |unfold zlen in Hl; cbn [List.length] in Hl; lia].
      cbn [app] in E. injection E as _ _ E _. subst d. contradiction.
    + cbn [app] in E. injection E as E _. assert (Hi : In c0 (spaces n)) by (rewrite Es; left; reflexivity). apply repeat_spec in Hi.
      subst c0. discriminate.
  - subst L. cbn [In] in *. intuition congruence.
Qed.

(** so the example of README.md for %a and %A is never printed *)
Theorem C87_hexadecimal_example_refuted : forall J dtf src s c args, jdk_ok J -> Forall (argument J) args -> hex_conv s = true ->
  compile dtf src = Ok [Default s c] ->
  ImplM.format J [Default s c] args <> Ok (txt "-0xc.90fep-2") /\ ImplM.format J [Default s c] args <> Ok (txt "-0XC.90FEP-2").
Proof.
  intros J dtf src s c args HJ Ha Hs Hc.
  split; intros E; apply (C87_hexadecimal_digits J dtf src s c args _ HJ Ha Hs Hc) in E; revert E; eapply c_digit;
    try reflexivity; vm_compute; intuition congruence.
Qed.
Print Assumptions C87_hexadecimal_example_refuted.

(** ** "No Argument Indexing" *)

Theorem C87_no_argument_index : forall dtf d ds r, d <> ch "0" -> Forall GrammarSpec.is_dec (d :: ds) -> GrammarSpec.dec_value (d :: ds) <= int_max ->
  compile dtf (pct :: (d :: ds) ++ ch "$" :: r) = Err (Syntax BadSpecifier (zlen (d :: ds) + 1)).
Proof.
  intros dtf d ds r Hd F V. apply compile_malformed. exists [], [], ((d :: ds) ++ ch "$" :: r). eexists. split; [reflexivity|]. split; [constructor|].
  split.
  - apply (slip_conv dtf (d :: ds) noFlags (GrammarSpec.dec_value (d :: ds)) UNSET (d :: ds) []).
    + exists []. split; [split; [constructor|]; split; [intros ? []|reflexivity]|]. split; [constructor; assumption|]. split; [constructor|].
      rewrite app_nil_r. reflexivity.
    + intros [(_ & E & _)|[(_ & _ & E)|[(_ & E)|[(E & _)|(E & _)]]]]; try discriminate; try congruence. vm_compute in E. intuition congruence.
    + intros s H. remember (ch "$") as c eqn:Ec. destruct H as [|s]; [discriminate|]. destruct s; discriminate.
  - cbn [shifted]. f_equal. change (zlen (@nil Z)) with 0. lia.
Qed.
Print Assumptions C87_no_argument_index.

(** ** The remaining rows of the table *)

Definition dt : temporal := TZoned 0.
Definition J3 : jdk := mkJdk (fun _ => []) (fun _ => []) (fun _ => None) (fun f t => Ok (txt "2023-12-31T23:59:59+01:00")) (fun i => Ok (TZoned 7))
  (fun _ => None) (fun _ => []) (fun _ => []) (fun c => if (48 <=? c) && (c <=? 57) then Some (c - 48) else None).
Definition row (src t : list Z) (v : value) (r : refslot) : Prop := exists ds, forall dtf, compile dtf src = Ok ds /\ ImplM.format J3 ds [traitsOf J3 v r] = Ok t.

Example C87_example :
  row (txt "%d") (txt "392") (VInt 392) RPrimitive /\ row (txt "%i") (txt "392") (VInt 392) RPrimitive /\
  row (txt "%u") (txt "7235") (VInt 7235) RPrimitive /\ row (txt "%o") (txt "610") (VInt 392) RPrimitive /\
  row (txt "%x") (txt "7fa") (VInt 2042) RPrimitive /\ row (txt "%X") (txt "7FA") (VInt 2042) RPrimitive /\
  row (txt "%.2f") (txt "392.65") (VDouble 4645615188041950822) RPrimitive /\ row (txt "%.2F") (txt "392.65") (VDouble 4645615188041950822) RPrimitive /\
  row (txt "%.4e") (txt "3.9265e+02") (VDouble 4645615188041950822) RPrimitive /\ row (txt "%.4E") (txt "3.9265E+02") (VDouble 4645615188041950822) RPrimitive /\
  row (txt "%g") (txt "392.65") (VDouble 4645615188041950822) RPrimitive /\ row (txt "%G") (txt "392.65") (VDouble 4645615188041950822) RPrimitive /\
  row (txt "%a") (txt "-0x1.921fcp+1") (VDouble (-4609115377421516800)) RPrimitive /\ row (txt "%A") (txt "-0X1.921FCP+1") (VDouble (-4609115377421516800)) RPrimitive /\
  row (txt "%c") (txt "a") (VChar (ch "a")) RPrimitive /\ row (txt "%s") (txt "sample") (VStr (txt "sample")) RNull /\
  row (txt "%S") (txt "SAMPLE") (VStr (txt "sample")) RNull /\ row (txt "%t") (txt "2023-12-31T23:59:59+01:00") (VTemporal dt) RNull /\
  row (txt "%p") (txt "java.lang.Integer@707f7052") (VInt 0) (RObj (txt "java.lang.Integer") 1887400018) /\
  row (txt "%n") [] (VInt 0) RPrimitive /\ row (txt "%%") (txt "%") (VInt 0) RPrimitive.
Proof. repeat apply conj; (eexists; intros dtf; split; [reflexivity|vm_compute; reflexivity]). Qed.

(** the calls in the documentation of FastPrintf (FastPrintf.java:32-37) and Args (Args.java:29-33) *)
Example C87_javadoc_example :
  (exists ds, forall dtf, compile dtf (txt "User: %s, ID: %#08X, Score: %.2f") = Ok ds /\
    ImplM.format J3 ds [traitsOf J3 (VStr (txt "test-user")) RNull; traitsOf J3 (VInt 255) RNull; traitsOf J3 (VDouble 4636638775112787558) RNull] =
      Ok (txt "User: test-user, ID: 0X0000FF, Score: 98.60")) /\
  (exists ds, forall dtf, compile dtf (txt "ID: %d, Name: %s") = Ok ds /\
    ImplM.format J3 ds [traitsOf J3 (VInt 123) RNull; traitsOf J3 (VStr (txt "test")) RNull] = Ok (txt "ID: 123, Name: test")).
Proof. split; (eexists; intros dtf; split; [reflexivity|vm_compute; reflexivity]). Qed.

(** %g is not always the shorter of %e and %f, not even with their trailing zeros removed *)
Theorem C87_shortest_refuted : exists v, row (txt "%g") (txt "100000") v RPrimitive /\ row (txt "%.0e") (txt "1e+05") v RPrimitive.
Proof. exists (VDouble 4681608360884174848). split; (eexists; intros dtf; split; [reflexivity|vm_compute; reflexivity]). Qed.
Print Assumptions C87_shortest_refuted.
