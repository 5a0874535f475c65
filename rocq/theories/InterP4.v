(** C104: from texts to calls. *)
From Coq Require Import QArith.
From Verif Require ScaleP DoubleP FPDecP.
From Verif Require Import BigDecM.
From Verif Require Import Base Digits SeqM SeqSpec ContextM CompilerM GrammarSpec CompilerP2 FormatterM TraitsM ImplM FmtSpec FmtP DecSpec FloatSpec BigSpec DirSpec ExactSpec ScaleSpec ValueSpec WholeSpec
  PropsValue ErrP LoopP PropsErr WholeP CharP ScanP3 FlagP PropsFlag PropsSame InterSpec InterP InterP2 InterP3 InterE InterA.
Open Scope Z_scope.

(** ** The same texts *)
Record agree (s : spec) (q q' : fspec) : Prop := mkAgree {
  ag_d : s = Sd -> forall z, j_d q z = j_d q' z;
  ag_u : unsigned_conv s = true -> forall n, 0 <= n -> utext s q n = utext s q' n;
  ag_c : s = Sc -> forall c, justify q [c] = justify q' [c];
  ag_p : s = Sp -> forall t, 3 <= zlen t -> justify q t = justify q' t;
  ag_s : text_conv s = true -> forall t, c_s q t = c_s q' t;
  ag_seq : text_conv s = true -> forall t ts, seq_text q t ts = seq_text q' t ts;
  ag_prec : fixed_conv s || exp_conv s = true -> prec_or 6 q = prec_or 6 q';
  ag_f : fixed_conv s = true -> forall neg f e, 0 <= f -> c_f q neg f e = c_f q' neg f e;
  ag_b : fixed_conv s = true -> forall u sc, b_f q u sc = b_f q' u sc;
  ag_e : exp_conv s = true -> forall neg f e, 0 <= f < 10 ^ 17 -> -325 <= e <= 292 -> c_e q neg f e = c_e q' neg f e;
  ag_be : exp_conv s = true -> forall neg f e, 0 <= f -> - 2147483647 <= e -> last_exp f e (prec_or 6 q + 1) <= 2147483648 -> b_e q neg f e = b_e q' neg f e;
  ag_a : hex_conv s = true -> forall neg b, 0 <= b < inf_bits -> j_a q neg b = j_a q' neg b;
  ag_inf : fixed_conv s || exp_conv s || hex_conv s = true -> forall neg, j_inf q neg = j_inf q' neg;
  ag_nan : fixed_conv s || exp_conv s || hex_conv s = true -> c_nan q = c_nan q' }.

Lemma agree_sym s q q' : agree s q q' -> agree s q' q.
Proof. intros A. pose proof (ag_prec _ _ _ A) as P. destruct A. constructor; intros; symmetry; auto. apply ag_be0; try assumption. rewrite P by (apply orb_true_iff; right; assumption). assumption. Qed.
Lemma agree_trans s q1 q2 q3 : agree s q1 q2 -> agree s q2 q3 -> agree s q1 q3.
Proof.
  intros A B. constructor; intros.
  - rewrite (ag_d _ _ _ A) by assumption. apply (ag_d _ _ _ B); assumption.
  - rewrite (ag_u _ _ _ A) by assumption. apply (ag_u _ _ _ B); assumption.
  - rewrite (ag_c _ _ _ A) by assumption. apply (ag_c _ _ _ B); assumption.
  - rewrite (ag_p _ _ _ A) by assumption. apply (ag_p _ _ _ B); assumption.
  - rewrite (ag_s _ _ _ A) by assumption. apply (ag_s _ _ _ B); assumption.
  - rewrite (ag_seq _ _ _ A) by assumption. apply (ag_seq _ _ _ B); assumption.
  - rewrite (ag_prec _ _ _ A) by assumption. apply (ag_prec _ _ _ B); assumption.
  - rewrite (ag_f _ _ _ A) by assumption. apply (ag_f _ _ _ B); assumption.
  - rewrite (ag_b _ _ _ A) by assumption. apply (ag_b _ _ _ B); assumption.
  - rewrite (ag_e _ _ _ A) by assumption. apply (ag_e _ _ _ B); assumption.
  - rewrite (ag_be _ _ _ A) by assumption. apply (ag_be _ _ _ B); try assumption. rewrite <- (ag_prec _ _ _ A) by (apply orb_true_iff; right; assumption). assumption.
  - rewrite (ag_a _ _ _ A) by assumption. apply (ag_a _ _ _ B); assumption.
  - rewrite (ag_inf _ _ _ A) by assumption. apply (ag_inf _ _ _ B); assumption.
  - rewrite (ag_nan _ _ _ A) by assumption. apply (ag_nan _ _ _ B); assumption.
Qed.

Lemma agree_plainest s q : covered s = true -> prec_fine q -> 0 <= q_width q -> prec_or 6 q <= 65536 -> agree s q (plainest s q).
Proof.
  intros Hc Hp Hw Hpb.
  assert (F : fixed_conv s = true -> plainest s q = plainest_f q) by (destruct s; try discriminate; reflexivity).
  assert (X : exp_conv s = true -> plainest s q = plainest_e q) by (destruct s; try discriminate; reflexivity).
  assert (HX : hex_conv s = true -> plainest s q = plainest_a q) by (destruct s; try discriminate; reflexivity).
  constructor; intros.
  - subst s. symmetry. apply plainest_d_same, Hp.
  - symmetry. replace (plainest s q) with (plainest_u s q) by (destruct s; try discriminate; reflexivity). apply plainest_u_same; assumption.
  - subst s. symmetry. apply plainest_c_same.
  - subst s. symmetry. apply plainest_p_same. assumption.
  - symmetry. apply plainest_s_same; assumption.
  - symmetry. apply plainest_s_seq; assumption.
  - apply orb_true_iff in H as [H|H]; [rewrite F by assumption|rewrite X by assumption]; reflexivity.
  - rewrite F by assumption. unfold c_f. symmetry. unfold f_body. cbv zeta. rewrite plainest_f_prec. set (N := hup f _). assert (0 <= N) by (apply CharP.hup_nonneg; assumption).
    pose proof (plainest_f_body q N) as B. unfold body_of in B. rewrite plainest_f_prec in B. rewrite B. apply plainest_f_finite; [exact Hp|]. apply (body_least q N Hp). assumption.
  - rewrite F by assumption. unfold b_f. symmetry. cbv zeta. rewrite plainest_f_prec. set (N := hup (Z.abs u) _). assert (0 <= N) by (apply CharP.hup_nonneg; lia).
    pose proof (plainest_f_body q N) as B. unfold body_of in B. rewrite plainest_f_prec in B. rewrite B. apply plainest_f_finite; [exact Hp|]. rewrite zlen_app.
    pose proof (zlen_nonneg (if u =? 0 then zeros (- sc) else [])). pose proof (body_least q N Hp ltac:(assumption)) as L. unfold body_of in L. lia.
  - rewrite X by assumption. unfold c_e. assert (B : e_body (plainest_e q) f e = e_body q f e).
    { unfold e_body. cbv zeta. rewrite plainest_e_prec. destruct (sig0 f e _) as [S Y]. f_equal. pose proof (plainest_e_body q S) as B. unfold body_of in B. rewrite plainest_e_prec in B. exact B. }
    rewrite B. symmetry. apply plainest_e_finite; [exact Hp|]. apply exp_body_len; assumption.
  - rewrite X by assumption. unfold b_e. assert (B : be_body (plainest_e q) f e = be_body q f e).
    { unfold be_body. cbv zeta. rewrite plainest_e_prec. assert (E : forall S, (if q_alt (plainest_e q) then alt_text S (prec_or 6 q) else decimal_text S (prec_or 6 q)) = (if q_alt q then alt_text S (prec_or 6 q) else decimal_text S (prec_or 6 q))).
      { intros S. pose proof (plainest_e_body q S) as B. unfold body_of in B. rewrite plainest_e_prec in B. exact B. }
      rewrite E. destruct (FloatSpec.sig f e _) as [S Y]. rewrite E. reflexivity. }
    rewrite B. symmetry. apply plainest_e_finite; [exact Hp|]. apply big_body_len; assumption.
  - rewrite HX by assumption. symmetry. apply plainest_a_same; assumption.
  - unfold j_inf. apply orb_true_iff in H as [H|H]; [apply orb_true_iff in H as [H|H]|].
    + rewrite F by assumption. change (q_plus (plainest_f q)) with (q_plus q). symmetry. apply plainest_f_field; destruct neg, (q_plus q); cbn; lia.
    + rewrite X by assumption. change (q_plus (plainest_e q)) with (q_plus q). symmetry. apply plainest_e_field; destruct neg, (q_plus q); cbn; lia.
    + rewrite HX by assumption. change (q_plus (plainest_a q)) with (q_plus q). symmetry. apply plainest_a_field; destruct neg, (q_plus q); cbn; lia.
  - unfold c_nan. symmetry. apply orb_true_iff in H as [H|H]; [apply orb_true_iff in H as [H|H]; [rewrite F by assumption; apply plainest_f_field; cbn; lia|rewrite X by assumption; apply plainest_e_field; cbn; lia]|].
    rewrite HX by assumption. apply plainest_a_field; cbn; lia.
Qed.

Lemma digits_bounds b f e : its_digits b f e -> 0 <= f < 10 ^ 17 /\ -325 <= e <= 292.
Proof. intros H. apply ScaleP.digits_printed in H. destruct H as [(_ & -> & ->)|[_ D]]; [lia|]. pose proof (DoubleP.do_f _ _ _ D). pose proof (DoubleP.do_e _ _ _ D). lia. Qed.
Lemma unsigned_nonneg' J v n : is_unsigned J v n -> 0 <= n.
Proof. apply unsigned_nonneg. Qed.

Lemma pointer_least name hash : ref_ok (RObj name hash) -> 3 <= zlen (pointer_text name hash).
Proof.
  intros [Hn _]. unfold pointer_text. rewrite !zlen_app. change (zlen (txt "@")) with 1. pose proof (Z.mod_pos_bound hash (2 ^ 32) ltac:(lia)) as B.
  pose proof (zlen_nonneg (numeral 16 (hash mod 2 ^ 32))). destruct (numeral 16 (hash mod 2 ^ 32)) as [|c r] eqn:E; [|rewrite zlen_cons in *; pose proof (zlen_nonneg r); lia].
  exfalso. destruct (Z.eq_dec (hash mod 2 ^ 32) 0) as [Ez|Nz]; [rewrite Ez, numeral_zero in E by lia; discriminate|].
  destruct (numeral_first 16 (hash mod 2 ^ 32) ltac:(lia) ltac:(lia)) as (x & y & E' & _). congruence.
Qed.

Lemma shown_agree J s d q q' x o : covered s = true -> agree s q q' -> shown J s d q x o -> shown J s d q' x o.
Proof.
  intros Hc H S. destruct S.
  - rewrite (ag_d _ _ _ H) by assumption. constructor; assumption.
  - pose proof (ag_u s q q' H) as U. subst s. cbn in U. rewrite U by (reflexivity || (eapply unsigned_nonneg; eassumption)). constructor; [reflexivity|assumption].
  - assert (E : j_x q n = j_x q' n).
    { pose proof (ag_u s q q' H) as U. destruct H0; subst s; cbn in U; apply U; reflexivity || (eapply unsigned_nonneg; eassumption). }
    rewrite E. constructor; assumption.
  - pose proof (ag_u s q q' H) as U. subst s. cbn in U. rewrite U by (reflexivity || (eapply unsigned_nonneg; eassumption)). constructor; [reflexivity|assumption].
  - eapply sh_negative; eassumption.
  - eapply sh_not_integer; eassumption.
  - rewrite (ag_c _ _ _ H) by assumption. constructor; assumption.
  - apply sh_not_char; assumption.
  - apply sh_char_fails; assumption.
  - rewrite (ag_s _ _ _ H) by assumption. apply sh_text; assumption.
  - rewrite (ag_seq _ _ _ H) by assumption. apply sh_seq; assumption.
  - eapply sh_no_text; eassumption.
  - rewrite (ag_f _ _ _ H) by (assumption || (eapply its_digits_nonneg; eassumption)). apply sh_fixed; assumption.
  - match goal with D : its_digits _ _ _ |- _ => destruct (digits_bounds _ _ _ D) end. rewrite (ag_e _ _ _ H) by assumption. apply sh_exp; assumption.
  - destruct s; discriminate.
  - rewrite (ag_a _ _ _ H) by (assumption || (split; [unfold magnitude; apply Z.mod_pos_bound; lia|assumption])). apply sh_hexfloat; assumption.
  - assert (Fx : fixed_conv s || exp_conv s || hex_conv s = true) by (destruct s; try discriminate; reflexivity). rewrite (ag_inf _ _ _ H) by assumption. apply sh_infinite; assumption.
  - assert (Fx : fixed_conv s || exp_conv s || hex_conv s = true) by (destruct s; try discriminate; reflexivity). rewrite (ag_nan _ _ _ H) by assumption. apply sh_nan; assumption.
  - rewrite (ag_b _ _ _ H) by assumption. apply sh_big_fixed; try assumption. rewrite <- (ag_prec _ _ _ H) by (apply orb_true_iff; left; assumption). assumption.
  - eapply sh_big_tiny; try eassumption. rewrite <- (ag_prec _ _ _ H) by (apply orb_true_iff; left; assumption). assumption.
  - assert (Bd : - 2147483647 <= - sc) by (match goal with D : is_decimal _ _ _ |- _ => destruct D as [? ? [_ D]|? [_ D]]; lia end).
    rewrite (ag_be _ _ _ H) by (assumption || lia). apply sh_big_exp; try assumption. rewrite <- (ag_prec _ _ _ H) by (apply orb_true_iff; right; assumption). assumption.
  - eapply sh_big_exp_huge; try eassumption. rewrite <- (ag_prec _ _ _ H) by (apply orb_true_iff; right; assumption). assumption.
  - destruct s; discriminate.
  - destruct s; discriminate.
  - eapply sh_big_hex; eassumption.
  - apply sh_not_float; assumption.
  - apply sh_float_fails; assumption.
  - destruct s; discriminate.
  - destruct s; discriminate.
  - destruct s; discriminate.
  - rewrite (ag_p _ _ _ H) by (assumption || (apply pointer_least; assumption)). apply sh_pointer; assumption.
  - rewrite (ag_p _ _ _ H) by (assumption || (cbn; lia)). apply sh_no_pointer; assumption.
  - apply sh_primitive; assumption.
  - rewrite (ag_s _ _ _ H) by assumption. apply sh_null_text; assumption.
  - rewrite (ag_p _ _ _ H) by (assumption || (cbn; lia)). apply sh_null_pointer; assumption.
  - apply sh_null; assumption.
  - apply sh_nothing; assumption.
  - apply sh_percent; assumption.
Qed.

(** ** In place *)
Definition numbered (w : Z) : Prop := w = UNSET \/ 0 <= w.
Lemma width_numbered J l w args o : numbered w -> (width_is J l w args o <-> o = Ok (l, if w =? UNSET then 0 else w, args)).
Proof.
  intros Hw. split.
  - intros H. destruct H; try (exfalso; unfold numbered, UNSET, PRECEDING, int_min in Hw; lia); [reflexivity|]. destruct (Z.eqb_spec n UNSET) as [E|]; [unfold UNSET in E; lia|reflexivity].
  - intros ->. destruct Hw as [-> |Hw]; [constructor|]. destruct (Z.eqb_spec w UNSET) as [E|]; [unfold UNSET in E; lia|]. constructor. exact Hw.
Qed.
Lemma prec_numbered J p args o : numbered p -> (prec_is J p args o <-> o = Ok (if p =? UNSET then None else Some p, args)).
Proof.
  intros Hw. split.
  - intros H. destruct H; try (exfalso; unfold numbered, UNSET, PRECEDING, int_min in Hw; lia); [reflexivity|]. destruct (Z.eqb_spec n UNSET) as [E|]; [unfold UNSET in E; lia|reflexivity].
  - intros ->. destruct Hw as [-> |Hw]; [constructor|]. destruct (Z.eqb_spec p UNSET) as [E|]; [unfold UNSET in E; lia|]. constructor. exact Hw.
Qed.
Definition read_spec (fl : flags) (w p : Z) : fspec := mkSpec (f_left fl) (f_alt fl) (f_plus fl) (f_space fl) (f_zero fl) (if w =? UNSET then 0 else w) (if p =? UNSET then None else Some p).

Lemma agree_stands_for s fl w p fl' w' p' d : covered s = true -> numbered w -> numbered p -> numbered w' -> numbered p' ->
  agree s (read_spec fl w p) (read_spec fl' w' p') -> stands_for (Default s (mkCtx fl w p d)) (Default s (mkCtx fl' w' p' d)).
Proof.
  intros Hc Hw Hp Hw' Hp' H J args o P.
  assert (A : forall args, width_is J (f_left fl') w' args (Ok (f_left fl', if w' =? UNSET then 0 else w', args))) by (intros a; apply width_numbered; [exact Hw'|reflexivity]).
  assert (B : forall args, prec_is J p' args (Ok (if p' =? UNSET then None else Some p', args))) by (intros a; apply prec_numbered; [exact Hp'|reflexivity]).
  inversion P; subst; match goal with X : width_is _ _ _ _ _ |- _ => apply width_numbered in X; [|exact Hw]; try discriminate X end;
    match goal with X : prec_is _ _ _ _ |- _ => apply prec_numbered in X; [|exact Hp]; try discriminate X end;
    match goal with X : Ok _ = Ok (_, _, _) |- _ => injection X as -> -> -> end; match goal with X : Ok (_, _) = Ok (_, _) |- _ => injection X as -> Ea end.
  - rewrite <- Ea. eapply pc_missing; [apply A|apply B].
  - rewrite <- Ea. eapply pc_refused; [apply A|apply B|]. apply (shown_agree J s d (read_spec fl w p)); assumption.
  - rewrite <- Ea. eapply pc_shown; [apply A|apply B|]. apply (shown_agree J s d (read_spec fl w p)); assumption.
Qed.

Lemma width_text_numbered W w : width_text W w -> w <> PRECEDING -> numbered w.
Proof. intros H N. destruct H; [left; reflexivity|tauto|]. right. apply CompilerP.dec_value_nonneg. assumption. Qed.
Lemma prec_text_numbered P p : prec_text P p -> p <> PRECEDING -> numbered p.
Proof. intros H N. destruct H; try tauto; try (left; reflexivity); right; try lia; apply CompilerP.dec_value_nonneg; assumption. Qed.

Lemma agree_calls J dtf a da r dr src s q src' q' args : jdk_ok J -> Forall (argument J) args -> GrammarSpec.format dtf a da -> GrammarSpec.format dtf r dr ->
  covered s = true -> directive src s q -> directive src' s q' -> agree s q q' -> same_calls J dtf (a ++ src ++ r) (a ++ src' ++ r) args.
Proof.
  intros HJ Hg Ha Hr Hc D D' H. destruct D as [F fl W w P p c s HF HW NW HP NP Hcc Hn].
  inversion D' as [F' fl' W' w' P' p' c' s' HF' HW' NW' HP' NP' Hcc' Hn' E1 E2 E3]; subst s' src' q'. clear D'.
  assert (N1 : s <> St) by (intros ->; discriminate). assert (N2 : s <> ST) by (intros ->; discriminate).
  pose proof (directive_in_place dtf a da F fl W w P p c s [] None r dr Ha HF HW HP Hcc (D_other dtf s r N1 N2) Hn Hr) as C1.
  pose proof (directive_in_place dtf a da F' fl' W' w' P' p' c' s [] None r dr Ha HF' HW' HP' Hcc' (D_other dtf s r N1 N2) Hn' Hr) as C2.
  assert (E1 : forall F W P c, (pct :: F ++ W ++ P ++ [c]) ++ r = pct :: F ++ W ++ P ++ c :: [] ++ r) by (intros; cbn [app]; rewrite <- !app_assoc; reflexivity).
  rewrite !E1. eexists. eexists. split; [exact C1|]. split; [exact C2|].
  eapply (swap J _ _ da _ _ dr args HJ Hg eq_refl eq_refl (compiled_sane _ _ _ C1) (compiled_sane _ _ _ C2)).
  apply agree_stands_for; try assumption; try (eapply width_text_numbered; eassumption); try (eapply prec_text_numbered; eassumption).
Qed.

(** ** Arguments that tell directives apart *)
Lemma same_calls_texts J src s q src' q' x t t' : jdk_ok J -> directive src s q -> directive src' s q' -> s <> St -> s <> ST ->
  same_calls J (fun _ => true) src src' [x] -> shown J s None q x (Ok t) -> shown J s None q' x (Ok t') -> t = t'.
Proof.
  intros HJ D D' N1 N2 (ds & ds' & E1 & E2 & _ & E3) H H'.
  destruct (shown_prints J src s q x t HJ D N1 N2 H (fun _ => true)) as (a & A1 & A2 & _).
  destruct (shown_prints J src' s q' x t' HJ D' N1 N2 H' (fun _ => true)) as (b & B1 & B2 & _).
  rewrite E1 in A1. rewrite E2 in B1. injection A1 as ->. injection B1 as ->. rewrite A2, B2 in E3. injection E3 as ->. reflexivity.
Qed.
Definition big (n : Z) : traits := traitsOf J2 (VBig n) RPrimitive.
Definition dec_arg (u sc : Z) : traits := traitsOf J2 (VDec (mkBD u sc)) RPrimitive.
Definition some_nan : traits := traitsOf J2 (VDouble 9221120237041090560) RPrimitive.
Definition a_double (b : Z) : traits := traitsOf J2 (VDouble b) RPrimitive.
(** an object of the class a with identity hash 0 *)
Definition an_object : traits := traitsOf J2 (VInt 0) (RObj (txt "a") 0).
(** a few arguments that are enough to tell two directives apart *)
Definition probes (s : spec) (q q' : fspec) : list traits :=
  match s with
  | Sd => [big 0; big 1; big (-1); big (d_probe (plainest_d q) (plainest_d q'))]
  | Su | So | Sx | SX => [big 0; big 1; big (base s ^ (q_width q + q_width q' + zero_digits s q + zero_digits s q'))]
  | Sc => [traitsOf J2 (VChar 48) RPrimitive]
  | Sp => [an_object]
  | Ss | SS => map (fun n => traitsOf J2 (VStr (zeros n)) RPrimitive) [0; 1; s_probe q q']
  | Sf | SF => [some_nan; big 0; big (10 ^ f_probe q q')]
  | Se | SE => [some_nan; dec_arg 0 0; dec_arg 0 2147483647; dec_arg (10 ^ 9) 0; dec_arg (ones (e_probe q q')) (Z.of_nat (e_probe q q') - 1)]
  | Sa | SA => [some_nan; a_double 0; a_double 1; a_double hex_ones]
  | _ => []
  end.
Definition tells (L : list traits) (s : spec) (q q' : fspec) : Prop := forall x t t', In x L -> shown J2 s None q x (Ok t) -> shown J2 s None q' x (Ok t') -> t = t'.

Lemma upper_alike s t u : in_case s t = in_case s u -> alike t u.
Proof. apply (alike_upper (is_upper s)). Qed.

Lemma big_fits n : Z.log2 (Z.abs n) < 2147483647 -> argument J2 (traitsOf J2 (VBig n) RPrimitive).
Proof. intros H. apply arg_value; [exact H|exact I|exact I]. Qed.
Lemma tells_u L s q q' n : In (big n) L -> unsigned_conv s = true -> 0 <= n -> Z.log2 n < 2147483647 -> tells L s q q' -> alike (utext s q n) (utext s q' n).
Proof.
  intros Hi Hs Hn Hl H. assert (Hl' : Z.log2 (Z.abs n) < 2147483647) by (rewrite Z.abs_eq by exact Hn; exact Hl).
  assert (U : is_unsigned J2 (VBig n) n) by (exists None, n; split; [constructor; exact Hl'|split; [exact Hn|reflexivity]]).
  assert (S : forall q, shown J2 s None q (traitsOf J2 (VBig n) RPrimitive) (Ok (in_case s (utext s q n)))).
  { intros r. destruct s; try discriminate; [apply sh_unsigned|apply sh_octal|apply sh_hex|apply sh_hex]; auto. }
  apply (upper_alike s). apply (H _ _ _ Hi (S q) (S q')).
Qed.
Lemma tells_d L q q' z : In (big z) L -> Z.log2 (Z.abs z) < 2147483647 -> tells L Sd q q' -> j_d q z = j_d q' z.
Proof.
  intros Hi Hl H. assert (S : forall q, shown J2 Sd None q (traitsOf J2 (VBig z) RPrimitive) (Ok (j_d q z))).
  { intros r. apply sh_signed; [reflexivity|]. exists None. constructor. exact Hl. }
  apply (H _ _ _ Hi (S q) (S q')).
Qed.
Lemma tells_c L q q' : In (traitsOf J2 (VChar 48) RPrimitive) L -> tells L Sc q q' -> justify q [48] = justify q' [48].
Proof.
  intros Hi H. assert (C : is_char J2 (VChar 48) 48) by (apply (ic_int J2 (VChar 48) 48); [intros t X; inversion X|discriminate|constructor; lia]). apply (H (traitsOf J2 (VChar 48) RPrimitive)).
  - exact Hi.
  - apply sh_char; [reflexivity|exact C].
  - apply sh_char; [reflexivity|exact C].
Qed.
Lemma object_shown q : shown J2 Sp None q an_object (Ok (justify q [97; 64; 48])).
Proof. apply (sh_pointer J2 Sp None q (VInt 0) (txt "a") 0); [reflexivity|]. vm_compute. split; discriminate. Qed.
Lemma tells_p L q q' : In an_object L -> tells L Sp q q' -> justify q [97; 64; 48] = justify q' [97; 64; 48].
Proof. intros Hi H. apply (H _ _ _ Hi); apply object_shown. Qed.
Lemma tells_s L s q q' t : In (traitsOf J2 (VStr t) RPrimitive) L -> text_conv s = true -> zlen t <= int_max -> tells L s q q' -> alike (c_s q t) (c_s q' t).
Proof.
  intros Hi Hs Ht H. apply (upper_alike s). apply (H (traitsOf J2 (VStr t) RPrimitive)).
  - exact Hi.
  - apply sh_text; [exact Hs|discriminate|constructor|exact Ht].
  - apply sh_text; [exact Hs|discriminate|constructor|exact Ht].
Qed.
Lemma tells_nan L s q q' : In some_nan L -> fixed_conv s = true -> tells L s q q' -> alike (justify q (txt "NaN")) (justify q' (txt "NaN")).
Proof.
  intros Hi Hs H. apply (upper_alike s). assert (N : is_nan J2 (VDouble 9221120237041090560)) by (apply in_double; vm_compute; split; congruence || reflexivity).
  assert (Fs : float_spec s = true) by (destruct s; try discriminate; reflexivity).
  apply (H (traitsOf J2 (VDouble 9221120237041090560) RPrimitive)).
  - exact Hi.
  - apply sh_nan; assumption.
  - apply sh_nan; assumption.
Qed.
Lemma tells_enan L s q q' : In some_nan L -> exp_conv s || hex_conv s = true -> tells L s q q' -> ealike (justify q (txt "NaN")) (justify q' (txt "NaN")).
Proof.
  intros Hi Hs H. apply (ealike_upper (is_upper s)). assert (N : is_nan J2 (VDouble 9221120237041090560)) by (apply in_double; vm_compute; split; congruence || reflexivity).
  assert (Fs : float_spec s = true) by (destruct s; try discriminate; reflexivity).
  apply (H (traitsOf J2 (VDouble 9221120237041090560) RPrimitive)).
  - exact Hi.
  - apply sh_nan; assumption.
  - apply sh_nan; assumption.
Qed.
Lemma hex_shown s q b : hex_conv s = true -> 0 <= b < inf_bits -> shown J2 s None q (a_double b) (Ok (in_case s (hex_field q false (a_body q b)))).
Proof.
  intros Hs Hb. assert (M : magnitude b = b) by (unfold magnitude; apply Z.mod_small; unfold inf_bits in Hb; lia).
  assert (F : finite b) by (unfold finite; rewrite M; lia). assert (D : is_double J2 (VDouble b) b) by (apply id_double; unfold in_range, inf_bits in *; lia).
  pose proof (sh_hexfloat J2 s None q (VDouble b) b RPrimitive Hs D F) as S. rewrite M in S. replace (b <? 0) with false in S by (symmetry; apply Z.ltb_ge; lia). exact S.
Qed.
Lemma tells_a L s q q' b : In (a_double b) L -> hex_conv s = true -> 0 <= b < inf_bits -> tells L s q q' ->
  in_case s (hex_field q false (a_body q b)) = in_case s (hex_field q' false (a_body q' b)).
Proof. intros Hi Hs Hb H. apply (H (a_double b)); [exact Hi|apply hex_shown; assumption|apply hex_shown; assumption]. Qed.
Lemma last_exp_bound f sc P : 0 <= f -> 1 <= P -> last_exp f (- sc) P <= ndigits f - sc.
Proof.
  intros Hf HP. unfold last_exp. destruct (Z.eqb_spec f 0) as [->|F]; [change (ndigits 0) with 1; lia|]. destruct (FloatSpec.sig f (- sc) P) as [S X] eqn:E.
  destruct (sig_digits_bounds f (- sc) P S X ltac:(lia) HP E) as [_ B]. unfold kept. destruct (FPDecP.ndigits_bounds f ltac:(lia)) as (N1 & _). lia.
Qed.
(** a BigDecimal that is an argument *)
Definition dec_fine (u sc : Z) : Prop := 0 <= u /\ java_decimal u sc /\ ndigits (Z.abs u) - sc < 2000000000.
Lemma dec_shown s q u sc : exp_conv s = true -> prec_fine q -> dec_fine u sc -> shown J2 s None q (dec_arg u sc) (Ok (in_case s (b_e q false u (- sc)))).
Proof.
  intros Hs Hp (Hu & Hd & Hr). pose proof (prec_or_nonneg q Hp).
  pose proof (sh_big_exp J2 s None q (VDec (mkBD u sc)) u sc RPrimitive Hs (is_dec u sc Hd)) as S. rewrite Z.abs_eq in * by exact Hu. replace (u <? 0) with false in S by (symmetry; apply Z.ltb_ge; exact Hu).
  apply S. pose proof (last_exp_bound u sc (prec_or 6 q + 1) Hu ltac:(lia)). lia.
Qed.
Lemma tells_e L s q q' u sc : In (dec_arg u sc) L -> exp_conv s = true -> prec_fine q -> prec_fine q' -> dec_fine u sc -> tells L s q q' ->
  ealike (finite_text q false (be_body q u (- sc))) (finite_text q' false (be_body q' u (- sc))).
Proof.
  intros Hi Hs Hp Hp' Hd H. apply (ealike_upper (is_upper s)). apply (H (dec_arg u sc)); [exact Hi|apply dec_shown; assumption|apply dec_shown; assumption].
Qed.
Lemma tells_f L s q q' n : In (big n) L -> fixed_conv s = true -> prec_fine q -> prec_fine q' -> 0 <= n -> Z.log2 n < 2147483647 -> tells L s q q' ->
  alike (finite_text q false (body_of q (n * 10 ^ prec_or 6 q))) (finite_text q' false (body_of q' (n * 10 ^ prec_or 6 q'))).
Proof.
  intros Hi Hs Hp Hp' Hn Hl H. assert (Hl' : Z.log2 (Z.abs n) < 2147483647) by (rewrite Z.abs_eq by exact Hn; exact Hl).
  assert (B : forall q, prec_fine q -> b_f q n 0 = finite_text q false (body_of q (n * 10 ^ prec_or 6 q))).
  { intros r Hr. pose proof (prec_or_nonneg r Hr). unfold b_f, body_of. cbv zeta. replace (n <? 0) with false by (symmetry; apply Z.ltb_ge; lia). change (zeros (- 0)) with (@nil Z).
    replace (if n =? 0 then [] else []) with (@nil Z) by (destruct (n =? 0); reflexivity). cbn [app].
    assert (E : hup (Z.abs n) (- (- 0 + prec_or 6 r)) = n * 10 ^ prec_or 6 r).
    { unfold hup. rewrite Z.abs_eq by exact Hn. destruct (Z.leb_spec (- (- 0 + prec_or 6 r)) 0); [|lia]. f_equal. f_equal. lia. }
    rewrite E. reflexivity. }
  rewrite <- !B by assumption. apply (upper_alike s). apply (H (traitsOf J2 (VBig n) RPrimitive)).
  - exact Hi.
  - apply sh_big_fixed; [exact Hs|exact I|constructor; split; [exact Hl'|lia]|]. right. pose proof (prec_or_nonneg q Hp). lia.
  - apply sh_big_fixed; [exact Hs|exact I|constructor; split; [exact Hl'|lia]|]. right. pose proof (prec_or_nonneg q' Hp'). lia.
Qed.

Lemma pow_log b k : 2 <= b <= 16 -> 0 <= k <= 536870911 -> Z.log2 (b ^ k) < 2147483647.
Proof.
  intros Hb Hk. apply Z.le_lt_trans with (Z.log2 (2 ^ (4 * k))).
  - apply Z.log2_le_mono. rewrite Z.pow_mul_r by lia. apply Z.pow_le_mono_l. lia.
  - rewrite Z.log2_pow2 by lia. lia.
Qed.
Lemma zero_fine sc : 0 <= sc <= 2147483647 -> dec_fine 0 sc.
Proof. intros H. split; [lia|]. split; [split; [reflexivity|lia]|]. change (ndigits (Z.abs 0)) with 1. lia. Qed.
Lemma nine_fine : dec_fine (10 ^ 9) 0.
Proof. split; [lia|]. split; [split; [reflexivity|lia]|]. reflexivity. Qed.
Lemma ones_fine k : Z.of_nat k < 1000000 -> dec_fine (ones (S k)) (Z.of_nat (S k) - 1).
Proof.
  intros H. pose proof (ones_bounds (S k)) as B. split; [lia|]. rewrite Z.abs_eq by lia. split; [|rewrite ones_ndigits; lia]. split; [|lia]. rewrite Z.abs_eq by lia.
  apply Z.le_lt_trans with (Z.log2 (10 ^ Z.of_nat (S k))); [apply Z.log2_le_mono; lia|apply pow_log; lia].
Qed.
Definition bounded (q : fspec) : Prop := 0 <= q_width q <= 65536 /\ match q_prec q with Some p => 0 <= p <= 65536 | None => True end.
Lemma bounded_fine q : bounded q -> prec_fine q /\ 0 <= q_width q.
Proof. unfold bounded, prec_fine. destruct (q_prec q); intuition lia. Qed.
Lemma zero_digits_small s q : bounded q -> zero_digits s q <= 131072.
Proof.
  intros [Hw Hp]. unfold zero_digits. pose proof (zlen_nonneg (prefix s q)) as L. rewrite prefix_len in L.
  destruct (q_prec q) as [p|]; [destruct (p =? 0); [lia|]; destruct (is_octal s && q_alt q); lia|]. destruct (q_zero q && negb (q_left q)); lia.
Qed.
Lemma plainest_d_small q : bounded q -> q_width (plainest_d q) <= 65536 /\ digits_asked (plainest_d q) <= 131072.
Proof.
  intros [Hw Hp]. assert (M : digits_asked q <= 65536) by (unfold digits_asked; destruct (q_prec q); lia).
  assert (A : forall m l a sp pl z w, digits_asked (mkSpec l a sp pl z w (at_least m)) = m) by (intros; unfold digits_asked, at_least; cbn [q_prec]; destruct (Z.eqb_spec m 1); lia).
  assert (W : forall S w, 0 <= w <= 65536 -> width_above S w <= 65536) by (intros S w H; unfold width_above; destruct (w <=? S); lia).
  unfold plainest_d. cbv zeta. destruct (zero_filled q).
  - destruct (_ || _); [rewrite A; cbn [q_width]; lia|]. destruct (_ <=? _); [cbn; lia|cbn; lia].
  - rewrite A. cbn [q_width]. split; [apply W; exact Hw|lia].
Qed.

Lemma plainest_tells s q q' : covered s = true -> bounded q -> bounded q' -> tells (probes s q q') s q q' -> plainest s q = plainest s q'.
Proof.
  intros Hc Hq Hq' H. destruct (bounded_fine q Hq) as [Hp Hw]. destruct (bounded_fine q' Hq') as [Hp' Hw'].
  destruct (unsigned_conv s) eqn:Hu.
  - replace (plainest s) with (plainest_u s) by (destruct s; try discriminate; reflexivity). apply plainest_u_unique; try assumption.
    pose proof (zero_digits_small s q Hq). pose proof (zero_digits_small s q' Hq'). pose proof (zero_digits_nonneg s q Hp). pose proof (zero_digits_nonneg s q' Hp').
    assert (E : probes s q q' = [big 0; big 1; big (base s ^ (q_width q + q_width q' + zero_digits s q + zero_digits s q'))]) by (destruct s; try discriminate; reflexivity). rewrite E in H. clear E.
    intros n [-> |[-> | ->]]; (eapply tells_u; [|exact Hu| | |exact H]); try lia; try reflexivity; try (cbn [In]; tauto).
    + apply Z.pow_nonneg. pose proof (base_fine s). lia.
    + apply pow_log; [apply base_fine|]. unfold bounded in *. lia.
  - destruct (fixed_conv s) eqn:Hf.
    + assert (E : probes s q q' = [some_nan; big 0; big (10 ^ f_probe q q')]) by (destruct s; try discriminate; reflexivity). rewrite E in H. clear E.
      replace (plainest s) with plainest_f by (destruct s; try discriminate; reflexivity). apply plainest_f_unique; try assumption.
      * eapply tells_nan; [|exact Hf|exact H]; cbn [In]; tauto.
      * eapply (tells_f _ s q q' 0); try eassumption; try lia; try reflexivity. cbn [In]. tauto.
      * cbv zeta. eapply (tells_f _ s); try eassumption; [cbn [In]; tauto|apply Z.pow_nonneg; lia|]. apply pow_log; [lia|]. unfold f_probe, bounded in *. lia.
    + destruct (text_conv s) eqn:Ht.
      * assert (E : probes s q q' = map (fun n => traitsOf J2 (VStr (zeros n)) RPrimitive) [0; 1; s_probe q q']) by (destruct s; try discriminate; reflexivity). rewrite E in H. clear E.
        apply plainest_s_unique; try assumption. intros n Hn. eapply (tells_s _ s); try eassumption.
        -- apply (in_map (fun n => traitsOf J2 (VStr (zeros n)) RPrimitive)). cbn [In]. intuition.
        -- rewrite zeros_len. unfold bounded, s_probe, int_max in *. destruct (q_prec q), (q_prec q'); lia.
      * destruct (exp_conv s) eqn:He.
        { assert (E : probes s q q' = [some_nan; dec_arg 0 0; dec_arg 0 2147483647; dec_arg (10 ^ 9) 0; dec_arg (ones (e_probe q q')) (Z.of_nat (e_probe q q') - 1)]) by (destruct s; try discriminate; reflexivity).
          rewrite E in H. clear E. replace (plainest s) with plainest_e by (destruct s; try discriminate; reflexivity). apply plainest_e_unique; try assumption.
          - eapply tells_enan; [|rewrite He; reflexivity|exact H]. left. reflexivity.
          - intros x [-> | ->]; [change 0 with (- 0) at 2 4; eapply (tells_e _ s q q' 0 0); [|exact He|exact Hp|exact Hp'|apply zero_fine; lia|exact H]; right; left; reflexivity|].
            eapply (tells_e _ s q q' 0 2147483647); [|exact He|exact Hp|exact Hp'|apply zero_fine; lia|exact H]; right; right; left; reflexivity.
          - eapply (tells_e _ s q q' (10 ^ 9) 0); [|exact He|exact Hp|exact Hp'|exact nine_fine|exact H]; right; right; right; left; reflexivity.
          - cbv zeta. replace (1 - Z.of_nat (e_probe q q')) with (- (Z.of_nat (e_probe q q') - 1)) by lia.
            eapply (tells_e _ s q q'); [|exact He|exact Hp|exact Hp'| |exact H]; [right; right; right; right; left; reflexivity|]. unfold e_probe. apply ones_fine.
            unfold bounded, prec_or in *. destruct (q_prec q), (q_prec q'); lia. }
        destruct (hex_conv s) eqn:Ha.
        { assert (E : probes s q q' = [some_nan; a_double 0; a_double 1; a_double hex_ones]) by (destruct s; try discriminate; reflexivity).
          rewrite E in H. clear E. replace (plainest s) with plainest_a by (destruct s; try discriminate; reflexivity).
          assert (T : forall b, b = 0 \/ b = 1 \/ b = hex_ones -> in_case s (hex_field q false (a_body q b)) = in_case s (hex_field q' false (a_body q' b))).
          { intros b Hb. eapply tells_a; [|exact Ha| |exact H]; [cbn [In]; destruct Hb as [-> |[-> | ->]]; tauto|]. unfold inf_bits, hex_ones in *. lia. }
          apply plainest_a_unique; try assumption.
          - eapply tells_enan; [|rewrite He, Ha; reflexivity|exact H]. left. reflexivity.
          - intros b Hb. apply (ealike_upper (is_upper s)). apply T. tauto.
          - intros b Hb. apply (tail_upper (is_upper s)). apply T. tauto. }
        destruct s; try discriminate; try reflexivity.
        -- cbn [plainest]. destruct (plainest_d_small q Hq) as [A B]. destruct (plainest_d_small q' Hq') as [A' B'].
           pose proof (plainest_d_plain q Hp Hw) as D. pose proof (plainest_d_plain q' Hp' Hw') as D'.
           destruct (d_plain_fine _ D) as [Fp Fw]. destruct (d_plain_fine _ D') as [Fp' Fw'].
           pose proof (asked_nonneg _ Fp). pose proof (asked_nonneg _ Fp').
           apply d_plain_unique; [exact D|exact D'|]. intros v Hv. apply (alike_upper false). rewrite !plainest_d_same by assumption. eapply tells_d; [| |exact H].
           ++ cbn [probes In]. destruct Hv as [-> |[-> |[-> | ->]]]; tauto.
           ++ destruct Hv as [-> |[-> |[-> | ->]]]; try reflexivity. unfold d_probe. rewrite Z.abs_eq by (apply Z.pow_nonneg; lia). apply pow_log; lia.
        -- apply plainest_c_unique; try assumption. apply (alike_upper false). eapply tells_c; [|exact H]. left. reflexivity.
        -- apply plainest_p_unique; try assumption. apply (alike_upper false). eapply tells_p; [|exact H]. left. reflexivity.
Qed.

(** they are arguments, and none is refused *)
Lemma probe_shown s q q' x : covered s = true -> bounded q -> bounded q' -> In x (probes s q q') ->
  argument J2 x /\ forall r, prec_fine r -> exists t, shown J2 s None r x (Ok t).
Proof.
  intros Hc Hq Hq' Hx. destruct (bounded_fine q Hq) as [Hp Hw]. destruct (bounded_fine q' Hq') as [Hp' Hw'].
  assert (Bg : forall n, Z.log2 (Z.abs n) < 2147483647 -> (s = Sd \/ (unsigned_conv s || fixed_conv s = true /\ 0 <= n)) -> argument J2 (big n) /\ forall r, prec_fine r -> exists t, shown J2 s None r (big n) (Ok t)).
  { intros n Hl Hs. split; [apply big_fits; exact Hl|]. intros r Hr. destruct Hs as [-> |[Hs Hn]].
    - eexists. apply sh_signed; [reflexivity|]. exists None. constructor. exact Hl.
    - assert (U : is_unsigned J2 (VBig n) n) by (exists None, n; split; [constructor; exact Hl|split; [exact Hn|reflexivity]]).
      pose proof (prec_or_nonneg r Hr). assert (F : is_decimal (VBig n) n 0) by (constructor; split; [exact Hl|lia]).
      destruct s; try discriminate Hs; eexists; first [apply sh_unsigned; [reflexivity|exact U]|apply sh_octal; [reflexivity|exact U]|apply sh_hex; [solve [auto]|exact U]|apply (sh_big_fixed J2 _ None r (VBig n) n 0); [reflexivity|exact I|exact F|right; lia]]. }
  assert (Ex : exp_conv s = true -> In x [some_nan; dec_arg 0 0; dec_arg 0 2147483647; dec_arg (10 ^ 9) 0; dec_arg (ones (e_probe q q')) (Z.of_nat (e_probe q q') - 1)] ->
    argument J2 x /\ forall r, prec_fine r -> exists t, shown J2 s None r x (Ok t)).
  { intros He. assert (D : forall u sc, dec_fine u sc -> argument J2 (dec_arg u sc) /\ forall r, prec_fine r -> exists t, shown J2 s None r (dec_arg u sc) (Ok t)).
    { intros u sc Hd. split; [destruct Hd as (_ & Hd & Hr); apply arg_value; [exact Hd|exact Hr|exact I]|]. intros r Hr. eexists. apply dec_shown; assumption. }
    intros [<- |[<- |[<- |[<- |[<- |[]]]]]]; [|apply D; try apply zero_fine; try apply nine_fine; lia..|apply D; unfold e_probe; apply ones_fine; unfold bounded, prec_or in *; destruct (q_prec q), (q_prec q'); lia].
    split; [apply arg_value; [vm_compute; split; congruence|exact I|exact I]|]. intros r _. eexists. apply sh_nan; [destruct s; try discriminate; reflexivity|]. apply in_double; vm_compute; split; congruence || reflexivity. }
  assert (Hx' : hex_conv s = true -> In x [some_nan; a_double 0; a_double 1; a_double hex_ones] -> argument J2 x /\ forall r, prec_fine r -> exists t, shown J2 s None r x (Ok t)).
  { intros Ha. assert (D : forall b, 0 <= b < inf_bits -> argument J2 (a_double b) /\ forall r, prec_fine r -> exists t, shown J2 s None r (a_double b) (Ok t)).
    { intros b Hb. split; [apply arg_value; [unfold inf_bits in Hb; unfold java_value, in_range; lia|exact I|exact I]|]. intros r _. eexists. apply hex_shown; assumption. }
    intros [<- |[<- |[<- |[<- |[]]]]]; [|apply D; unfold inf_bits, hex_ones; lia..].
    split; [apply arg_value; [vm_compute; split; congruence|exact I|exact I]|]. intros r _. eexists. apply sh_nan; [destruct s; try discriminate; reflexivity|]. apply in_double; vm_compute; split; congruence || reflexivity. }
  destruct (unsigned_conv s) eqn:Hu.
  - pose proof (zero_digits_small s q Hq). pose proof (zero_digits_small s q' Hq'). pose proof (zero_digits_nonneg s q Hp). pose proof (zero_digits_nonneg s q' Hp').
    assert (E : probes s q q' = [big 0; big 1; big (base s ^ (q_width q + q_width q' + zero_digits s q + zero_digits s q'))]) by (destruct s; try discriminate; reflexivity). rewrite E in Hx. clear E.
    pose proof (base_fine s) as Bs.
    destruct Hx as [<- |[<- |[<- |[]]]]; apply Bg; try reflexivity; try (right; split; [reflexivity|]); try lia; try (apply Z.pow_nonneg; lia).
    rewrite Z.abs_eq by (apply Z.pow_nonneg; lia). apply pow_log; [exact Bs|]. unfold bounded in *. lia.
  - destruct s; try discriminate; cbn [probes] in Hx; try contradiction.
    + destruct (plainest_d_small q Hq) as [A B]. destruct (plainest_d_small q' Hq') as [A' B'].
      pose proof (plainest_d_plain q Hp Hw) as D. pose proof (plainest_d_plain q' Hp' Hw') as D'. destruct (d_plain_fine _ D) as [Fp Fw]. destruct (d_plain_fine _ D') as [Fp' Fw'].
      pose proof (asked_nonneg _ Fp). pose proof (asked_nonneg _ Fp').
      destruct Hx as [<- |[<- |[<- |[<- |[]]]]]; (apply Bg; [|left; reflexivity]); try reflexivity. unfold d_probe. rewrite Z.abs_eq by (apply Z.pow_nonneg; lia). apply pow_log; lia.
    + destruct Hx as [<- |[<- |[<- |[]]]]; [|apply Bg; [reflexivity|right; split; [reflexivity|lia]]|apply Bg; [|right; split; [reflexivity|apply Z.pow_nonneg; lia]]].
      * split; [apply arg_value; [vm_compute; split; congruence|exact I|exact I]|]. intros r _. eexists. apply sh_nan; [reflexivity|]. apply in_double; vm_compute; split; congruence || reflexivity.
      * rewrite Z.abs_eq by (apply Z.pow_nonneg; lia). apply pow_log; [lia|]. unfold f_probe, bounded in *. lia.
    + destruct Hx as [<- |[<- |[<- |[]]]]; [|apply Bg; [reflexivity|right; split; [reflexivity|lia]]|apply Bg; [|right; split; [reflexivity|apply Z.pow_nonneg; lia]]].
      * split; [apply arg_value; [vm_compute; split; congruence|exact I|exact I]|]. intros r _. eexists. apply sh_nan; [reflexivity|]. apply in_double; vm_compute; split; congruence || reflexivity.
      * rewrite Z.abs_eq by (apply Z.pow_nonneg; lia). apply pow_log; [lia|]. unfold f_probe, bounded in *. lia.
    + apply Ex; [reflexivity|exact Hx].
    + apply Ex; [reflexivity|exact Hx].
    + apply Hx'; [reflexivity|exact Hx].
    + apply Hx'; [reflexivity|exact Hx].
    + destruct Hx as [<- |[]]. split; [apply arg_value; [cbn; lia|exact I|exact I]|]. intros r _. eexists. apply sh_char; [reflexivity|]. apply (ic_int J2 (VChar 48) 48); [intros t X; inversion X|discriminate|constructor; lia].
    + apply (in_map_iff (fun n => traitsOf J2 (VStr (zeros n)) RPrimitive) [0; 1; s_probe q q']) in Hx. destruct Hx as (n & <- & Hn).
      assert (L : zlen (zeros n) <= int_max) by (rewrite zeros_len; unfold bounded, s_probe, int_max in *; destruct Hn as [<- |[<- |[<- |[]]]]; destruct (q_prec q), (q_prec q'); lia).
      split; [apply arg_value; [exact L|exact I|exact I]|]. intros r _. eexists. apply sh_text; [reflexivity|discriminate|constructor|exact L].
    + apply (in_map_iff (fun n => traitsOf J2 (VStr (zeros n)) RPrimitive) [0; 1; s_probe q q']) in Hx. destruct Hx as (n & <- & Hn).
      assert (L : zlen (zeros n) <= int_max) by (rewrite zeros_len; unfold bounded, s_probe, int_max in *; destruct Hn as [<- |[<- |[<- |[]]]]; destruct (q_prec q), (q_prec q'); lia).
      split; [apply arg_value; [exact L|exact I|exact I]|]. intros r _. eexists. apply sh_text; [reflexivity|discriminate|constructor|exact L].
    + destruct Hx as [<- |[]]. split; [apply arg_value; [vm_compute; split; congruence|exact I|vm_compute; split; discriminate]|]. intros r _. eexists. apply object_shown.
Qed.

Lemma found (A : Type) (P : A -> Prop) (L : list A) : (forall x, In x L -> P x \/ ~ P x) -> (forall x, In x L -> P x) \/ exists x, In x L /\ ~ P x.
Proof.
  induction L as [|y L IH]; intros H; [left; intros x []|]. destruct (H y (or_introl eq_refl)) as [Hy|Hy]; [|right; exists y; split; [left; reflexivity|exact Hy]].
  destruct IH as [IH|(x & Hx & N)]; [intros x Hx; apply H; right; exact Hx| |right; exists x; split; [right; exact Hx|exact N]]. left. intros x [<- |Hx]; [exact Hy|apply IH, Hx].
Qed.
