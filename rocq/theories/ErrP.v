(** Every malformed format string gets the error ErrSpec.v assigns to it. *)
From Verif Require Import Base Digits UtilsM ContextM CompilerM GrammarSpec CompilerP CompilerP2 ErrSpec.

Lemma width_form_raw W w : width_form W w <-> width_raw W w /\ hd_error W <> Some 48.
Proof.
  split.
  - intros H. destruct H.
    + split; [constructor|discriminate].
    + split; [constructor|discriminate].
    + split; [constructor; assumption|cbn; congruence].
  - intros (H & Hh). destruct H.
    + constructor.
    + change [42] with (txt "*"). constructor.
    + constructor; auto. cbn in Hh. congruence.
Qed.
Lemma prec_form_raw P p : prec_form P p <-> prec_raw P p.
Proof.
  split; intros H; destruct H; constructor; assumption.
Qed.
Lemma flag_not_dec c : In c flag_chars -> c <> 48 -> ~ is_dec c.
Proof. intros H N. apply flag_char_cases in H. unfold is_dec. lia. Qed.
Lemma width_head_no_flag W w X : width_raw W w -> hd_error W <> Some 48 -> W <> [] -> no_flag (W ++ X).
Proof.
  intros H Hh Hn. destruct H as [| |d ds HF Hd]; [congruence|reflexivity|]. cbn in Hh. cbn [app no_flag].
  inversion HF as [|? ? Hx _]; subst. destruct (flag_of_char d) eqn:E; [|reflexivity].
  exfalso. assert (K : In d flag_chars) by (apply flag_chars_iff; congruence).
  apply (flag_not_dec d K); [congruence|exact Hx].
Qed.

(** the conditions the parser's run lemmas need, from [continues] *)
Lemma head_no_flag W w P p c X : width_raw W w -> hd_error W <> Some 48 -> prec_raw P p ->
  (P = [] -> W = [] -> flag_of_char c = None) -> no_flag (W ++ P ++ c :: X).
Proof.
  intros HW Hh HP Hc. destruct W as [|d W].
  - cbn [app]. destruct HP; cbn [app no_flag]; [apply Hc; reflexivity|reflexivity|reflexivity].
  - apply (width_head_no_flag _ w); [exact HW|exact Hh|discriminate].
Qed.
Lemma head_after_width W w P p c X : width_raw W w -> prec_raw P p -> ~ continues W P c -> after_width W (P ++ c :: X).
Proof.
  intros HW HP Hc. unfold continues in Hc. destruct HW as [| |d ds HF Hd].
  - right. left. split; [reflexivity|]. split; [|split].
    + destruct HP; cbn [app no_digit]; try (unfold is_dec; lia). intros K. apply Hc. right. left. split; [reflexivity|]. split; [discriminate|exact K].
    + destruct HP; cbn [app hd_error]; try congruence. intros K. apply Hc. left. split; [reflexivity|]. split; [reflexivity|]. right.
      injection K as K. exact K.
    + destruct P; discriminate.
  - left. reflexivity.
  - right. right. split; [discriminate|]. destruct HP; cbn [app no_digit]; try (unfold is_dec; lia).
    intros K. apply Hc. right. left. split; [reflexivity|]. split; [|exact K].
    intros E. inversion HF as [|? ? Hx _]. subst. injection E as E _. unfold is_dec in Hx. change (ch "*") with 42 in E. lia.
Qed.
Lemma head_after_prec W P p c X : prec_raw P p -> ~ continues W P c -> after_prec P (c :: X).
Proof.
  intros HP Hc. unfold continues in Hc. destruct HP as [| |ds HF Hd].
  - right. left. split; [reflexivity|]. cbn. intros K. injection K as K. apply Hc. right. right. left. split; [reflexivity|exact K].
  - left. reflexivity.
  - destruct ds as [|d ds].
    + right. right. left. split; [reflexivity|]. split; [|split; [|discriminate]].
      * intros K. apply Hc. do 4 right. split; [discriminate|]. split; [discriminate|exact K].
      * cbn. intros K. injection K as K. apply Hc. do 3 right. left. split; [reflexivity|exact K].
    + right. right. right. split; [discriminate|]. split; [congruence|]. intros K. apply Hc. do 4 right.
      split; [discriminate|]. split; [|exact K]. intros E. inversion HF as [|? ? Hx _]. injection E as E _. unfold is_dec in Hx. change (ch "*") with 42 in E. lia.
Qed.
(** and back *)
Lemma not_continues W w P p c X : width_raw W w -> prec_raw P p ->
  (P = [] -> W = [] -> flag_of_char c = None) -> after_width W (P ++ c :: X) -> after_prec P (c :: X) -> ~ continues W P c.
Proof.
  intros HW HP Hf HA HB K. unfold continues in K. change (txt "*") with [42] in K. change (txt ".*") with [46; 42] in K. change (txt ".") with [46] in K.
  change (ch "*") with 42 in K. change (ch ".") with 46 in K.
  destruct K as [(-> & -> & K)|[(-> & K1 & K2)|[(-> & ->)|[(-> & ->)|(K1 & K2 & K3)]]]].
  - destruct K as [K| ->].
    + apply flag_chars_iff in K. apply K. apply Hf; reflexivity.
    + destruct HA as [?|[(_ & _ & ? & _)|(? & _)]]; try discriminate; cbn in *; congruence.
  - destruct HA as [?|[(_ & ? & _)|(_ & ?)]]; [congruence|cbn in *; tauto|cbn in *; tauto].
  - destruct HB as [?|[(_ & ?)|[(? & _)|(? & _)]]]; try discriminate; cbn in *; congruence.
  - destruct HB as [?|[(? & _)|[(_ & _ & ? & _)|(_ & ? & _)]]]; try discriminate; cbn in *; congruence.
  - destruct HB as [?|[(? & _)|[(_ & ? & _)|(_ & _ & ?)]]]; try congruence; cbn in *; tauto.
Qed.

(** a conversion character never continues a head *)
Lemma conv_not_continues W P c s : conv_char c s -> ~ continues W P c.
Proof.
  intros H K. destruct (conv_char_plain _ _ H) as (A & B & C & D). unfold continues in K.
  change (ch "*") with 42 in K. change (ch ".") with 46 in K.
  destruct K as [(_ & _ & [K|K])|[(_ & _ & K)|[(_ & K)|[(_ & K)|(_ & _ & K)]]]]; try tauto.
  apply flag_chars_iff in K. tauto.
Qed.

Section Main.
  Variable dtf_valid : list Z -> bool.
  Variable source : list Z.
  Notation at_ := (at_ source).

  (** ** errors found are slips *)
  Lemma flags_err : forall fuel pos t fl, at_ pos t -> (List.length t < fuel)%nat ->
    (exists F r fl', t = F ++ r /\ take_flags F fl = Some fl' /\ no_flag r /\
       p_flags source fuel pos fl = Ok (fl', pos + zlen F)) \/
    (exists F c r fl', t = F ++ c :: r /\ take_flags F fl = Some fl' /\ hasc c fl' = true /\
       p_flags source fuel pos fl = Err (Syntax DuplicateFlag (pos + zlen F))).
  Proof.
    induction fuel as [|fuel IH]; intros pos t fl Ha Hf; [lia|].
    destruct t as [|c t].
    - left. exists [], [], fl. cbn [p_flags]. rewrite (at_end _ _ Ha). change (zlen (@nil Z)) with 0. rewrite Z.add_0_r.
      repeat split; constructor.
    - cbn [p_flags]. rewrite (at_more _ _ _ _ Ha), (at_char _ _ _ _ Ha). cbn [bind].
      destruct (flag_of_char c) as [g|] eqn:Eg.
      + destruct (hasF g fl) eqn:Eh.
        * right. exists [], c, t, fl. change (zlen (@nil Z)) with 0. rewrite Z.add_0_r. repeat split. unfold hasc. rewrite Eg. exact Eh.
        * cbn in Hf. destruct (IH (pos + 1) t (addF g fl) (at_next _ _ _ _ Ha)) as [(F & r & fl' & E & E1 & E2 & E3)|(F & x & r & fl' & E & E1 & E2 & E3)]; [lia| |].
          -- left. exists (c :: F), r, fl'. subst t. cbn [take_flags app]. rewrite Eg, Eh. repeat split; auto.
             rewrite E3. rewrite zlen_cons. do 2 f_equal. lia.
          -- right. exists (c :: F), x, r, fl'. subst t. cbn [take_flags app]. rewrite Eg, Eh. repeat split; auto.
             rewrite E3. rewrite zlen_cons. do 2 f_equal. lia.
      + left. exists [], (c :: t), fl. cbn [take_flags]. change (zlen (@nil Z)) with 0. rewrite Z.add_0_r. repeat split; auto.
  Qed.
  Lemma hasc_in F fl c : flags_text F fl -> hasc c fl = true <-> In c F.
  Proof.
    intros (_ & HF & ->). unfold hasc. split.
    - unfold flag_of_char. change (ch "-") with 45; change (ch "#") with 35; change (ch "+") with 43; change (ch " ") with 32; change (ch "0") with 48.
      assert (X : forall n, existsb (Z.eqb n) F = true -> In n F).
      { intros n E. apply existsb_exists in E as (x & Hx & E). apply Z.eqb_eq in E. subst. exact Hx. }
      destruct (Z.eqb_spec c 45) as [->|]; [apply X|]. destruct (Z.eqb_spec c 35) as [->|]; [apply X|].
      destruct (Z.eqb_spec c 43) as [->|]; [apply X|]. destruct (Z.eqb_spec c 32) as [->|]; [apply X|].
      destruct (Z.eqb_spec c 48) as [->|]; [apply X|discriminate].
    - intros H. assert (X : existsb (Z.eqb c) F = true) by (apply existsb_exists; exists c; split; [exact H|apply Z.eqb_refl]).
      apply HF, flag_char_cases in H. destruct H as [->|[->|[->|[->| ->]]]]; exact X.
  Qed.

  Lemma too_big_no_digit ds r : too_big ds r <-> Forall is_dec ds /\ int_max < dec_value ds /\ no_digit r.
  Proof.
    unfold too_big. destruct r as [|c r]; cbn; split; intros (A & B & C); repeat split; auto; try discriminate.
    intros x E. injection E as <-. exact C.
  Qed.

  Lemma width_err pos t : at_ pos t ->
    (exists W w r, t = W ++ r /\ width_raw W w /\ after_width W r /\ p_width source pos = Ok (w, pos + zlen W)) \/
    (t = [] /\ p_width source pos = Err (Syntax UnexpectedEnd pos)) \/
    (exists ds r, t = ds ++ r /\ too_big ds r /\ p_width source pos = Err (Syntax BadWidth pos)).
  Proof.
    intros Ha. destruct t as [|c t].
    - right. left. split; [reflexivity|]. unfold p_width, checkSource. rewrite (at_end _ _ Ha). reflexivity.
    - destruct (Z.eq_dec c 42) as [->|Hc].
      + left. exists [42], PRECEDING, t. assert (after_width [42] t) by (left; reflexivity).
        repeat split; auto; [constructor|]. apply (p_width_run source [42] PRECEDING t); auto. constructor.
      + destruct (digit_span (c :: t)) as (ds & r & E & F & N). destruct ds as [|d ds].
        * cbn [app] in E. subst r. left. exists [], UNSET, (c :: t).
          assert (after_width [] (c :: t)).
          { right. left. repeat split; auto; [cbn; congruence|discriminate]. }
          repeat split; auto; [constructor|]. apply (p_width_run source [] UNSET (c :: t)); auto. constructor.
        * destruct (Z_le_gt_dec (dec_value (d :: ds)) int_max) as [Hle|Hgt].
          -- left. exists (d :: ds), (dec_value (d :: ds)), r.
             assert (after_width (d :: ds) r) by (right; right; split; [discriminate|assumption]).
             repeat split; auto; [constructor; assumption|]. rewrite E in Ha.
             apply (p_width_run source (d :: ds) _ r); auto. constructor; assumption.
          -- right. right. exists (d :: ds), r. split; [exact E|]. split; [apply too_big_no_digit; repeat split; auto; lia|].
             unfold p_width. rewrite (at_check _ _ _ _ Ha). cbn [bind].
             rewrite (at_char _ _ _ _ Ha). cbn [bind]. apply Z.eqb_neq in Hc. change (ch "*") with 42. rewrite Hc.
             rewrite E in Ha.
             rewrite (p_digits_run source (d :: ds) (fuel0 source) pos r); try assumption; [|eapply at_fuel; exact Ha].
             cbn [bind]. rewrite (at_slice _ _ _ _ Ha). rewrite parseInt_dec by assumption.
             destruct (dec_value (d :: ds) <=? int_max) eqn:El; [apply Z.leb_le in El; lia|]. reflexivity.
  Qed.
  Lemma prec_err pos t : at_ pos t ->
    (exists P p r, t = P ++ r /\ prec_raw P p /\ after_prec P r /\ p_precision source pos = Ok (p, pos + zlen P)) \/
    (t = [46] /\ p_precision source pos = Err (Syntax UnexpectedEnd (pos + 1))) \/
    (exists ds r, t = 46 :: ds ++ r /\ too_big ds r /\ p_precision source pos = Err (Syntax BadPrecision (pos + 1))).
  Proof.
    intros Ha.
    assert (G : hd_error t <> Some 46 -> (exists P p r, t = P ++ r /\ prec_raw P p /\ after_prec P r /\ p_precision source pos = Ok (p, pos + zlen P))).
    { intros Hh. exists [], UNSET, t. assert (after_prec [] t) by (right; left; split; auto).
      repeat split; auto; [constructor|]. apply (p_prec_run source [] UNSET t); auto. constructor. }
    destruct t as [|c t].
    - left. apply G. discriminate.
    - destruct (Z.eq_dec c 46) as [->|Hc]; [|left; apply G; cbn; congruence]. clear G.
      pose proof (at_next _ _ _ _ Ha) as Ha1.
      destruct t as [|c t].
      { right. left. split; [reflexivity|]. unfold p_precision. rewrite (at_more _ _ _ _ Ha), (at_char _ _ _ _ Ha). cbn [bind].
        change (negb (46 =? ch ".")) with false. cbv iota zeta. unfold checkSource. rewrite (at_end _ _ Ha1). reflexivity. }
      destruct (Z.eq_dec c 42) as [->|Hc].
      + left. exists [46; 42], PRECEDING, t. assert (after_prec [46; 42] t) by (left; reflexivity).
        repeat split; auto; [constructor|]. apply (p_prec_run source [46; 42] PRECEDING t); auto. constructor.
      + destruct (digit_span (c :: t)) as (ds & r & E & F & N).
        destruct (Z_le_gt_dec (dec_value ds) int_max) as [Hle|Hgt].
        * left. exists (46 :: ds), (dec_value ds), r.
          assert (after_prec (46 :: ds) r).
          { destruct ds as [|d ds].
            - right. right. left. cbn [app] in E. subst r. repeat split; auto; [cbn; congruence|discriminate].
            - right. right. right. repeat split; [discriminate|congruence|assumption]. }
          rewrite E in *. repeat split; auto; [constructor; assumption|].
          apply (p_prec_run source (46 :: ds) _ r); auto. constructor; assumption.
        * right. right. exists ds, r. split; [rewrite E; reflexivity|]. split; [apply too_big_no_digit; repeat split; auto; lia|].
          unfold p_precision. rewrite (at_more _ _ _ _ Ha), (at_char _ _ _ _ Ha). cbn [bind].
          change (negb (46 =? ch ".")) with false. cbv iota zeta. rewrite (at_check _ _ _ _ Ha1). cbn [bind].
          rewrite (at_char _ _ _ _ Ha1). cbn [bind]. apply Z.eqb_neq in Hc. change (ch "*") with 42. rewrite Hc.
          rewrite E in Ha1.
          rewrite (p_digits_run source ds (fuel0 source) (pos + 1) r); try assumption; [|eapply at_fuel; exact Ha1].
          cbn [bind]. rewrite (at_slice _ _ _ _ Ha1). destruct ds as [|d ds]; [vm_compute in Hgt; discriminate|].
          rewrite parseInt_dec by assumption.
          destruct (dec_value (d :: ds) <=? int_max) eqn:El; [apply Z.leb_le in El; lia|]. reflexivity.
  Qed.

  (** p_scan finds nothing exactly when there is no pattern to find *)
  Lemma scan_none pos t : at_ pos t -> p_scan source (fuel0 source) pos false = Ok None <->
    forall d r, pat false d -> t <> d ++ 125 :: r.
  Proof.
    intros Ha. split.
    - intros E d r Hp ->. rewrite (p_scan_run source false d Hp (fuel0 source) pos r Ha (at_fuel _ _ _ Ha)) in E. discriminate.
    - intros H. destruct (p_scan_inv source (fuel0 source) pos t false Ha (at_fuel _ _ _ Ha)) as [(p & r & E & Hp & _)|E]; [|exact E].
      exfalso. exact (H p r Hp E).
  Qed.
  Lemma date_err pos s t : at_ pos t ->
    (exists T d r, t = T ++ r /\ date_text dtf_valid s r T d /\
       (if isDateTimeSpec s then p_date dtf_valid source pos else Ok (None, pos)) = Ok (d, pos + zlen T)) \/
    (exists r k i, t = 123 :: r /\ (s = St \/ s = ST) /\
       (if isDateTimeSpec s then p_date dtf_valid source pos else Ok (None, pos)) = Err (Syntax k (pos + i)) /\
       ((k = UnclosedDate /\ i = 0 /\ forall d r', pat false d -> r <> d ++ 125 :: r') \/
        (k = EmptyDate /\ i = 1 /\ exists r', r = 125 :: r') \/
        (k = InvalidDate /\ i = 1 /\ exists d r', r = d ++ 125 :: r' /\ d <> [] /\ pat false d /\ dtf_valid d = false))).
  Proof.
    intros Ha. destruct (isDateTimeSpec s) eqn:Es.
    2:{ left. exists [], None, t. change (zlen (@nil Z)) with 0. rewrite Z.add_0_r. repeat split.
        constructor; intros ->; discriminate. }
    assert (Hs : s = St \/ s = ST) by (destruct s; try discriminate; auto).
    assert (Hnone : hd_error t <> Some 123 -> exists T d r, t = T ++ r /\ date_text dtf_valid s r T d /\
       p_date dtf_valid source pos = Ok (d, pos + zlen T)).
    { intros Hh. exists [], None, t. assert (D : date_text dtf_valid s t [] None) by (apply D_none; assumption).
      repeat split; auto. pose proof (p_date_run dtf_valid source pos s [] t None Ha D) as R. rewrite Es in R. exact R. }
    destruct t as [|c t]; [left; apply Hnone; discriminate|].
    destruct (Z.eq_dec c 123) as [->|Hc]; [|left; apply Hnone; cbn; congruence].
    unfold p_date. rewrite (at_more _ _ _ _ Ha), (at_char _ _ _ _ Ha). cbn [bind].
    change (negb (123 =? ch "{")) with false. cbv iota zeta. pose proof (at_next _ _ _ _ Ha) as Ha1.
    destruct (p_scan_inv source (fuel0 source) (pos + 1) t false Ha1 (at_fuel _ _ _ Ha1)) as [(p & r & E & Hp & Hs')|Hs'].
    - rewrite Hs'. cbn [bind]. rewrite E in Ha1. rewrite (at_slice _ _ _ _ Ha1).
      destruct p as [|x p].
      + right. exists t, EmptyDate, 1. split; [reflexivity|]. split; [exact Hs|]. split; [reflexivity|].
        right. left. split; [reflexivity|]. split; [reflexivity|]. exists r. exact E.
      + destruct (dtf_valid (x :: p)) eqn:Ev.
        * left. exists ([123] ++ (x :: p) ++ [125]), (Some (x :: p)), r. repeat split.
          -- subst t. cbn [app]. rewrite <- app_assoc. reflexivity.
          -- apply D_pat; auto. discriminate.
          -- rewrite !zlen_app, !zlen_one. do 2 f_equal. lia.
        * right. exists t, InvalidDate, 1. split; [reflexivity|]. split; [exact Hs|]. split; [reflexivity|].
          right. right. split; [reflexivity|]. split; [reflexivity|]. exists (x :: p), r. repeat split; auto. discriminate.
    - pose proof (proj1 (scan_none _ _ Ha1) Hs') as Hn. rewrite Hs'. cbn [bind]. right. exists t, UnclosedDate, 0.
      split; [reflexivity|]. split; [exact Hs|]. rewrite Z.add_0_r. split; [reflexivity|]. left. repeat split; auto.
  Qed.

  Lemma directive_err pos t : at_ pos t -> hd_error t <> Some pct ->
    (exists F fl W w P p c s T d r, t = F ++ W ++ P ++ c :: T ++ r /\
      flags_text F fl /\ width_text W w /\ prec_text P p /\ conv_char c s /\ date_text dtf_valid s r T d /\
      p_directive dtf_valid source pos = Ok (Default s (mkCtx fl w p d), pos + zlen (F ++ W ++ P ++ c :: T))) \/
    (exists x, slip dtf_valid t x /\ p_directive dtf_valid source pos = Err (shifted pos x)).
  Proof.
    intros Ha Hne. unfold p_directive.
    destruct (flags_err (fuel0 source) pos t noFlags Ha (at_fuel _ _ _ Ha)) as [(F & r1 & fl & E & HF & Hnf & Hr)|(F & c & r1 & fl & E & HF & Hd & Hr)];
      rewrite Hr; cbn [bind]; apply take_flags_text in HF.
    2:{ right. exists (Syntax DuplicateFlag (zlen F)). split; [|reflexivity]. subst t. apply (slip_flag _ F fl); [exact HF|].
        apply (hasc_in F fl); assumption. }
    subst t. apply at_app in Ha.
    destruct (width_err _ _ Ha) as [(W & w & r2 & E & HW & HA & Hr2)|[(E & Hr2)|(ds & r2 & E & HB & Hr2)]]; rewrite Hr2; cbn [bind].
    2:{ right. subst r1. exists (Syntax UnexpectedEnd (zlen F)). split; [|reflexivity]. rewrite app_nil_r.
        apply (slip_end _ F fl UNSET UNSET [] []). exists F. rewrite !app_nil_r. repeat split; try apply HF; constructor. }
    2:{ right. subst r1. exists (Syntax BadWidth (zlen F)). split; [|reflexivity]. apply (slip_width _ F fl); auto.
        intros Hh. destruct ds; [discriminate|]. cbn in Hh, Hnf. injection Hh as ->. discriminate. }
    subst r1. apply at_app in Ha.
    assert (Hh : hd_error W <> Some 48) by (intros Hh; destruct W; [discriminate|]; cbn in Hh, Hnf; inversion Hh; subst; discriminate).
    assert (HWf : width_form W w) by (apply width_form_raw; auto).
    destruct (prec_err _ _ Ha) as [(P & p & r3 & E & HP & HQ & Hr3)|[(E & Hr3)|(ds & r3 & E & HB & Hr3)]]; rewrite Hr3; cbn [bind].
    2:{ right. subst r2. exists (Syntax UnexpectedEnd (zlen (F ++ W ++ [46]))). split.
        - apply (slip_end _ _ fl w 0 W [46]). exists F. split; [exact HF|]. split; [exact HWf|]. split; [|reflexivity].
          apply (PF_num []); [constructor|]. vm_compute. discriminate.
        - cbn [shifted]. rewrite !zlen_app, zlen_one. do 2 f_equal. lia. }
    2:{ right. subst r2. exists (Syntax BadPrecision (zlen F + zlen W + 1)). split; [apply (slip_prec _ F fl W w); auto|].
        cbn [shifted]. do 2 f_equal. lia. }
    subst r2. apply at_app in Ha.
    assert (HPf : prec_form P p) by (apply prec_form_raw; auto).
    assert (Hhd : head (F ++ W ++ P) fl w p W P) by (exists F; auto).
    assert (Hz : pos + zlen F + zlen W + zlen P = pos + zlen (F ++ W ++ P)) by (rewrite !zlen_app; lia).
    rewrite Hz in *. set (h := F ++ W ++ P) in *.
    unfold p_spec at 1 2. destruct r3 as [|c r3].
    { unfold checkSource. rewrite (at_end _ _ Ha). cbn [bind]. right. exists (Syntax UnexpectedEnd (zlen h)). split; [|reflexivity].
      rewrite app_nil_r. apply (slip_end _ h fl w p W P). exact Hhd. }
    rewrite (at_check _ _ _ _ Ha). cbn [bind]. rewrite (at_char _ _ _ _ Ha). cbn [bind].
    assert (Eh : F ++ W ++ P ++ c :: r3 = h ++ c :: r3) by (unfold h; rewrite <- !app_assoc; reflexivity). rewrite Eh in *.
    destruct (spec_of_char c) as [s|] eqn:Es; cbn [bind].
    2:{ right. exists (Syntax BadSpecifier (zlen h)). split; [|reflexivity]. apply (slip_conv _ h fl w p W P); [exact Hhd| |].
        - apply (not_continues W w P p c r3); auto. intros -> ->. exact Hnf.
        - intros s Hs. apply spec_of_char_iff in Hs. congruence. }
    apply spec_of_char_iff in Es. apply at_next in Ha.
    destruct (date_err _ s _ Ha) as [(T & d & r4 & E & HT & Hr4)|(r4 & k & i & E & Hs & Hr4 & Hk)]; rewrite Hr4; cbn [bind].
    2:{ right. subst r3. exists (Syntax k (zlen h + 1 + i)). split; [|cbn [shifted]; do 2 f_equal; lia].
        destruct Hk as [(-> & -> & Hk)|[(-> & -> & r' & ->)|(-> & -> & d & r' & -> & Hk1 & Hk2 & Hk3)]].
        - rewrite Z.add_0_r. apply (slip_unclosed _ h fl w p W P c s); auto.
        - replace (zlen h + 1 + 1) with (zlen h + 2) by lia. apply (slip_empty _ h fl w p W P c s); auto.
        - replace (zlen h + 1 + 1) with (zlen h + 2) by lia. apply (slip_invalid _ h fl w p W P c s); auto. }
    subst r3. unfold ctx_create. rewrite (width_raw_check _ _ _ HW), (prec_raw_check _ _ _ HP).
    destruct (w <=? 65536) eqn:Ew; cbn [bind].
    2:{ right. exists (Printf WidthRange). split; [|reflexivity]. apply Z.leb_gt in Ew. apply (slip_wide _ h fl w p W P c s T d); auto. }
    apply Z.leb_le in Ew. destruct (p <=? 65536) eqn:Ep; cbn [bind].
    2:{ right. exists (Printf PrecisionRange). split; [|reflexivity]. apply Z.leb_gt in Ep. apply (slip_fine _ h fl w p W P c s T d); auto. }
    left. apply Z.leb_le in Ep. exists F, fl, W, w, P, p, c, s, T, d, r4.
    split; [unfold h; rewrite <- !app_assoc; reflexivity|]. split; [exact HF|].
    split; [apply width_text_raw; auto|].
    split; [apply prec_text_raw; auto|]. split; [assumption|]. split; [assumption|].
    do 2 f_equal. unfold h. rewrite !zlen_app, zlen_cons. lia.
  Qed.

  (** ** slips give their error *)
  Lemma flags_dup F : forall fuel pos c r fl fl', at_ pos (F ++ c :: r) -> (List.length (F ++ c :: r) < fuel)%nat ->
    take_flags F fl = Some fl' -> hasc c fl' = true -> p_flags source fuel pos fl = Err (Syntax DuplicateFlag (pos + zlen F)).
  Proof.
    induction F as [|x F IH]; intros fuel pos c r fl fl' Ha Hf Ht Hd; cbn [app take_flags] in *; (destruct fuel; [cbn in Hf; lia|]);
      cbn [p_flags]; rewrite (at_more _ _ _ _ Ha), (at_char _ _ _ _ Ha); cbn [bind].
    - inversion Ht; subst. unfold hasc in Hd. destruct (flag_of_char c) as [g|]; [|discriminate]. rewrite Hd.
      change (zlen (@nil Z)) with 0. rewrite Z.add_0_r. reflexivity.
    - destruct (flag_of_char x) as [g|]; [|discriminate]. destruct (hasF g fl); [discriminate|].
      rewrite zlen_cons. replace (pos + (1 + zlen F)) with (pos + 1 + zlen F) by lia.
      apply (IH fuel (pos + 1) c r (addF g fl) fl'); auto; [eapply at_next; eassumption|cbn in Hf; lia].
  Qed.

  Lemma head_go pos h fl w p W P c X : at_ pos (h ++ c :: X) -> head h fl w p W P -> ~ continues W P c ->
    at_ (pos + zlen h) (c :: X) /\
    p_directive dtf_valid source pos =
    (let* (s, pos) := p_spec source (pos + zlen h) in
     let* (d, pos) := (if isDateTimeSpec s then p_date dtf_valid source pos else Ok (None, pos)) in
     let* c := ctx_create fl w p d in
     Ok (Default s c, pos)).
  Proof.
    intros Ha (F & HF & HW & HP & ->) Hc. split; [apply at_app; exact Ha|]. apply take_flags_text in HF. apply width_form_raw in HW as (HW & Hh).
    apply prec_form_raw in HP. rewrite <- !app_assoc in Ha. unfold p_directive.
    rewrite (p_flags_run source F (fuel0 source) pos (W ++ P ++ c :: X) noFlags fl Ha (at_fuel _ _ _ Ha) HF).
    2:{ apply (head_no_flag W w P p c X HW Hh HP). intros -> ->. destruct (flag_of_char c) eqn:E; [|reflexivity].
        exfalso. apply Hc. left. repeat split. left. apply flag_chars_iff. congruence. }
    cbn [bind]. apply at_app in Ha.
    rewrite (p_width_run source W w _ _ Ha HW (head_after_width _ _ _ _ _ _ HW HP Hc)). cbn [bind].
    apply at_app in Ha.
    rewrite (p_prec_run source P p _ _ Ha HP (head_after_prec _ _ _ _ _ HP Hc)). cbn [bind].
    replace (pos + zlen F + zlen W + zlen P) with (pos + zlen (F ++ W ++ P)) by (rewrite !zlen_app; lia). reflexivity.
  Qed.

  Lemma prec_end pos P p fl w : at_ pos P -> prec_raw P p -> P <> [] ->
    (let* (p, pos) := p_precision source pos in
     let* (s, pos) := p_spec source pos in
     let* (d, pos) := (if isDateTimeSpec s then p_date dtf_valid source pos else Ok (None, pos)) in
     let* c := ctx_create fl w p d in
     Ok (Default s c, pos)) = Err (Syntax UnexpectedEnd (pos + zlen P)).
  Proof.
    intros Ha HP Hn. assert (G : after_prec P [] -> p_precision source pos = Ok (p, pos + zlen P) /\ p_spec source (pos + zlen P) = Err (Syntax UnexpectedEnd (pos + zlen P))).
    { intros K. rewrite <- (app_nil_r P) in Ha. split; [apply (p_prec_run source P p [] pos Ha HP K)|].
      apply at_app in Ha. unfold p_spec, checkSource. rewrite (at_end _ _ Ha). reflexivity. }
    destruct HP as [| |ds HD Hd]; [congruence| |].
    - destruct G as (-> & E); [left; reflexivity|]. cbn [bind]. rewrite E. reflexivity.
    - destruct ds as [|d ds].
      + unfold p_precision. rewrite (at_more _ _ _ _ Ha), (at_char _ _ _ _ Ha). cbn [bind].
        change (negb (46 =? ch ".")) with false. cbv iota zeta. apply at_next in Ha. unfold checkSource. rewrite (at_end _ _ Ha). reflexivity.
      + destruct G as (-> & E); [right; right; right; split; [discriminate|]; split; [congruence|exact I]|]. cbn [bind]. rewrite E. reflexivity.
  Qed.

  Lemma end_run pos h fl w p W P : at_ pos h -> head h fl w p W P ->
    p_directive dtf_valid source pos = Err (Syntax UnexpectedEnd (pos + zlen h)).
  Proof.
    intros Ha (F & HF & HW & HP & ->). apply take_flags_text in HF. apply width_form_raw in HW as (HW & Hh).
    apply prec_form_raw in HP. unfold p_directive.
    rewrite (p_flags_run source F (fuel0 source) pos (W ++ P) noFlags fl Ha (at_fuel _ _ _ Ha) HF).
    2:{ destruct W as [|x W]; [destruct HP; cbn [app no_flag]; try reflexivity; exact I|].
        apply (width_head_no_flag _ w); [exact HW|exact Hh|discriminate]. }
    cbn [bind]. apply at_app in Ha. rewrite !zlen_app.
    destruct W as [|x W], P as [|y P].
    - cbn [app] in Ha. change (zlen (@nil Z)) with 0. replace (pos + (zlen F + (0 + 0))) with (pos + zlen F) by lia.
      unfold p_width, checkSource. rewrite (at_end _ _ Ha). reflexivity.
    - rewrite (p_width_run source [] w (y :: P) _ Ha HW).
      2:{ right. left. split; [reflexivity|]. inversion HP; subst; (split; [cbn; unfold is_dec; lia|split; [cbn; congruence|discriminate]]). }
      cbn [bind]. apply at_app in Ha. change (zlen (@nil Z)) with 0 in *. rewrite Z.add_0_r in *. rewrite Z.add_0_l.
      rewrite (prec_end _ _ p fl w Ha HP) by discriminate. do 2 f_equal. lia.
    - rewrite (p_width_run source (x :: W) w [] _ Ha HW).
      2:{ right. right. split; [discriminate|exact I]. }
      cbn [bind]. apply at_app in Ha. rewrite (p_prec_run source [] p [] _ Ha HP) by (right; left; split; [reflexivity|discriminate]).
      cbn [bind]. change (zlen (@nil Z)) with 0. rewrite !Z.add_0_r.
      unfold p_spec, checkSource. rewrite (at_end _ _ Ha). cbn [bind]. do 2 f_equal. lia.
    - rewrite (p_width_run source (x :: W) w (y :: P) _ Ha HW).
      2:{ right. right. split; [discriminate|]. inversion HP; subst; cbn; unfold is_dec; lia. }
      cbn [bind]. apply at_app in Ha.
      rewrite (prec_end _ _ p fl w Ha HP) by discriminate. do 2 f_equal. lia.
  Qed.

  Lemma slip_run pos t x : at_ pos t -> slip dtf_valid t x -> p_directive dtf_valid source pos = Err (shifted pos x).
  Proof.
    intros Ha H. destruct H as [F fl c r HF Hc|F fl ds r HF Hh HB|F fl W w ds r HF HW HB|h fl w p W P Hh|h fl w p W P c r Hh Hc Hs
      |h fl w p W P c s r Hh Hc Hs Hn|h fl w p W P c s r Hh Hc Hs|h fl w p W P c s d r Hh Hc Hs Hd Hp Hv
      |h fl w p W P c s T d r Hh Hc HT Hw|h fl w p W P c s T d r Hh Hc HT Hw Hp]; cbn [shifted].
    - unfold p_directive. assert (K : hasc c fl = true) by (apply (hasc_in F fl); assumption).
      apply take_flags_text in HF. rewrite (flags_dup F (fuel0 source) pos c r noFlags fl Ha (at_fuel _ _ _ Ha) HF K). reflexivity.
    - apply too_big_no_digit in HB as (HD & HB & HN). apply take_flags_text in HF. unfold p_directive.
      destruct ds as [|x ds]; [vm_compute in HB; discriminate|]. cbn in Hh.
      inversion HD as [|? ? Hx HD']; subst.
      rewrite (p_flags_run source F (fuel0 source) pos ((x :: ds) ++ r) noFlags fl Ha (at_fuel _ _ _ Ha) HF).
      2:{ cbn. destruct (flag_of_char x) eqn:E; [|reflexivity]. exfalso. apply (flag_not_dec x); [apply flag_chars_iff; congruence|congruence|exact Hx]. }
      cbn [bind]. apply at_app in Ha. unfold p_width. cbn [app] in Ha. rewrite (at_check _ _ _ _ Ha). cbn [bind]. rewrite (at_char _ _ _ _ Ha). cbn [bind].
      assert (x =? ch "*" = false) as -> by (apply Z.eqb_neq; change (ch "*") with 42; unfold is_dec in Hx; lia).
      rewrite (p_digits_run source (x :: ds) (fuel0 source) _ r); try assumption; [|eapply at_fuel; exact Ha].
      cbn [bind]. change (x :: ds ++ r) with ((x :: ds) ++ r) in Ha. rewrite (at_slice _ _ _ _ Ha). rewrite parseInt_dec by assumption.
      destruct (dec_value (x :: ds) <=? int_max) eqn:El; [apply Z.leb_le in El; lia|]. reflexivity.
    - apply too_big_no_digit in HB as (HD & HB & HN). apply take_flags_text in HF. apply width_form_raw in HW as (HW & Hh). unfold p_directive.
      destruct ds as [|x ds]; [vm_compute in HB; discriminate|]. inversion HD as [|? ? Hx HD']; subst.
      rewrite (p_flags_run source F (fuel0 source) pos _ noFlags fl Ha (at_fuel _ _ _ Ha) HF).
      2:{ destruct W as [|y W]; [reflexivity|]. apply (width_head_no_flag _ w); [exact HW|exact Hh|discriminate]. }
      cbn [bind]. apply at_app in Ha.
      rewrite (p_width_run source W w _ _ Ha HW).
      2:{ destruct HW; [right; left|left; reflexivity|right; right].
          - split; [reflexivity|]. split; [cbn; unfold is_dec; lia|]. split; [cbn; congruence|discriminate].
          - split; [discriminate|]. cbn. unfold is_dec. lia. }
      cbn [bind]. apply at_app in Ha. pose proof (at_next _ _ _ _ Ha) as Ha1. unfold p_precision.
      rewrite (at_more _ _ _ _ Ha), (at_char _ _ _ _ Ha). cbn [bind].
      change (negb (46 =? ch ".")) with false. cbv iota zeta. cbn [app] in Ha1. rewrite (at_check _ _ _ _ Ha1). cbn [bind].
      rewrite (at_char _ _ _ _ Ha1). cbn [bind].
      assert (x =? ch "*" = false) as -> by (apply Z.eqb_neq; change (ch "*") with 42; unfold is_dec in Hx; lia).
      rewrite (p_digits_run source (x :: ds) (fuel0 source) _ r); try assumption; [|eapply at_fuel; exact Ha1].
      cbn [bind]. change (x :: ds ++ r) with ((x :: ds) ++ r) in Ha1. rewrite (at_slice _ _ _ _ Ha1). rewrite parseInt_dec by assumption.
      destruct (dec_value (x :: ds) <=? int_max) eqn:El; [apply Z.leb_le in El; lia|]. cbn [bind]. do 2 f_equal. lia.
    - apply (end_run pos h fl w p W P Ha Hh).
    - destruct (head_go pos h fl w p W P c r Ha Hh Hc) as (Ha1 & ->). unfold p_spec. rewrite (at_check _ _ _ _ Ha1). cbn [bind].
      rewrite (at_char _ _ _ _ Ha1). cbn [bind]. destruct (spec_of_char c) as [s|] eqn:E; [|reflexivity].
      apply spec_of_char_iff in E. exfalso. exact (Hs s E).
    - destruct (head_go pos h fl w p W P c _ Ha Hh (conv_not_continues _ _ _ _ Hc)) as (Ha1 & ->).
      rewrite (p_spec_run _ _ _ _ _ Ha1 Hc). cbn [bind]. apply at_next in Ha1.
      assert (isDateTimeSpec s = true) as -> by (destruct Hs; subst s; reflexivity).
      unfold p_date. rewrite (at_more _ _ _ _ Ha1), (at_char _ _ _ _ Ha1). cbn [bind].
      change (negb (123 =? ch "{")) with false. cbv iota zeta. apply at_next in Ha1.
      rewrite (proj2 (scan_none _ _ Ha1) Hn). cbn [bind]. do 2 f_equal. lia.
    - destruct (head_go pos h fl w p W P c _ Ha Hh (conv_not_continues _ _ _ _ Hc)) as (Ha1 & ->).
      rewrite (p_spec_run _ _ _ _ _ Ha1 Hc). cbn [bind]. apply at_next in Ha1.
      assert (isDateTimeSpec s = true) as -> by (destruct Hs; subst s; reflexivity).
      unfold p_date. rewrite (at_more _ _ _ _ Ha1), (at_char _ _ _ _ Ha1). cbn [bind].
      change (negb (123 =? ch "{")) with false. cbv iota zeta. apply at_next in Ha1.
      rewrite (p_scan_run source false [] pat_nil (fuel0 source) _ r Ha1 (at_fuel _ _ _ Ha1)). cbn [bind].
      change (zlen (@nil Z)) with 0. rewrite Z.add_0_r. unfold slice. rewrite Z.sub_diag. cbn [Z.to_nat firstn bind]. do 2 f_equal. lia.
    - destruct (head_go pos h fl w p W P c _ Ha Hh (conv_not_continues _ _ _ _ Hc)) as (Ha1 & ->).
      rewrite (p_spec_run _ _ _ _ _ Ha1 Hc). cbn [bind]. apply at_next in Ha1.
      assert (isDateTimeSpec s = true) as -> by (destruct Hs; subst s; reflexivity).
      unfold p_date. rewrite (at_more _ _ _ _ Ha1), (at_char _ _ _ _ Ha1). cbn [bind].
      change (negb (123 =? ch "{")) with false. cbv iota zeta. apply at_next in Ha1.
      rewrite (p_scan_run source false d Hp (fuel0 source) _ r Ha1 (at_fuel _ _ _ Ha1)). cbn [bind].
      rewrite (at_slice _ _ d _ Ha1). destruct d as [|x d]; [congruence|]. rewrite Hv. cbn [bind]. do 2 f_equal. lia.
    - destruct (head_go pos h fl w p W P c _ Ha Hh (conv_not_continues _ _ _ _ Hc)) as (Ha1 & ->).
      rewrite (p_spec_run _ _ _ _ _ Ha1 Hc). cbn [bind]. apply at_next in Ha1.
      rewrite (p_date_run _ _ _ _ _ _ _ Ha1 HT). cbn [bind]. unfold ctx_create.
      destruct Hh as (F & HF & HW & HP & _). apply width_form_raw in HW as (HW & _).
      rewrite (width_raw_check _ _ _ HW). apply Z.leb_gt in Hw. rewrite Hw. reflexivity.
    - destruct (head_go pos h fl w p W P c _ Ha Hh (conv_not_continues _ _ _ _ Hc)) as (Ha1 & ->).
      rewrite (p_spec_run _ _ _ _ _ Ha1 Hc). cbn [bind]. apply at_next in Ha1.
      rewrite (p_date_run _ _ _ _ _ _ _ Ha1 HT). cbn [bind]. unfold ctx_create.
      destruct Hh as (F & HF & HW & HP & _). apply width_form_raw in HW as (HW & _). apply prec_form_raw in HP.
      rewrite (width_raw_check _ _ _ HW), (prec_raw_check _ _ _ HP). apply Z.leb_le in Hw. apply Z.leb_gt in Hp. rewrite Hw, Hp. reflexivity.
  Qed.

  (** no slip begins with a second '%' *)
  Lemma slip_hd t x : slip dtf_valid t x -> hd_error t <> Some pct.
  Proof.
    assert (HH : forall h fl w p W P r c, head h fl w p W P -> hd_error (h ++ c :: r) = Some pct -> h = [] /\ c = pct).
    { intros h fl w p W P r c (F & (_ & HF & _) & HW & HP & ->) E. destruct F as [|f F].
      - destruct HW as [| |d ds Hd HD Hm].
        + destruct HP; [|discriminate|discriminate]. split; [reflexivity|]. cbn in E. congruence.
        + discriminate.
        + cbn in E. inversion HD as [|? ? Hx _]. injection E as E. subst. unfold is_dec, pct in Hx. lia.
      - cbn in E. injection E as E. subst f. assert (K : In pct flag_chars) by (apply HF; left; reflexivity).
        apply flag_char_cases in K. unfold pct in K. lia. }
    intros H E. destruct H as [F fl c r HF Hc|F fl ds r HF Hh HB|F fl W w ds r HF HW HB|h fl w p W P Hh|h fl w p W P c r Hh Hc Hs
      |h fl w p W P c s r Hh Hc Hs Hn|h fl w p W P c s r Hh Hc Hs|h fl w p W P c s d r Hh Hc Hs Hd Hp Hv
      |h fl w p W P c s T d r Hh Hc HT Hw|h fl w p W P c s T d r Hh Hc HT Hw Hp].
    - destruct F as [|f F]; [destruct Hc|]. cbn in E. injection E as ->. destruct HF as (_ & HF & _).
      assert (K : In pct flag_chars) by (apply HF; left; reflexivity). apply flag_char_cases in K. unfold pct in K. lia.
    - destruct F as [|f F].
      + apply too_big_no_digit in HB as (HD & HB & _). destruct ds as [|d ds]; [vm_compute in HB; discriminate|].
        cbn in E. injection E as ->. inversion HD as [|? ? Hx _]. unfold is_dec, pct in Hx. lia.
      + cbn in E. injection E as ->. destruct HF as (_ & HF & _).
        assert (K : In pct flag_chars) by (apply HF; left; reflexivity). apply flag_char_cases in K. unfold pct in K. lia.
    - rewrite app_assoc in E. destruct (HH (F ++ W) fl w UNSET W [] (ds ++ r) 46) as (_ & K); [|exact E|discriminate].
      exists F. rewrite app_nil_r. repeat split; try apply HF; [exact HW|constructor].
    - assert (E2 : hd_error (h ++ 0 :: []) = Some pct) by (destruct h; [discriminate|exact E]).
      destruct (HH _ _ _ _ _ _ _ _ Hh E2) as (_ & K). discriminate.
    - destruct (HH _ _ _ _ _ _ _ _ Hh E) as (_ & ->). exact (Hs Spct (conv_self Spct)).
    - destruct (HH _ _ _ _ _ _ _ _ Hh E) as (_ & ->). destruct Hs; subst s; apply spec_of_char_iff in Hc; discriminate.
    - destruct (HH _ _ _ _ _ _ _ _ Hh E) as (_ & ->). destruct Hs; subst s; apply spec_of_char_iff in Hc; discriminate.
    - destruct (HH _ _ _ _ _ _ _ _ Hh E) as (_ & ->). destruct Hs; subst s; apply spec_of_char_iff in Hc; discriminate.
    - destruct (HH _ _ _ _ _ _ _ _ Hh E) as (-> & _). destruct Hh as (F & _ & HW & _ & K). symmetry in K.
      apply app_eq_nil in K as (_ & K). apply app_eq_nil in K as (-> & _). inversion HW; subst. unfold UNSET in Hw. lia.
    - destruct (HH _ _ _ _ _ _ _ _ Hh E) as (-> & _). destruct Hh as (F & _ & _ & HP & K). symmetry in K.
      apply app_eq_nil in K as (_ & K). apply app_eq_nil in K as (_ & ->). inversion HP; subst. unfold UNSET in Hp. lia.
  Qed.

  Lemma slip_pattern fuel pos t x acc : at_ pos t -> slip dtf_valid t x -> (0 < fuel)%nat ->
    forPattern dtf_valid source fuel pos acc = Err (shifted pos x).
  Proof.
    intros Ha H Hf. destruct fuel as [|fuel]; [lia|]. cbn [forPattern]. pose proof (slip_hd _ _ H) as Hh. pose proof (slip_run _ _ _ Ha H) as R.
    destruct t as [|c t].
    - rewrite (end_run pos [] noFlags UNSET UNSET [] [] Ha) in R.
      + injection R as <-. change (zlen (@nil Z)) with 0. rewrite Z.add_0_r. unfold checkSource. rewrite (at_end _ _ Ha). reflexivity.
      + exists []. split; [apply take_flags_text; reflexivity|]. split; [constructor|]. split; [constructor|reflexivity].
    - rewrite (at_check _ _ _ _ Ha). cbn [bind]. rewrite (at_char _ _ _ _ Ha). cbn [bind].
      destruct (c =? ch "%") eqn:E.
      { apply Z.eqb_eq in E. subst c. exfalso. apply Hh. reflexivity. }
      rewrite R. reflexivity.
  Qed.

  Lemma date_text_grow s r T d X : date_text dtf_valid s r T d -> hd_error X <> Some 123 -> date_text dtf_valid s (r ++ X) T d.
  Proof.
    intros H HX. destruct H; [apply D_other; assumption| |apply D_pat; assumption].
    apply D_none; [assumption|]. destruct r; [exact HX|assumption].
  Qed.

  Lemma date_text_shrink s r T d X : date_text dtf_valid s (r ++ X) T d -> date_text dtf_valid s r T d.
  Proof.
    intros H. remember (r ++ X) as q eqn:E. destruct H; [apply D_other; assumption| |apply D_pat; assumption].
    apply D_none; [assumption|]. subst. destruct r; [discriminate|assumption].
  Qed.

  Lemma parse_prefix s ds : format dtf_valid s ds -> forall t fuel pos acc,
    at_ pos (s ++ pct :: t) -> (List.length (s ++ pct :: t) < fuel)%nat ->
    exists fuel', (0 < fuel')%nat /\
      parseNext dtf_valid source fuel pos acc = forPattern dtf_valid source fuel' (pos + zlen s + 1) (acc ++ ds).
  Proof.
    assert (Start : forall t f pos acc, at_ pos (pct :: t) -> parseNext dtf_valid source (S f) pos acc = forPattern dtf_valid source f (pos + 1) acc).
    { intros t f pos acc Ha. cbn [parseNext]. rewrite (at_more _ _ _ _ Ha), (at_char _ _ _ _ Ha). reflexivity. }
    induction 1 as [|lit r ds Hl Hn Hr H IH|r ds H IH|F fl W w P p c s T d r ds HF HW HP Hc HT Hne H IH]; intros t fuel pos acc Ha Hf.
    - cbn [app] in *. destruct fuel as [|f]; [cbn in Hf; lia|]. exists f. cbn in Hf. split; [lia|].
      rewrite (Start t); [|exact Ha]. change (zlen (@nil Z)) with 0. rewrite app_nil_r. f_equal. lia.
    - destruct fuel as [|f]; [lia|].
      assert (E : exists q, r ++ pct :: t = pct :: q).
      { destruct Hr as [->|Hr]; [exists t; reflexivity|]. destruct r as [|y r]; [discriminate|]. cbn in Hr. injection Hr as ->. exists (r ++ pct :: t). reflexivity. }
      destruct E as (q & E). rewrite <- app_assoc, E in Ha.
      assert (K : parseNext dtf_valid source (S f) pos acc = parseNext dtf_valid source (S f) (pos + zlen lit) (acc ++ [Fixed lit])).
      { rewrite (Start q f (pos + zlen lit) _ (at_app _ _ _ _ Ha)). cbn [parseNext]. destruct lit as [|y lit]; [congruence|].
        rewrite (at_more _ _ _ _ Ha), (at_char _ _ _ _ Ha). cbn [bind].
        assert (y =? ch "%" = false) as ->.
        { apply Z.eqb_neq. change (ch "%") with pct. intros ->. apply Hn. left. reflexivity. }
        unfold indexOfPercent. rewrite (at_skipn _ _ _ Ha). rewrite findPct_at by assumption. cbn [option_map].
        rewrite (at_slice _ _ _ _ Ha). reflexivity. }
      rewrite K. destruct (IH t (S f) (pos + zlen lit) (acc ++ [Fixed lit])) as (f' & Hp & E').
      + rewrite E. apply at_app. exact Ha.
      + rewrite !app_length in *. lia.
      + exists f'. split; [exact Hp|]. rewrite E', <- app_assoc, zlen_app. f_equal. lia.
    - destruct fuel as [|[|f]]; [cbn in Hf; lia|cbn in Hf; lia|]. cbn [app] in Ha. rewrite (Start _ _ _ _ Ha).
      cbn [forPattern]. apply at_next in Ha. rewrite (at_check _ _ _ _ Ha). cbn [bind]. rewrite (at_char _ _ _ _ Ha). cbn [bind].
      change (pct =? ch "%") with true. cbv iota. apply at_next in Ha.
      destruct (IH t f (pos + 1 + 1) (acc ++ [Fixed [pct]]) Ha) as (f' & Hp & E'); [cbn in Hf; lia|].
      exists f'. split; [exact Hp|]. etransitivity; [exact E'|]. rewrite <- app_assoc, !zlen_cons. f_equal. lia.
    - destruct fuel as [|[|f]]; [cbn in Hf; lia|cbn in Hf; lia|].
      assert (Eq : (pct :: F ++ W ++ P ++ c :: T ++ r) ++ pct :: t = pct :: F ++ W ++ P ++ c :: T ++ (r ++ pct :: t)).
      { cbn [app]. rewrite <- !app_assoc. cbn [app]. rewrite <- !app_assoc. reflexivity. }
      rewrite Eq in Ha, Hf. rewrite (Start _ _ _ _ Ha). apply at_next in Ha.
      assert (HT' : date_text dtf_valid s (r ++ pct :: t) T d) by (apply date_text_grow; [exact HT|discriminate]).
      assert (Eq2 : F ++ W ++ P ++ c :: T ++ (r ++ pct :: t) = (F ++ W ++ P ++ c :: T) ++ (r ++ pct :: t)) by (rewrite <- !app_assoc; reflexivity).
      destruct (F ++ W ++ P ++ c :: T ++ (r ++ pct :: t)) as [|y Y] eqn:EY.
      { exfalso. destruct F; [|discriminate]. destruct W; [|discriminate]. destruct P; discriminate. }
      cbn [forPattern]. rewrite (at_check _ _ _ _ Ha). cbn [bind]. rewrite (at_char _ _ _ _ Ha). cbn [bind].
      assert (y =? ch "%" = false) as ->.
      { apply Z.eqb_neq. change (ch "%") with pct. intros ->.
        pose proof (proj1 (width_text_raw _ _) HW) as (HW' & _). pose proof (proj1 (prec_text_raw _ _) HP) as (HP' & _).
        destruct F as [|g F].
        - destruct HW'; cbn in EY.
          + destruct HP'; cbn in EY; inversion EY; subst. apply Hne; reflexivity.
          + discriminate.
          + match goal with HD : Forall is_dec (_ :: _) |- _ => inversion HD; subst end. inversion EY; subst. unfold is_dec, pct in *. lia.
        - destruct HF as (_ & HF & _). cbn in EY. inversion EY; subst. assert (K : In pct flag_chars) by (apply HF; left; reflexivity).
          apply flag_char_cases in K. unfold pct in K. lia. }
      rewrite <- EY in Ha. rewrite (p_directive_run dtf_valid source (pos + 1) F fl W w P p c s T d _ Ha HF HW HP Hc HT'). cbn [bind].
      rewrite EY, Eq2 in Ha. apply at_app in Ha.
      destruct (IH t f (pos + 1 + zlen (F ++ W ++ P ++ c :: T)) (acc ++ [Default s (mkCtx fl w p d)]) Ha) as (f' & Hp & E').
      { rewrite Eq2 in Hf. cbn [List.length] in Hf. rewrite (app_length (F ++ W ++ P ++ c :: T)) in Hf.
        rewrite !(app_length F), !(app_length W), !(app_length P) in Hf. cbn [List.length] in Hf. lia. }
      exists f'. split; [exact Hp|]. etransitivity; [exact E'|]. rewrite <- app_assoc. f_equal.
      rewrite zlen_cons. rewrite !zlen_app, !zlen_cons, !zlen_app. lia.
  Qed.

  (** ** the whole parser *)
  Lemma parse_err : forall fuel,
    (forall pos t acc, at_ pos t -> (List.length t < fuel)%nat -> forall e, parseNext dtf_valid source fuel pos acc = Err e ->
       exists s ds t' x, t = s ++ pct :: t' /\ format dtf_valid s ds /\ slip dtf_valid t' x /\ e = shifted (pos + zlen s + 1) x) /\
    (forall pos t acc, at_ pos t -> (List.length t < fuel)%nat -> forall e, forPattern dtf_valid source fuel pos acc = Err e ->
       (exists s ds t' x, pct :: t = s ++ pct :: t' /\ format dtf_valid s ds /\ slip dtf_valid t' x /\ e = shifted (pos + zlen s) x)).
  Proof.
    induction fuel as [|fuel [IHn IHp]]; [split; intros; lia|]. split.
    - intros pos t acc Ha Hf e. cbn [parseNext]. destruct t as [|c t].
      { rewrite (at_end _ _ Ha). discriminate. }
      rewrite (at_more _ _ _ _ Ha), (at_char _ _ _ _ Ha). cbn [bind]. cbn in Hf.
      destruct (c =? ch "%") eqn:E.
      + apply Z.eqb_eq in E. change (ch "%") with pct in E. subst c. pose proof (at_next _ _ _ _ Ha) as Ha1. intros R.
        destruct (IHp (pos + 1) t acc Ha1 ltac:(lia) e R) as (s & ds & t' & x & E1 & E2 & E3 & E4).
        exists s, ds, t', x. repeat split; auto. rewrite E4. f_equal. lia.
      + apply Z.eqb_neq in E. change (ch "%") with pct in E. unfold indexOfPercent. rewrite (at_skipn _ _ _ Ha).
        pose proof (findPct_spec dtf_valid source (c :: t)) as Sp. destruct (findPct (c :: t)) as [n|]; cbn [option_map]; [|discriminate].
        destruct Sp as (lit & r & Es & Hn & En). subst n. rewrite Es in Ha. rewrite (at_slice _ _ _ _ Ha).
        pose proof (at_app _ _ _ _ Ha) as Ha1. apply at_next in Ha1.
        assert (Hlit : lit <> []) by (intros ->; cbn in Es; congruence).
        assert (Hr : (List.length r < fuel)%nat).
        { apply (f_equal (@List.length Z)) in Es. rewrite app_length in Es. cbn in Es. lia. }
        intros R. destruct (IHp _ r _ Ha1 Hr e R) as (s & ds & t' & x & E1 & E2 & E3 & E4).
        exists (lit ++ s), (Fixed lit :: ds), t', x. split; [rewrite Es, E1, <- app_assoc; reflexivity|].
        split; [|split; [exact E3|rewrite E4, zlen_app; f_equal; lia]].
        apply fmt_lit; auto. destruct s as [|y s]; [left; reflexivity|]. right. cbn in E1. injection E1 as <- _. reflexivity.
    - intros pos t acc Ha Hf e R.
      assert (Hnil : forall x, slip dtf_valid t x -> e = shifted pos x ->
        exists s ds t' x, pct :: t = s ++ pct :: t' /\ format dtf_valid s ds /\ slip dtf_valid t' x /\ e = shifted (pos + zlen s) x).
      { intros x Hx He. exists [], [], t, x. change (zlen (@nil Z)) with 0. rewrite Z.add_0_r. repeat split; auto. constructor. }
      revert R. cbn [forPattern]. destruct t as [|c t].
      { unfold checkSource. rewrite (at_end _ _ Ha). cbn [bind]. intros R. injection R as <-.
        apply (Hnil (Syntax UnexpectedEnd 0)).
        - apply (slip_end _ [] noFlags UNSET UNSET [] []). exists []. split; [apply take_flags_text; reflexivity|].
          split; [constructor|]. split; [constructor|reflexivity].
        - cbn [shifted]. rewrite Z.add_0_r. reflexivity. }
      rewrite (at_check _ _ _ _ Ha). cbn [bind]. rewrite (at_char _ _ _ _ Ha). cbn [bind]. cbn in Hf.
      destruct (c =? ch "%") eqn:E.
      + apply Z.eqb_eq in E. change (ch "%") with pct in E. subst c. pose proof (at_next _ _ _ _ Ha) as Ha1. intros R.
        destruct (IHn (pos + 1) t _ Ha1 ltac:(lia) e R) as (s & ds & t' & x & E1 & E2 & E3 & E4).
        exists (pct :: pct :: s), (Fixed [pct] :: ds), t', x. split; [rewrite E1; reflexivity|]. split; [constructor; exact E2|].
        split; [exact E3|]. rewrite E4, !zlen_cons. f_equal. lia.
      + apply Z.eqb_neq in E. change (ch "%") with pct in E.
        destruct (directive_err pos _ Ha) as [(F & fl & W & w & P & p & y & s & T & d & r & Et & HF & HW & HP & Hc & HT & R)|(x & Hx & R)];
          [cbn; congruence| |]; rewrite R; cbn [bind]; intros R2.
        * rewrite Et in Ha.
          assert (Eq : F ++ W ++ P ++ y :: T ++ r = (F ++ W ++ P ++ y :: T) ++ r) by (rewrite <- !app_assoc; reflexivity).
          rewrite Eq in Ha. pose proof (at_app _ _ _ _ Ha) as Ha1.
          assert (Hl : (List.length r < fuel)%nat).
          { apply (f_equal (@List.length Z)) in Et. rewrite !app_length in Et. cbn in Et. rewrite app_length in Et. lia. }
          destruct (IHn _ r _ Ha1 Hl e R2) as (s1 & ds & t' & x & E1 & E2 & E3 & E4).
          exists (pct :: F ++ W ++ P ++ y :: T ++ s1), (Default s (mkCtx fl w p d) :: ds), t', x.
          split.
          { rewrite Et, E1. cbn [app]. rewrite <- !app_assoc. cbn [app]. rewrite <- !app_assoc. reflexivity. }
          split.
          { apply fmt_dir; auto.
            - apply (date_text_shrink s s1 T d (pct :: t')). rewrite <- E1. exact HT.
            - intros He. apply app_eq_nil in He as (-> & He). apply app_eq_nil in He as (-> & ->). cbn in Et. congruence. }
          split; [exact E3|]. rewrite E4. f_equal. rewrite !zlen_cons, !zlen_app, !zlen_cons, !zlen_app. lia.
        * injection R2 as <-. apply (Hnil x); auto.
  Qed.
End Main.

Theorem compile_malformed dtf_valid src e : compile dtf_valid src = Err e <-> malformed dtf_valid src e.
Proof.
  unfold compile. split.
  - intros R. destruct (parse_err dtf_valid src (S (List.length src))) as (PN & _).
    destruct (PN 0 src [] (at_0 src) ltac:(lia) e R) as (s & ds & t & x & E1 & E2 & E3 & E4). exists s, ds, t, x. repeat split; auto.
  - intros (s & ds & t & x & -> & Hs & Hx & ->).
    destruct (parse_prefix dtf_valid (s ++ pct :: t) s ds Hs t (S (List.length (s ++ pct :: t))) 0 [] (at_0 _)) as (f & Hf & ->); [lia|].
    rewrite Z.add_0_l. apply (slip_pattern dtf_valid (s ++ pct :: t) f (zlen s + 1) t x); [|exact Hx|exact Hf].
    pose proof (at_0 (s ++ pct :: t)) as Ha. apply at_app in Ha. apply at_next in Ha. exact Ha.
Qed.
