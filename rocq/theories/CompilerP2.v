(** Main compiler theorems: soundness, completeness, totality, determinism of the grammar. *)
From Verif Require Import Base Digits UtilsM ContextM CompilerM GrammarSpec CompilerP.

(* ---------- flags ---------- *)

Definition hasc (c : Z) (fl : flags) : bool :=
  match flag_of_char c with Some g => hasF g fl | None => false end.

Lemma flag_chars_iff c : In c flag_chars <-> flag_of_char c <> None.
Proof.
  unfold flag_chars, flag_of_char. cbn.
  change (ch "-") with 45; change (ch "#") with 35; change (ch "+") with 43; change (ch " ") with 32; change (ch "0") with 48.
  split.
  - intros [<-|[<-|[<-|[<-|[<-|[]]]]]]; vm_compute; discriminate.
  - destruct (c =? 45) eqn:E1; [apply Z.eqb_eq in E1; subst c; intros _; auto 10|].
    destruct (c =? 35) eqn:E2; [apply Z.eqb_eq in E2; subst c; intros _; auto 10|].
    destruct (c =? 43) eqn:E3; [apply Z.eqb_eq in E3; subst c; intros _; auto 10|].
    destruct (c =? 32) eqn:E4; [apply Z.eqb_eq in E4; subst c; intros _; auto 10|].
    destruct (c =? 48) eqn:E5; [apply Z.eqb_eq in E5; subst c; intros _; auto 10|]. tauto.
Qed.

Definition union (fl : flags) (F : list Z) : flags :=
  mkFlags (f_left fl || existsb (Z.eqb 45) F) (f_alt fl || existsb (Z.eqb 35) F)
    (f_plus fl || existsb (Z.eqb 43) F) (f_space fl || existsb (Z.eqb 32) F) (f_zero fl || existsb (Z.eqb 48) F).

Lemma flag_char_cases c : In c flag_chars -> c = 45 \/ c = 35 \/ c = 43 \/ c = 32 \/ c = 48.
Proof. cbn. intros [<-|[<-|[<-|[<-|[<-|[]]]]]]; auto 10. Qed.

Lemma take_flags_iff F : forall fl fl',
  take_flags F fl = Some fl' <->
  NoDup F /\ incl F flag_chars /\ (forall c, In c F -> hasc c fl = false) /\ fl' = union fl F.
Proof.
  induction F as [|c F IH]; intros fl fl'; cbn [take_flags].
  - split.
    + intros H. inversion H; subst. repeat split; [constructor|intros x []|intros x []|].
      unfold union. cbn [existsb]. rewrite !orb_false_r. destruct fl'; reflexivity.
    + intros (_ & _ & _ & ->). unfold union. cbn [existsb]. rewrite !orb_false_r. destruct fl; reflexivity.
  - destruct (flag_of_char c) as [g|] eqn:Eg.
    + assert (Hin : In c flag_chars) by (apply flag_chars_iff; congruence).
      assert (Hu : union (addF g fl) F = union fl (c :: F)).
      { apply flag_char_cases in Hin. destruct Hin as [->|[->|[->|[->| ->]]]]; vm_compute in Eg; inversion Eg; subst g;
          unfold union, addF; cbn [f_left f_alt f_plus f_space f_zero existsb]; cbn [Z.eqb Pos.eqb orb];
          rewrite ?orb_true_r; reflexivity. }
      assert (Hh : forall x, In x flag_chars -> hasc x (addF g fl) = (x =? c) || hasc x fl).
      { intros x Hx. apply flag_char_cases in Hin, Hx.
        destruct Hin as [->|[->|[->|[->| ->]]]]; vm_compute in Eg; inversion Eg; subst g;
        destruct Hx as [->|[->|[->|[->| ->]]]]; reflexivity. }
      destruct (hasF g fl) eqn:Eh.
      * split; [discriminate|]. intros (_ & _ & H & _). exfalso. specialize (H c (or_introl eq_refl)).
        unfold hasc in H. rewrite Eg in H. congruence.
      * rewrite IH, Hu. split; intros (H1 & H2 & H3 & H4); repeat split; auto.
        -- constructor; auto. intros Hc. specialize (H3 c Hc). rewrite Hh in H3 by assumption.
           rewrite Z.eqb_refl in H3. discriminate.
        -- intros x [<-|Hx]; auto.
        -- intros x [<-|Hx]; [unfold hasc; rewrite Eg; assumption|]. specialize (H3 x Hx).
           rewrite Hh in H3 by auto. apply orb_false_elim in H3. tauto.
        -- inversion H1; assumption.
        -- intros x Hx. apply H2. right. assumption.
        -- intros x Hx. rewrite Hh by (apply H2; right; assumption). rewrite (H3 x) by (right; assumption).
           rewrite orb_false_r. apply Z.eqb_neq. intros ->. inversion H1; tauto.
    + split; [discriminate|]. intros (_ & H & _). exfalso. assert (In c flag_chars) by (apply H; left; reflexivity).
      apply flag_chars_iff in H0. tauto.
Qed.

Lemma take_flags_text F fl : take_flags F noFlags = Some fl <-> flags_text F fl.
Proof.
  rewrite take_flags_iff. unfold flags_text, union, noFlags. cbn [f_left f_alt f_plus f_space f_zero orb].
  split.
  - intros (H1 & H2 & _ & H3). auto.
  - intros (H1 & H2 & H3). repeat split; auto. intros c Hc. unfold hasc. destruct (flag_of_char c) as [[]|]; reflexivity.
Qed.

Lemma width_text_raw W w : width_text W w <-> width_raw W w /\ w <= 65536 /\ hd_error W <> Some 48.
Proof.
  split.
  - intros H. destruct H.
    + split; [constructor|split; [unfold UNSET; lia|discriminate]].
    + split; [constructor|split; [unfold PRECEDING, int_min; lia|discriminate]].
    + split; [constructor; [assumption|unfold int_max; lia]|split; [assumption|cbn; congruence]].
  - intros (H & Hle & Hh). destruct H.
    + constructor.
    + change [42] with (txt "*"). constructor.
    + constructor; auto. cbn in Hh. congruence.
Qed.

Lemma prec_text_raw P p : prec_text P p <-> prec_raw P p /\ p <= 65536.
Proof.
  split.
  - intros H. destruct H.
    + split; [constructor|unfold UNSET; lia].
    + split; [constructor|unfold PRECEDING, int_min; lia].
    + split; [constructor; [assumption|unfold int_max; lia]|assumption].
  - intros (H & Hle). destruct H.
    + constructor.
    + change [46; 42] with (txt ".*"). constructor.
    + constructor; auto.
Qed.

Lemma width_raw_check k W w : width_raw W w ->
  checkValue k w = (if w <=? 65536 then Ok tt else Err (Printf k)).
Proof.
  intros H. destruct H; try reflexivity.
  pose proof (dec_value_nonneg _ H) as Hn. unfold checkValue.
  assert (dec_value (d :: ds) <? 0 = false) as -> by (apply Z.ltb_ge; lia). cbn [andb].
  unfold MAX_WP. rewrite Z.ltb_antisym. destruct (dec_value (d :: ds) <=? 65536); reflexivity.
Qed.

Lemma prec_raw_check k P p : prec_raw P p ->
  checkValue k p = (if p <=? 65536 then Ok tt else Err (Printf k)).
Proof.
  intros H. destruct H; try reflexivity.
  pose proof (dec_value_nonneg _ H) as Hn. unfold checkValue.
  assert (dec_value ds <? 0 = false) as -> by (apply Z.ltb_ge; lia). cbn [andb].
  unfold MAX_WP. rewrite Z.ltb_antisym. destruct (dec_value ds <=? 65536); reflexivity.
Qed.

Lemma flags_no_flag_head W P c s w p X : width_raw W w -> hd_error W <> Some 48 -> prec_raw P p -> conv_char c s ->
  no_flag (W ++ P ++ c :: X).
Proof.
  intros HW Hh HP Hc. destruct (conv_char_plain _ _ Hc) as (Hn & _).
  assert (HPn : no_flag (P ++ c :: X)).
  { destruct HP; cbn [app no_flag]; [exact Hn|reflexivity|reflexivity]. }
  destruct HW; cbn [app no_flag]; [exact HPn|reflexivity|].
  cbn in Hh. inversion H; subst. unfold is_dec in H3. unfold flag_of_char.
  change (ch "-") with 45; change (ch "#") with 35; change (ch "+") with 43; change (ch " ") with 32; change (ch "0") with 48.
  repeat match goal with |- context [?a =? ?b] => destruct (Z.eqb_spec a b) as [Hq|]; [first [lia|subst; congruence]|] end.
  reflexivity.
Qed.

Lemma after_width_ok W w P p c s X : width_raw W w -> prec_raw P p -> conv_char c s ->
  after_width W (P ++ c :: X).
Proof.
  intros HW HP Hc. destruct (conv_char_plain _ _ Hc) as (_ & Hd & H42 & _).
  assert (Hn : no_digit (P ++ c :: X)) by (destruct HP; cbn; unfold is_dec in *; lia).
  destruct HW.
  - right. left. repeat split; auto.
    + destruct HP; cbn; congruence.
    + destruct P; discriminate.
  - left. reflexivity.
  - right. right. split; [discriminate|assumption].
Qed.

Lemma after_prec_ok P p c s X : prec_raw P p -> conv_char c s -> after_prec P (c :: X).
Proof.
  intros HP Hc. destruct (conv_char_plain _ _ Hc) as (_ & Hd & H42 & H46). destruct HP.
  - right. left. split; [reflexivity|cbn; congruence].
  - left. reflexivity.
  - destruct ds.
    + right. right. left. repeat split; auto; [cbn; congruence|discriminate].
    + right. right. right. repeat split; [discriminate|congruence|assumption].
Qed.

Section Main.
  Variable dtf_valid : list Z -> bool.
  Variable source : list Z.
  Notation at_ := (at_ source).

  Lemma p_spec_run pos c s r : at_ pos (c :: r) -> conv_char c s -> p_spec source pos = Ok (s, pos + 1).
  Proof.
    intros Ha Hc. unfold p_spec. rewrite (at_check _ _ _ _ Ha). cbn [bind]. rewrite (at_char _ _ _ _ Ha). cbn [bind].
    apply spec_of_char_iff in Hc. rewrite Hc. reflexivity.
  Qed.

  Lemma p_date_run pos s T r d : at_ pos (T ++ r) -> date_text dtf_valid s r T d ->
    (if isDateTimeSpec s then p_date dtf_valid source pos else Ok (None, pos)) = Ok (d, pos + zlen T).
  Proof.
    intros Ha H. destruct H.
    - change (zlen (@nil Z)) with 0. rewrite Z.add_0_r. destruct s; try congruence; reflexivity.
    - assert (isDateTimeSpec s = true) as -> by (destruct H; subst s; reflexivity).
      change (zlen (@nil Z)) with 0. rewrite Z.add_0_r. unfold p_date. cbn [app] in Ha. destruct r as [|c r].
      + rewrite (at_end _ _ Ha). reflexivity.
      + rewrite (at_more _ _ _ _ Ha), (at_char _ _ _ _ Ha). cbn [bind].
        destruct (c =? ch "{") eqn:E; [|reflexivity]. apply Z.eqb_eq in E. subst. cbn in H0. congruence.
    - assert (isDateTimeSpec s = true) as -> by (destruct H; subst s; reflexivity).
      unfold p_date. cbn [app] in Ha. rewrite (at_more _ _ _ _ Ha), (at_char _ _ _ _ Ha). cbn [bind].
      change (negb (123 =? ch "{")) with false. cbv iota zeta. pose proof (at_next _ _ _ _ Ha) as Ha1.
      rewrite <- app_assoc in Ha1. cbn [app] in Ha1.
      rewrite (p_scan_run source false p H1 (fuel0 source) (pos + 1) r Ha1 (at_fuel _ _ _ Ha1)). cbn [bind].
      rewrite (at_slice _ _ _ _ Ha1). destruct p as [|x p]; [congruence|]. rewrite H2.
      rewrite !zlen_app, !zlen_one. do 2 f_equal. lia.
  Qed.

  Lemma p_directive_run pos F fl W w P p c s T d r :
    at_ pos (F ++ W ++ P ++ c :: T ++ r) ->
    flags_text F fl -> width_text W w -> prec_text P p -> conv_char c s -> date_text dtf_valid s r T d ->
    p_directive dtf_valid source pos =
      Ok (Default s (mkCtx fl w p d), pos + zlen (F ++ W ++ P ++ c :: T)).
  Proof.
    intros Ha HF HW HP Hc HT. apply take_flags_text in HF. apply width_text_raw in HW as (HW & Hw & Hh).
    apply prec_text_raw in HP as (HP & Hp). unfold p_directive.
    rewrite (p_flags_run source F (fuel0 source) pos (W ++ P ++ c :: T ++ r) noFlags fl Ha (at_fuel _ _ _ Ha) HF
               (flags_no_flag_head _ _ _ _ _ _ _ HW Hh HP Hc)). cbn [bind].
    apply at_app in Ha.
    rewrite (p_width_run source W w _ _ Ha HW (after_width_ok _ _ _ _ _ _ _ HW HP Hc)). cbn [bind].
    apply at_app in Ha.
    rewrite (p_prec_run source P p _ _ Ha HP (after_prec_ok _ _ _ _ _ HP Hc)). cbn [bind].
    apply at_app in Ha. rewrite (p_spec_run _ _ _ _ Ha Hc). cbn [bind]. apply at_next in Ha.
    rewrite (p_date_run _ _ _ _ _ Ha HT). cbn [bind]. unfold ctx_create.
    rewrite (width_raw_check _ _ _ HW), (prec_raw_check _ _ _ HP).
    apply Z.leb_le in Hw, Hp. rewrite Hw, Hp. cbn [bind]. do 2 f_equal.
    rewrite !zlen_app, zlen_cons. lia.
  Qed.

  Lemma p_date_inv pos s t : at_ pos t ->
    (exists T d r, t = T ++ r /\ date_text dtf_valid s r T d /\
       (if isDateTimeSpec s then p_date dtf_valid source pos else Ok (None, pos)) = Ok (d, pos + zlen T)) \/
    (exists k i, (if isDateTimeSpec s then p_date dtf_valid source pos else Ok (None, pos)) = Err (Syntax k i)
       /\ pos <= i <= zlen source).
  Proof.
    intros Ha. destruct (isDateTimeSpec s) eqn:Es.
    2:{ left. exists [], None, t. change (zlen (@nil Z)) with 0. rewrite Z.add_0_r. repeat split.
        constructor; intros ->; discriminate. }
    assert (Hs : s = St \/ s = ST) by (destruct s; try discriminate; auto).
    assert (Hnone : hd_error t <> Some 123 -> exists T d r, t = T ++ r /\ date_text dtf_valid s r T d /\
       p_date dtf_valid source pos = Ok (d, pos + zlen T)).
    { intros Hh. exists [], None, t. assert (D : date_text dtf_valid s t [] None) by (apply D_none; assumption).
      repeat split; auto. pose proof (p_date_run pos s [] t None Ha D) as R. rewrite Es in R. exact R. }
    destruct t as [|c t]; [left; apply Hnone; discriminate|].
    destruct (Z.eq_dec c 123) as [->|Hc]; [|left; apply Hnone; cbn; congruence].
    unfold p_date. rewrite (at_more _ _ _ _ Ha), (at_char _ _ _ _ Ha). cbn [bind].
    change (negb (123 =? ch "{")) with false. cbv iota zeta. pose proof (at_next _ _ _ _ Ha) as Ha1.
    pose proof (at_range _ _ _ Ha) as Hr. pose proof (at_range _ _ _ Ha1) as Hr1.
    destruct (p_scan_inv source (fuel0 source) (pos + 1) t false Ha1 (at_fuel _ _ _ Ha1)) as [(p & r & E & Hp & Hs')|Hs'].
    - rewrite Hs'. cbn [bind]. rewrite E in Ha1. rewrite (at_slice _ _ _ _ Ha1).
      destruct p as [|x p].
      + right. exists EmptyDate, (pos + 1). split; [reflexivity|lia].
      + destruct (dtf_valid (x :: p)) eqn:Ev.
        * left. exists ([123] ++ (x :: p) ++ [125]), (Some (x :: p)), r. repeat split.
          -- subst t. cbn [app]. rewrite <- app_assoc. reflexivity.
          -- apply D_pat; auto. discriminate.
          -- rewrite !zlen_app, !zlen_one. do 2 f_equal. lia.
        * right. exists InvalidDate, (pos + 1). split; [reflexivity|lia].
    - rewrite Hs'. cbn [bind]. right. exists UnclosedDate, pos. split; [reflexivity|lia].
  Qed.

  Lemma p_directive_inv pos t : at_ pos t ->
    (exists F fl W w P p c s T d r, t = F ++ W ++ P ++ c :: T ++ r /\
      flags_text F fl /\ width_text W w /\ prec_text P p /\ conv_char c s /\ date_text dtf_valid s r T d /\
      p_directive dtf_valid source pos = Ok (Default s (mkCtx fl w p d), pos + zlen (F ++ W ++ P ++ c :: T))) \/
    (exists k i, p_directive dtf_valid source pos = Err (Syntax k i) /\ pos <= i <= zlen source) \/
    p_directive dtf_valid source pos = Err (Printf WidthRange) \/
    p_directive dtf_valid source pos = Err (Printf PrecisionRange).
  Proof.
    intros Ha. unfold p_directive.
    destruct (p_flags_inv source (fuel0 source) pos t noFlags Ha (at_fuel _ _ _ Ha)) as [(F & r1 & fl & E & HF & Hnf & Hr)|(i & Hr & Hi)];
      rewrite Hr; cbn [bind].
    2:{ right. left. exists DuplicateFlag, i. split; [reflexivity|lia]. }
    subst t. apply at_app in Ha. pose proof (zlen_nonneg F).
    destruct (p_width_inv source _ _ Ha) as [(W & w & r2 & E & HW & _ & Hr2)|(k & i & Hr2 & Hi)]; rewrite Hr2; cbn [bind].
    2:{ right. left. exists k, i. split; [reflexivity|lia]. }
    subst r1. apply at_app in Ha. pose proof (zlen_nonneg W).
    destruct (p_prec_inv source _ _ Ha) as [(P & p & r3 & E & HP & _ & Hr3)|(k & i & Hr3 & Hi)]; rewrite Hr3; cbn [bind].
    2:{ right. left. exists k, i. split; [reflexivity|lia]. }
    subst r2. apply at_app in Ha. pose proof (zlen_nonneg P). pose proof (at_range _ _ _ Ha) as Hrg.
    unfold p_spec at 1 2 3 4. destruct r3 as [|c r3].
    { unfold checkSource. rewrite (at_end _ _ Ha). cbn [bind]. right. left. eexists _, _. split; [reflexivity|lia]. }
    rewrite (at_check _ _ _ _ Ha). cbn [bind]. rewrite (at_char _ _ _ _ Ha). cbn [bind].
    destruct (spec_of_char c) as [s|] eqn:Es; cbn [bind].
    2:{ right. left. eexists _, _. split; [reflexivity|lia]. }
    apply spec_of_char_iff in Es. apply at_next in Ha.
    destruct (p_date_inv _ s _ Ha) as [(T & d & r4 & E & HT & Hr4)|(k & i & Hr4 & Hi)]; rewrite Hr4; cbn [bind].
    2:{ right. left. exists k, i. split; [reflexivity|lia]. }
    subst r3. unfold ctx_create. rewrite (width_raw_check _ _ _ HW), (prec_raw_check _ _ _ HP).
    destruct (w <=? 65536) eqn:Ew; cbn [bind]; [|right; right; left; reflexivity].
    destruct (p <=? 65536) eqn:Ep; cbn [bind]; [|right; right; right; reflexivity].
    left. apply Z.leb_le in Ew, Ep. exists F, fl, W, w, P, p, c, s, T, d, r4.
    split; [reflexivity|]. split; [apply take_flags_text; exact HF|].
    split; [apply width_text_raw; repeat split; auto; intros Hh; destruct W; [discriminate|]; cbn in Hh, Hnf; inversion Hh; subst; discriminate|].
    split; [apply prec_text_raw; auto|]. split; [assumption|]. split; [assumption|].
    do 2 f_equal. rewrite !zlen_app, zlen_cons. lia.
  Qed.

  Lemma findPct_spec s :
    match findPct s with
    | None => ~ In pct s
    | Some n => exists t r, s = t ++ pct :: r /\ ~ In pct t /\ n = zlen t
    end.
  Proof.
    induction s as [|c s IH]; cbn [findPct]; [intros []|].
    destruct (c =? ch "%") eqn:E.
    - apply Z.eqb_eq in E. change (ch "%") with pct in E. subst c. exists [], s. repeat split. intros [].
    - apply Z.eqb_neq in E. change (ch "%") with pct in E. destruct (findPct s) as [n|]; cbn [option_map].
      + destruct IH as (t & r & Es & Hn & En). exists (c :: t), r. subst s n. repeat split.
        * intros [Hc|Hc]; [congruence|tauto].
        * rewrite zlen_cons. lia.
      + intros [Hc|Hc]; [congruence|tauto].
  Qed.

  Lemma findPct_at t r : ~ In pct t -> findPct (t ++ pct :: r) = Some (zlen t).
  Proof.
    induction t as [|c t IH]; intros Hn; cbn [app findPct].
    - reflexivity.
    - destruct (c =? ch "%") eqn:E; [apply Z.eqb_eq in E; exfalso; apply Hn; left; exact E|].
      rewrite IH by (intros Hx; apply Hn; right; exact Hx). cbn [option_map]. rewrite zlen_cons. f_equal. lia.
  Qed.

  Lemma findPct_none t : ~ In pct t -> findPct t = None.
  Proof.
    intros H. pose proof (findPct_spec t) as S. destruct (findPct t); [|reflexivity].
    destruct S as (a & b & E & _). exfalso. apply H. rewrite E. apply in_or_app. right. left. reflexivity.
  Qed.

  (** The outcome of parsing from a position: a value in the grammar, or an error located in the source. *)
  Definition good_err (pos : Z) (e : exn) : Prop :=
    (exists k i, e = Syntax k i /\ pos <= i <= zlen source) \/ e = Printf WidthRange \/ e = Printf PrecisionRange.

  Lemma good_err_le a b e : a <= b -> good_err b e -> good_err a e.
  Proof. intros H [(k & i & E & R)|[E|E]]; [left; exists k, i; split; [exact E|lia]|right; left; exact E|right; right; exact E]. Qed.

  Lemma parse_outcome : forall fuel,
    (forall pos t acc, at_ pos t -> (List.length t < fuel)%nat ->
       (exists ds, parseNext dtf_valid source fuel pos acc = Ok (acc ++ ds) /\ format dtf_valid t ds) \/
       (exists e, parseNext dtf_valid source fuel pos acc = Err e /\ good_err pos e)) /\
    (forall pos t acc, at_ pos t -> (List.length t < fuel)%nat ->
       (exists ds, forPattern dtf_valid source fuel pos acc = Ok (acc ++ ds) /\ format dtf_valid (pct :: t) ds) \/
       (exists e, forPattern dtf_valid source fuel pos acc = Err e /\ good_err pos e)).
  Proof.
    induction fuel as [|fuel [IHn IHp]]; [split; intros; lia|]. split.
    - intros pos t acc Ha Hf. cbn [parseNext]. destruct t as [|c t].
      { rewrite (at_end _ _ Ha). left. exists []. rewrite app_nil_r. split; [reflexivity|constructor]. }
      rewrite (at_more _ _ _ _ Ha), (at_char _ _ _ _ Ha). cbn [bind]. cbn in Hf.
      destruct (c =? ch "%") eqn:E.
      + apply Z.eqb_eq in E. change (ch "%") with pct in E. subst c. pose proof (at_next _ _ _ _ Ha) as Ha1.
        destruct (IHp (pos + 1) t acc Ha1) as [(ds & R & D)|(e & R & G)]; [lia| |].
        * left. exists ds. split; assumption.
        * right. exists e. split; [exact R|]. eapply good_err_le; [|exact G]. lia.
      + apply Z.eqb_neq in E. change (ch "%") with pct in E. unfold indexOfPercent. rewrite (at_skipn _ _ _ Ha).
        pose proof (findPct_spec (c :: t)) as Sp. destruct (findPct (c :: t)) as [n|]; cbn [option_map].
        * destruct Sp as (lit & r & Es & Hn & En). subst n. rewrite Es in Ha. rewrite (at_slice _ _ _ _ Ha).
          pose proof (at_app _ _ _ _ Ha) as Ha1. apply at_next in Ha1.
          assert (Hlit : lit <> []) by (intros ->; cbn in Es; congruence).
          assert (List.length r < fuel)%nat.
          { apply (f_equal (@List.length Z)) in Es. rewrite app_length in Es. cbn in Es. lia. }
          destruct (IHp _ r (acc ++ [Fixed lit]) Ha1) as [(ds & R & D)|(e & R & G)]; [assumption| |].
          -- left. exists (Fixed lit :: ds). split; [rewrite <- app_assoc in R; exact R|]. rewrite Es.
             apply fmt_lit; auto.
          -- right. exists e. split; [exact R|]. eapply good_err_le; [|exact G]. pose proof (zlen_nonneg lit). lia.
        * left. exists [Fixed (c :: t)]. pose proof (at_range _ _ _ Ha) as [_ Hz]. rewrite Hz.
          replace (c :: t) with ((c :: t) ++ []) in Ha by apply app_nil_r. rewrite (at_slice _ _ _ _ Ha).
          split; [reflexivity|]. replace (c :: t) with ((c :: t) ++ []) at 1 by apply app_nil_r.
          apply fmt_lit; auto; [discriminate|constructor].
    - intros pos t acc Ha Hf. cbn [forPattern]. destruct t as [|c t].
      { unfold checkSource. rewrite (at_end _ _ Ha). cbn [bind]. right. eexists. split; [reflexivity|].
        left. eexists _, _. split; [reflexivity|]. apply at_range in Ha. lia. }
      rewrite (at_check _ _ _ _ Ha). cbn [bind]. rewrite (at_char _ _ _ _ Ha). cbn [bind]. cbn in Hf.
      destruct (c =? ch "%") eqn:E.
      + apply Z.eqb_eq in E. change (ch "%") with pct in E. subst c. pose proof (at_next _ _ _ _ Ha) as Ha1.
        destruct (IHn (pos + 1) t (acc ++ [Fixed [ch "%"]]) Ha1) as [(ds & R & D)|(e & R & G)]; [lia| |].
        * left. exists (Fixed [pct] :: ds). split; [rewrite <- app_assoc in R; exact R|]. constructor. exact D.
        * right. exists e. split; [exact R|]. eapply good_err_le; [|exact G]. lia.
      + apply Z.eqb_neq in E. change (ch "%") with pct in E.
        destruct (p_directive_inv pos _ Ha) as [(F & fl & W & w & P & p & x & s & T & d & r & Et & HF & HW & HP & Hc & HT & R)|[(k & i & R & Hi)|[R|R]]];
          rewrite R; cbn [bind].
        * rewrite Et in Ha.
          assert (Eq : F ++ W ++ P ++ x :: T ++ r = (F ++ W ++ P ++ x :: T) ++ r) by (rewrite <- !app_assoc; reflexivity).
          rewrite Eq in Ha. pose proof (at_app _ _ _ _ Ha) as Ha1.
          assert (List.length r < fuel)%nat.
          { apply (f_equal (@List.length Z)) in Et. rewrite !app_length in Et. cbn in Et. rewrite app_length in Et. lia. }
          destruct (IHn _ r (acc ++ [Default s (mkCtx fl w p d)]) Ha1) as [(ds & R2 & D)|(e & R2 & G)]; [assumption| |].
          -- left. exists (Default s (mkCtx fl w p d) :: ds). split; [rewrite <- app_assoc in R2; exact R2|].
             rewrite Et. apply fmt_dir; auto. intros He. apply app_eq_nil in He as (-> & He). apply app_eq_nil in He as (-> & ->).
             cbn in Et. congruence.
          -- right. exists e. split; [exact R2|]. eapply good_err_le; [|exact G].
             pose proof (zlen_nonneg (F ++ W ++ P ++ x :: T)). lia.
        * right. eexists. split; [reflexivity|]. left. exists k, i. auto.
        * right. eexists. split; [reflexivity|]. right. left. reflexivity.
        * right. eexists. split; [reflexivity|]. right. right. reflexivity.
  Qed.

  (** Completeness: text in the grammar is parsed to exactly its pieces. *)
  Lemma format_pct_inv t ds : format dtf_valid (pct :: t) ds ->
    (exists r ds', t = pct :: r /\ ds = Fixed [pct] :: ds' /\ format dtf_valid r ds') \/
    (exists F fl W w P p c s T d r ds', t = F ++ W ++ P ++ c :: T ++ r /\
       flags_text F fl /\ width_text W w /\ prec_text P p /\ conv_char c s /\ date_text dtf_valid s r T d /\
       (F ++ W ++ P = [] -> c <> pct) /\ ds = Default s (mkCtx fl w p d) :: ds' /\ format dtf_valid r ds').
  Proof.
    intros H. inversion H; subst.
    - exfalso. destruct t0 as [|x t0]; [congruence|]. cbn in H0. inversion H0; subst. apply H2. left. reflexivity.
    - left. eauto.
    - right. exists F, fl, W, w, P, p, c, s, T, d, r, ds0. do 8 (split; [first [reflexivity|assumption]|]). assumption.
  Qed.

  Lemma parse_complete : forall n,
    (forall fuel pos t ds acc, (List.length t <= n)%nat -> at_ pos t -> (List.length t < fuel)%nat -> format dtf_valid t ds ->
       parseNext dtf_valid source fuel pos acc = Ok (acc ++ ds)) /\
    (forall fuel pos t ds acc, (List.length t <= n)%nat -> at_ pos t -> (List.length t < fuel)%nat -> format dtf_valid (pct :: t) ds ->
       forPattern dtf_valid source fuel pos acc = Ok (acc ++ ds)).
  Proof.
    induction n as [|n [IHn IHp]].
    - assert (P0 : forall fuel pos t ds acc, (List.length t <= 0)%nat -> at_ pos t -> (List.length t < fuel)%nat -> format dtf_valid (pct :: t) ds ->
         forPattern dtf_valid source fuel pos acc = Ok (acc ++ ds)).
      { intros fuel pos t ds acc Hl Ha Hf H. destruct t; [|cbn in Hl; lia].
        apply format_pct_inv in H as [(r & ds' & E & _)|(F & fl & W & w & P & p & c & s & T & d & r & ds' & E & _)]; [discriminate|].
        destruct F; [|discriminate]. destruct W; [|discriminate]. destruct P; discriminate. }
      split; [|exact P0].
      intros fuel pos t ds acc Hl Ha Hf H. destruct t; [|cbn in Hl; lia]. destruct fuel; [lia|]. cbn [parseNext].
      rewrite (at_end _ _ Ha). inversion H; subst.
      + rewrite app_nil_r. reflexivity.
      + destruct t; [congruence|discriminate].
    - assert (Pn : forall fuel pos t ds acc, (List.length t <= S n)%nat -> at_ pos t -> (List.length t < fuel)%nat -> format dtf_valid (pct :: t) ds ->
         forPattern dtf_valid source fuel pos acc = Ok (acc ++ ds)).
      { intros fuel pos t ds acc Hl Ha Hf H. destruct fuel as [|fuel]; [lia|]. cbn [forPattern].
        apply format_pct_inv in H as [(r & ds' & E & Ed & Hr)|(F & fl & W & w & P & p & c & s & T & d & r & ds' & E & HF & HW & HP & Hc & HT & Hne & Ed & Hr)].
        - subst t ds. rewrite (at_check _ _ _ _ Ha). cbn [bind]. rewrite (at_char _ _ _ _ Ha). cbn [bind].
          change (pct =? ch "%") with true. cbv iota. cbn in Hl, Hf.
          rewrite (IHn fuel (pos + 1) r ds'); [rewrite <- app_assoc; reflexivity|lia|eapply at_next; eassumption|lia|assumption].
        - assert (Eq : F ++ W ++ P ++ c :: T ++ r = (F ++ W ++ P ++ c :: T) ++ r) by (rewrite <- !app_assoc; reflexivity).
          assert (Hlen : (List.length t = List.length F + List.length W + List.length P + S (List.length T + List.length r))%nat).
          { rewrite E. rewrite !app_length. cbn. rewrite app_length. lia. }
          destruct t as [|x t]; [cbn in Hlen; lia|].
          rewrite (at_check _ _ _ _ Ha). cbn [bind]. rewrite (at_char _ _ _ _ Ha). cbn [bind].
          assert (Hx : x =? ch "%" = false).
          { apply Z.eqb_neq. change (ch "%") with pct. intros ->.
            pose proof HF as HF'. apply take_flags_text in HF'.
            destruct F as [|f F].
            - apply width_text_raw in HW as (HW & _). destruct HW; cbn in E.
              + apply prec_text_raw in HP as (HP & _). destruct HP; cbn in E; inversion E; subst. apply Hne; reflexivity.
              + discriminate.
              + inversion H; subst. inversion E; subst. unfold is_dec, pct in *. lia.
            - destruct HF as (_ & HF & _). cbn in E. inversion E; subst. assert (In pct flag_chars) by (apply HF; left; reflexivity).
              apply flag_char_cases in H. unfold pct in H. lia. }
          rewrite Hx. rewrite E in Ha.
          rewrite (p_directive_run pos F fl W w P p c s T d r Ha HF HW HP Hc HT). cbn [bind].
          subst ds. rewrite Eq in Ha. apply at_app in Ha.
          rewrite (IHn fuel _ r ds'); [rewrite <- app_assoc; reflexivity|lia|eassumption|lia|assumption]. }
      split; [|exact Pn].
      intros fuel pos t ds acc Hl Ha Hf H. destruct fuel as [|fuel]; [lia|]. cbn [parseNext].
      inversion H; subst.
      + rewrite (at_end _ _ Ha), app_nil_r. reflexivity.
      + destruct t0 as [|x lit]; [congruence|]. pose proof Ha as Ha'. cbn [app] in Ha.
        rewrite (at_more _ _ _ _ Ha), (at_char _ _ _ _ Ha). cbn [bind].
        assert (x =? ch "%" = false) as ->.
        { apply Z.eqb_neq. change (ch "%") with pct. intros ->. apply H1. left. reflexivity. }
        unfold indexOfPercent. rewrite (at_skipn _ _ _ Ha').
        destruct H2 as [->|Hh].
        * inversion H3; subst.
          -- rewrite app_nil_r in Ha' |- *. rewrite findPct_none by assumption. cbn [option_map].
             pose proof (at_range _ _ _ Ha') as [_ Hz]. rewrite Hz.
             replace (x :: lit) with ((x :: lit) ++ []) in Ha' by apply app_nil_r. rewrite (at_slice _ _ _ _ Ha'). reflexivity.
          -- destruct t; [congruence|discriminate].
        * destruct r as [|y r]; [discriminate|]. cbn in Hh. inversion Hh; subst.
          rewrite findPct_at by assumption. cbn [option_map]. rewrite (at_slice _ _ _ _ Ha').
          pose proof (at_app _ _ _ _ Ha') as Ha1. apply at_next in Ha1.
          cbn in Hl, Hf. rewrite app_length in Hl, Hf. cbn in Hl, Hf.
          rewrite (IHp fuel _ r ds0); [rewrite <- app_assoc; reflexivity|lia|assumption|lia|assumption].
      + rewrite (at_more _ _ _ _ Ha), (at_char _ _ _ _ Ha). cbn [bind]. change (pct =? ch "%") with true. cbv iota.
        cbn in Hl, Hf. rewrite (IHp fuel (pos + 1) (pct :: r) (Fixed [pct] :: ds0)); [reflexivity|cbn; lia|eapply at_next; eassumption|cbn; lia|assumption].
      + rewrite (at_more _ _ _ _ Ha), (at_char _ _ _ _ Ha). cbn [bind]. change (pct =? ch "%") with true. cbv iota.
        cbn in Hl, Hf. rewrite (IHp fuel (pos + 1) (F ++ W ++ P ++ c :: T ++ r) (Default s (mkCtx fl w p d) :: ds0));
          [reflexivity|lia|eapply at_next; eassumption|lia|assumption].
  Qed.
End Main.

(** compile succeeds exactly on the grammar, with the pieces the grammar assigns. *)
Lemma compile_iff dtf_valid s ds : compile dtf_valid s = Ok ds <-> format dtf_valid s ds.
Proof.
  unfold compile. split.
  - intros H. destruct (parse_outcome dtf_valid s (S (List.length s))) as [PO _].
    destruct (PO 0 s [] (at_0 s)) as [(ds' & R & D)|(e & R & _)]; [lia| |]; rewrite R in H; [|discriminate].
    inversion H; subst. exact D.
  - intros H. destruct (parse_complete dtf_valid s (List.length s)) as [PC _].
    apply (PC (S (List.length s)) 0 s ds []); [lia|apply at_0|lia|exact H].
Qed.

Lemma compile_total dtf_valid s :
  (exists ds, compile dtf_valid s = Ok ds) \/
  (exists k i, compile dtf_valid s = Err (Syntax k i) /\ 0 <= i <= zlen s) \/
  compile dtf_valid s = Err (Printf WidthRange) \/ compile dtf_valid s = Err (Printf PrecisionRange).
Proof.
  unfold compile. destruct (parse_outcome dtf_valid s (S (List.length s))) as [PO _].
  destruct (PO 0 s [] (at_0 s)) as [(ds' & R & D)|(e & R & G)]; [lia| |].
  - left. eauto.
  - right. destruct G as [(k & i & -> & Hi)|[->| ->]]; eauto.
Qed.

Lemma format_unique dtf_valid s a b : format dtf_valid s a -> format dtf_valid s b -> a = b.
Proof. intros Ha Hb. apply compile_iff in Ha, Hb. congruence. Qed.
