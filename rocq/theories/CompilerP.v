(** Proofs about the compiler: it accepts exactly the grammar of GrammarSpec. *)
From Verif Require Import Base Digits UtilsM ContextM CompilerM GrammarSpec.

Section At.
  Variable source : list Z.

  (** the text from position [pos] on is [r] *)
  Definition at_ (pos : Z) (r : list Z) : Prop := exists pre, source = pre ++ r /\ pos = zlen pre.

  Lemma at_0 : at_ 0 source.
  Proof. exists []. split; reflexivity. Qed.

  Lemma at_range pos r : at_ pos r -> 0 <= pos <= zlen source /\ zlen source = pos + zlen r.
  Proof.
    intros (pre & E & Ep). subst pos. rewrite E, zlen_app.
    pose proof (zlen_nonneg pre). pose proof (zlen_nonneg r). lia.
  Qed.

  Lemma at_app pos a b : at_ pos (a ++ b) -> at_ (pos + zlen a) b.
  Proof.
    intros (pre & E & Ep). exists (pre ++ a). rewrite <- app_assoc, zlen_app. split; [assumption|lia].
  Qed.

  Lemma at_next pos c r : at_ pos (c :: r) -> at_ (pos + 1) r.
  Proof. intros H. apply (at_app pos [c] r) in H. rewrite zlen_one in H. exact H. Qed.

  Lemma at_end pos : at_ pos [] -> endOfSource source pos = true.
  Proof.
    intros H. apply at_range in H. unfold endOfSource. change (zlen (@nil Z)) with 0 in H.
    apply Z.leb_le. lia.
  Qed.

  Lemma at_more pos c r : at_ pos (c :: r) -> endOfSource source pos = false.
  Proof.
    intros H. apply at_range in H. unfold endOfSource. rewrite zlen_cons in H.
    pose proof (zlen_nonneg r). apply Z.leb_gt. lia.
  Qed.

  Lemma at_char pos c r : at_ pos (c :: r) -> sourceAt source pos = Ok c.
  Proof.
    intros (pre & E & Ep). unfold sourceAt. rewrite E, znth_app_r by lia. subst pos.
    rewrite Z.sub_diag. reflexivity.
  Qed.

  Lemma at_check pos c r : at_ pos (c :: r) -> checkSource source pos = Ok tt.
  Proof. intros H. unfold checkSource. erewrite at_more by eassumption. reflexivity. Qed.

  Lemma at_slice pos a b : at_ pos (a ++ b) -> slice source pos (pos + zlen a) = a.
  Proof.
    intros (pre & E & Ep). subst pos. pose proof (zlen_nonneg pre). pose proof (zlen_nonneg a). pose proof (zlen_nonneg b).
    rewrite E. rewrite slice_app_r by (rewrite ?zlen_app; lia).
    rewrite Z.sub_diag. replace (zlen pre + zlen a - zlen pre) with (zlen a) by lia.
    rewrite slice_app_l by lia. apply slice_full.
  Qed.

  Lemma at_skipn pos r : at_ pos r -> skipn (Z.to_nat pos) source = r.
  Proof.
    intros (pre & E & Ep). subst pos. rewrite E. unfold zlen. rewrite Nat2Z.id.
    rewrite skipn_app, skipn_all, Nat.sub_diag. reflexivity.
  Qed.

  Lemma at_fuel pos r : at_ pos r -> (List.length r < fuel0 source)%nat.
  Proof. intros H. apply at_range in H. unfold fuel0, zlen in *. lia. Qed.

  (* ---------- flags ---------- *)

  Fixpoint take_flags (F : list Z) (fl : flags) : option flags :=
    match F with
    | [] => Some fl
    | c :: F => match flag_of_char c with
                | Some g => if hasF g fl then None else take_flags F (addF g fl)
                | None => None
                end
    end.

  Definition no_flag (r : list Z) : Prop :=
    match r with [] => True | c :: _ => flag_of_char c = None end.

  Lemma p_flags_run F : forall fuel pos r fl fl',
    at_ pos (F ++ r) -> (List.length (F ++ r) < fuel)%nat -> take_flags F fl = Some fl' -> no_flag r ->
    p_flags source fuel pos fl = Ok (fl', pos + zlen F).
  Proof.
    induction F as [|c F IH]; intros fuel pos r fl fl' Ha Hf Ht Hn; cbn [app take_flags] in *.
    - inversion Ht; subst. change (zlen (@nil Z)) with 0. rewrite Z.add_0_r. destruct r as [|c r].
      + destruct fuel; cbn [p_flags]; rewrite (at_end _ Ha); reflexivity.
      + destruct fuel; [cbn in Hf; lia|]. cbn [p_flags]. rewrite (at_more _ _ _ Ha), (at_char _ _ _ Ha).
        cbn [bind]. cbn in Hn. rewrite Hn. reflexivity.
    - destruct fuel; [cbn in Hf; lia|]. cbn [p_flags]. rewrite (at_more _ _ _ Ha), (at_char _ _ _ Ha). cbn [bind].
      destruct (flag_of_char c) as [g|]; [|discriminate]. destruct (hasF g fl); [discriminate|].
      rewrite zlen_cons. replace (pos + (1 + zlen F)) with (pos + 1 + zlen F) by lia.
      apply (IH fuel (pos + 1) r (addF g fl) fl').
      + eapply at_next; eassumption.
      + cbn in Hf. lia.
      + assumption.
      + assumption.
  Qed.

  Lemma p_flags_inv : forall fuel pos t fl,
    at_ pos t -> (List.length t < fuel)%nat ->
    (exists F r fl', t = F ++ r /\ take_flags F fl = Some fl' /\ no_flag r /\
       p_flags source fuel pos fl = Ok (fl', pos + zlen F)) \/
    (exists i, p_flags source fuel pos fl = Err (Syntax DuplicateFlag i) /\ pos <= i < zlen source).
  Proof.
    induction fuel as [|fuel IH]; intros pos t fl Ha Hf; [lia|].
    destruct t as [|c t].
    - left. exists [], [], fl. cbn [p_flags]. rewrite (at_end _ Ha). change (zlen (@nil Z)) with 0. rewrite Z.add_0_r.
      repeat split; constructor.
    - cbn [p_flags]. rewrite (at_more _ _ _ Ha), (at_char _ _ _ Ha). cbn [bind].
      destruct (flag_of_char c) as [g|] eqn:Eg.
      + destruct (hasF g fl) eqn:Eh.
        * right. exists pos. split; [reflexivity|]. apply at_range in Ha. rewrite zlen_cons in Ha.
          pose proof (zlen_nonneg t). lia.
        * cbn in Hf. destruct (IH (pos + 1) t (addF g fl) (at_next _ _ _ Ha)) as [(F & r & fl' & E & E1 & E2 & E3)|(i & E & R)]; [lia| |].
          -- left. exists (c :: F), r, fl'. subst t. cbn [take_flags app]. rewrite Eg, Eh. repeat split; auto.
             rewrite E3. rewrite zlen_cons. do 2 f_equal. lia.
          -- right. exists i. split; [assumption|lia].
      + left. exists [], (c :: t), fl. cbn [take_flags]. change (zlen (@nil Z)) with 0. rewrite Z.add_0_r. repeat split; auto.
  Qed.

  (* ---------- digits ---------- *)

  Definition no_digit (r : list Z) : Prop :=
    match r with [] => True | c :: _ => ~ is_dec c end.

  Lemma isDigit_iff c : isDigit c = true <-> is_dec c.
  Proof. unfold isDigit, is_dec. rewrite andb_true_iff, !Z.leb_le. tauto. Qed.

  Lemma p_digits_run ds : forall fuel pos r,
    at_ pos (ds ++ r) -> (List.length (ds ++ r) < fuel)%nat -> Forall is_dec ds -> no_digit r ->
    p_digits source fuel pos = Ok (pos + zlen ds).
  Proof.
    induction ds as [|c F IH]; intros fuel pos r Ha Hf Ht Hn; cbn [app] in *.
    - change (zlen (@nil Z)) with 0. rewrite Z.add_0_r. destruct r as [|c r].
      + destruct fuel; cbn [p_digits]; rewrite (at_end _ Ha); reflexivity.
      + destruct fuel; [cbn in Hf; lia|]. cbn [p_digits]. rewrite (at_more _ _ _ Ha), (at_char _ _ _ Ha).
        cbn [bind]. cbn in Hn. unfold isNotDigit. destruct (isDigit c) eqn:E; [apply isDigit_iff in E; tauto|reflexivity].
    - destruct fuel; [cbn in Hf; lia|]. cbn [p_digits]. rewrite (at_more _ _ _ Ha), (at_char _ _ _ Ha). cbn [bind].
      inversion Ht; subst. unfold isNotDigit. apply isDigit_iff in H1. rewrite H1. cbn [negb].
      rewrite zlen_cons. replace (pos + (1 + zlen F)) with (pos + 1 + zlen F) by lia.
      apply (IH fuel (pos + 1) r); auto.
      + eapply at_next; eassumption.
      + cbn in Hf. lia.
  Qed.

  Lemma digit_span t : exists ds r, t = ds ++ r /\ Forall is_dec ds /\ no_digit r.
  Proof.
    induction t as [|c t (ds & r & E & F & N)].
    - exists [], []. repeat split; constructor.
    - destruct (isDigit c) eqn:Ec.
      + exists (c :: ds), r. subst t. repeat split; auto. constructor; [apply isDigit_iff|]; assumption.
      + exists [], (c :: t). repeat split; [constructor|]. cbn. rewrite <- isDigit_iff. congruence.
  Qed.

  Lemma dec_value_acc ds : forall a b,
    (forall x, In x ds -> is_dec x) -> a = b ->
    fold_left (fun a c => 10 * a + (c - 48)) ds a = fold_left (fun a d => a * 10 + d) (map digit_val ds) b.
  Proof.
    induction ds as [|c ds IH]; intros a b Hd E; [exact E|]. cbn [map fold_left].
    apply IH; [intros; apply Hd; right; assumption|]. subst b. assert (is_dec c) by (apply Hd; left; reflexivity).
    unfold digit_val, is_dec in *. destruct (c <? 58) eqn:E; [|apply Z.ltb_ge in E]; lia.
  Qed.

  Lemma dec_value_eq ds : Forall is_dec ds -> of_numeral 10 ds = dec_value ds.
  Proof.
    intros H. symmetry. apply dec_value_acc; [|reflexivity]. apply Forall_forall. exact H.
  Qed.

  Lemma dec_value_nonneg ds : Forall is_dec ds -> 0 <= dec_value ds.
  Proof.
    intros H. unfold dec_value. assert (G : forall a, 0 <= a -> 0 <= fold_left (fun a c => 10 * a + (c - 48)) ds a).
    { induction H as [|c ds Hc H IH]; intros a Ha; cbn [fold_left]; [assumption|].
      apply IH. unfold is_dec in Hc. lia. }
    apply G. lia.
  Qed.

  Lemma parseInt_dec ds : Forall is_dec ds ->
    parseInt ds = (if dec_value ds <=? int_max then Some (dec_value ds) else None).
  Proof. intros H. unfold parseInt. rewrite dec_value_eq by assumption. reflexivity. Qed.

  (* ---------- width and precision ---------- *)

  (** what the width parser accepts before the range check *)
  Inductive width_raw : list Z -> Z -> Prop :=
  | WR_none : width_raw [] UNSET
  | WR_star : width_raw [42] PRECEDING
  | WR_num d ds : Forall is_dec (d :: ds) -> dec_value (d :: ds) <= int_max ->
      width_raw (d :: ds) (dec_value (d :: ds)).

  Inductive prec_raw : list Z -> Z -> Prop :=
  | PR_none : prec_raw [] UNSET
  | PR_star : prec_raw [46; 42] PRECEDING
  | PR_num ds : Forall is_dec ds -> dec_value ds <= int_max -> prec_raw (46 :: ds) (dec_value ds).

  (** what may follow a width / a precision text *)
  Definition after_width (W r : list Z) : Prop :=
    W = [42] \/ (W = [] /\ no_digit r /\ hd_error r <> Some 42 /\ r <> []) \/ (W <> [] /\ no_digit r).
  Definition after_prec (P r : list Z) : Prop :=
    P = [46; 42] \/ (P = [] /\ hd_error r <> Some 46) \/
    (P = [46] /\ no_digit r /\ hd_error r <> Some 42 /\ r <> []) \/ (P <> [] /\ P <> [46] /\ no_digit r).

  Lemma p_width_run W w r pos :
    at_ pos (W ++ r) -> width_raw W w -> after_width W r ->
    p_width source pos = Ok (w, pos + zlen W).
  Proof.
    intros Ha Hw Hr. unfold p_width. destruct Hw.
    - destruct Hr as [Hr|[(_ & Hn & H42 & Hne)|(Hr & _)]]; try congruence.
      cbn [app] in Ha. destruct r as [|c r]; [congruence|].
      rewrite (at_check _ _ _ Ha). cbn [bind]. rewrite (at_char _ _ _ Ha). cbn [bind].
      destruct (c =? ch "*") eqn:E; [apply Z.eqb_eq in E; subst; cbn in H42; congruence|].
      rewrite (p_digits_run [] (fuel0 source) pos (c :: r)); try assumption;
        [|eapply at_fuel; eassumption|constructor].
      cbn [bind]. change (zlen (@nil Z)) with 0. rewrite Z.add_0_r, slice_empty by lia. reflexivity.
    - cbn [app] in Ha. rewrite (at_check _ _ _ Ha). cbn [bind]. rewrite (at_char _ _ _ Ha). cbn [bind].
      change (42 =? ch "*") with true. cbv iota. rewrite zlen_one. reflexivity.
    - pose proof Ha as Ha'. cbn [app] in Ha. rewrite (at_check _ _ _ Ha). cbn [bind]. rewrite (at_char _ _ _ Ha). cbn [bind].
      assert (d =? ch "*" = false).
      { inversion H; subst. unfold is_dec in H3. apply Z.eqb_neq. change (ch "*") with 42. lia. }
      rewrite H1. destruct Hr as [Hr|[(Hr & _)|(_ & Hn)]].
      + inversion Hr; subst. discriminate.
      + discriminate.
      + rewrite (p_digits_run (d :: ds) (fuel0 source) pos r); try assumption; [|eapply at_fuel; exact Ha'].
        cbn [bind]. rewrite (at_slice _ _ _ Ha'). rewrite parseInt_dec by assumption.
        apply Z.leb_le in H0. rewrite H0. reflexivity.
  Qed.

  Lemma p_width_inv pos t : at_ pos t ->
    (exists W w r, t = W ++ r /\ width_raw W w /\ after_width W r /\ p_width source pos = Ok (w, pos + zlen W)) \/
    (exists k i, p_width source pos = Err (Syntax k i) /\ pos <= i <= zlen source).
  Proof.
    intros Ha. destruct t as [|c t].
    - right. exists UnexpectedEnd, pos. unfold p_width, checkSource. rewrite (at_end _ Ha). split; [reflexivity|].
      apply at_range in Ha. lia.
    - destruct (Z.eq_dec c 42) as [->|Hc].
      + left. exists [42], PRECEDING, t. assert (after_width [42] t) by (left; reflexivity).
        repeat split; auto; [constructor|]. apply (p_width_run [42] PRECEDING t); auto. constructor.
      + destruct (digit_span (c :: t)) as (ds & r & E & F & N). destruct ds as [|d ds].
        * cbn [app] in E. subst r. left. exists [], UNSET, (c :: t).
          assert (after_width [] (c :: t)).
          { right. left. repeat split; auto; [cbn; congruence|discriminate]. }
          repeat split; auto; [constructor|]. apply (p_width_run [] UNSET (c :: t)); auto. constructor.
        * destruct (Z_le_gt_dec (dec_value (d :: ds)) int_max) as [Hle|Hgt].
          -- left. exists (d :: ds), (dec_value (d :: ds)), r.
             assert (after_width (d :: ds) r) by (right; right; split; [discriminate|assumption]).
             repeat split; auto; [constructor; assumption|]. rewrite E in Ha.
             apply (p_width_run (d :: ds) _ r); auto. constructor; assumption.
          -- right. exists BadWidth, pos. unfold p_width. rewrite (at_check _ _ _ Ha). cbn [bind].
             rewrite (at_char _ _ _ Ha). cbn [bind]. pose proof (at_range _ _ Ha). apply Z.eqb_neq in Hc. change (ch "*") with 42. rewrite Hc.
             rewrite E in Ha.
             rewrite (p_digits_run (d :: ds) (fuel0 source) pos r); try assumption; [|eapply at_fuel; exact Ha].
             cbn [bind]. rewrite (at_slice _ _ _ Ha). rewrite parseInt_dec by assumption.
             destruct (dec_value (d :: ds) <=? int_max) eqn:El; [apply Z.leb_le in El; lia|].
             split; [reflexivity|lia].
  Qed.

  Lemma p_prec_run P p r pos :
    at_ pos (P ++ r) -> prec_raw P p -> after_prec P r ->
    p_precision source pos = Ok (p, pos + zlen P).
  Proof.
    intros Ha Hw Hr. unfold p_precision. destruct Hw.
    - destruct Hr as [Hr|[(_ & H46)|[(Hr & _)|(Hr & _)]]]; try congruence.
      cbn [app] in Ha. change (zlen (@nil Z)) with 0. rewrite Z.add_0_r. destruct r as [|c r].
      + rewrite (at_end _ Ha). reflexivity.
      + rewrite (at_more _ _ _ Ha), (at_char _ _ _ Ha). cbn [bind].
        destruct (c =? ch ".") eqn:E; [apply Z.eqb_eq in E; subst; cbn in H46; congruence|]. reflexivity.
    - cbn [app] in Ha. rewrite (at_more _ _ _ Ha), (at_char _ _ _ Ha). cbn [bind].
      change (negb (46 =? ch ".")) with false. cbv iota. apply at_next in Ha.
      rewrite (at_check _ _ _ Ha). cbn [bind]. rewrite (at_char _ _ _ Ha). cbn [bind].
      change (42 =? ch "*") with true. cbv iota. cbn. do 2 f_equal. lia.
    - cbn [app] in Ha. rewrite (at_more _ _ _ Ha), (at_char _ _ _ Ha). cbn [bind].
      change (negb (46 =? ch ".")) with false. cbv iota. apply at_next in Ha.
      rewrite zlen_cons. destruct ds as [|d ds].
      + destruct Hr as [Hr|[(Hr & _)|[(_ & Hn & H42 & Hne)|(_ & Hr & _)]]]; try congruence.
        cbn [app] in Ha. destruct r as [|c r]; [congruence|].
        rewrite (at_check _ _ _ Ha). cbn [bind]. rewrite (at_char _ _ _ Ha). cbn [bind].
        destruct (c =? ch "*") eqn:E; [apply Z.eqb_eq in E; subst; cbn in H42; congruence|].
        rewrite (p_digits_run [] (fuel0 source) (pos + 1) (c :: r)); try assumption;
          [|eapply at_fuel; eassumption].
        cbn [bind]. change (zlen (@nil Z)) with 0. rewrite Z.add_0_r, slice_empty by lia. reflexivity.
      + assert (Hn : no_digit r).
        { destruct Hr as [Hr|[(Hr & _)|[(Hr & _)|(_ & _ & Hn)]]]; try congruence.
          inversion Hr; subst. inversion H; subst. unfold is_dec in *. lia. }
        pose proof Ha as Ha'. cbn [app] in Ha. rewrite (at_check _ _ _ Ha). cbn [bind]. rewrite (at_char _ _ _ Ha). cbn [bind].
        assert (d =? ch "*" = false).
        { inversion H; subst. unfold is_dec in H3. apply Z.eqb_neq. change (ch "*") with 42. lia. }
        rewrite H1.
        rewrite (p_digits_run (d :: ds) (fuel0 source) (pos + 1) r); try assumption; [|eapply at_fuel; exact Ha'].
        cbn [bind]. rewrite (at_slice _ _ _ Ha'). rewrite parseInt_dec by assumption.
        apply Z.leb_le in H0. rewrite H0. do 2 f_equal. lia.
  Qed.

  Lemma p_prec_inv pos t : at_ pos t ->
    (exists P p r, t = P ++ r /\ prec_raw P p /\ after_prec P r /\ p_precision source pos = Ok (p, pos + zlen P)) \/
    (exists k i, p_precision source pos = Err (Syntax k i) /\ pos <= i <= zlen source).
  Proof.
    intros Ha.
    assert (G : hd_error t <> Some 46 -> (exists P p r, t = P ++ r /\ prec_raw P p /\ after_prec P r /\ p_precision source pos = Ok (p, pos + zlen P))).
    { intros Hh. exists [], UNSET, t. assert (after_prec [] t) by (right; left; split; auto).
      repeat split; auto; [constructor|]. apply (p_prec_run [] UNSET t); auto. constructor. }
    destruct t as [|c t].
    - left. apply G. discriminate.
    - destruct (Z.eq_dec c 46) as [->|Hc]; [|left; apply G; cbn; congruence]. clear G.
      pose proof (at_next _ _ _ Ha) as Ha1.
      destruct t as [|c t].
      { right. exists UnexpectedEnd, (pos + 1). unfold p_precision. rewrite (at_more _ _ _ Ha), (at_char _ _ _ Ha). cbn [bind].
        change (negb (46 =? ch ".")) with false. cbv iota zeta. unfold checkSource. rewrite (at_end _ Ha1). split; [reflexivity|].
        apply at_range in Ha1. lia. }
      destruct (Z.eq_dec c 42) as [->|Hc].
      + left. exists [46; 42], PRECEDING, t. assert (after_prec [46; 42] t) by (left; reflexivity).
        repeat split; auto; [constructor|]. apply (p_prec_run [46; 42] PRECEDING t); auto. constructor.
      + destruct (digit_span (c :: t)) as (ds & r & E & F & N).
        destruct (Z_le_gt_dec (dec_value ds) int_max) as [Hle|Hgt].
        * left. exists (46 :: ds), (dec_value ds), r.
          assert (after_prec (46 :: ds) r).
          { destruct ds as [|d ds].
            - right. right. left. cbn [app] in E. subst r. repeat split; auto; [cbn; congruence|discriminate].
            - right. right. right. repeat split; [discriminate|congruence|assumption]. }
          rewrite E in *. repeat split; auto; [constructor; assumption|].
          apply (p_prec_run (46 :: ds) _ r); auto. constructor; assumption.
        * right. exists BadPrecision, (pos + 1). unfold p_precision. rewrite (at_more _ _ _ Ha), (at_char _ _ _ Ha). cbn [bind].
          change (negb (46 =? ch ".")) with false. cbv iota zeta. rewrite (at_check _ _ _ Ha1). cbn [bind].
          rewrite (at_char _ _ _ Ha1). cbn [bind]. pose proof (at_range _ _ Ha1). apply Z.eqb_neq in Hc. change (ch "*") with 42. rewrite Hc.
          rewrite E in Ha1.
          rewrite (p_digits_run ds (fuel0 source) (pos + 1) r); try assumption; [|eapply at_fuel; exact Ha1].
          cbn [bind]. rewrite (at_slice _ _ _ Ha1). destruct ds as [|d ds]; [vm_compute in Hgt; discriminate|].
          rewrite parseInt_dec by assumption.
          destruct (dec_value (d :: ds) <=? int_max) eqn:El; [apply Z.leb_le in El; lia|].
          split; [reflexivity|lia].
  Qed.

  (* ---------- date pattern ---------- *)

  Lemma p_scan_run q p : pat q p -> forall fuel pos r,
    at_ pos (p ++ 125 :: r) -> (List.length (p ++ 125%Z :: r) < fuel)%nat ->
    p_scan source fuel pos q = Ok (Some (pos + zlen p)).
  Proof.
    induction 1; intros fuel pos r Ha Hf; (destruct fuel; [cbn in Hf; lia|]); cbn [p_scan app] in *.
    - change (zlen source <=? pos) with (endOfSource source pos).
      rewrite (at_more _ _ _ Ha), (at_char _ _ _ Ha). cbn. rewrite Z.add_0_r. reflexivity.
    - change (zlen source <=? pos) with (endOfSource source pos).
      rewrite (at_more _ _ _ Ha), (at_char _ _ _ Ha). cbn [bind].
      assert (c =? ch "'" = false) as -> by (apply Z.eqb_neq; exact H).
      assert ((c =? ch "}") && negb q = false) as ->.
      { destruct (c =? ch "}") eqn:E; [|reflexivity]. apply Z.eqb_eq in E. rewrite (H0 E). reflexivity. }
      rewrite zlen_cons, Z.add_assoc. apply IHpat with r; [eapply at_next; eassumption|cbn in Hf; lia].
    - change (zlen source <=? pos) with (endOfSource source pos).
      rewrite (at_more _ _ _ Ha), (at_char _ _ _ Ha). cbn [bind].
      change (quote =? ch "'") with true. cbv iota.
      pose proof (at_next _ _ _ Ha) as Ha1. pose proof (at_more _ _ _ Ha1) as Hm. unfold endOfSource in Hm. apply Z.leb_gt in Hm.
      assert (pos + 1 <? zlen source = true) as -> by (apply Z.ltb_lt; lia).
      rewrite (at_char _ _ _ Ha1). cbn [bind]. change (quote =? ch "'") with true. cbv iota.
      rewrite !zlen_cons. replace (pos + (1 + (1 + zlen p))) with (pos + 1 + 1 + zlen p) by lia.
      apply IHpat with r; [eapply at_next; eassumption|cbn in Hf; lia].
    - change (zlen source <=? pos) with (endOfSource source pos).
      rewrite (at_more _ _ _ Ha), (at_char _ _ _ Ha). cbn [bind].
      change (quote =? ch "'") with true. cbv iota.
      pose proof (at_next _ _ _ Ha) as Ha1.
      rewrite zlen_cons, Z.add_assoc.
      assert (Hgo : p_scan source fuel (pos + 1) (negb q) = Ok (Some (pos + 1 + zlen p))).
      { apply IHpat with r; [eassumption|cbn in Hf; lia]. }
      destruct p as [|c p]; cbn [app] in Ha1.
      + pose proof (at_more _ _ _ Ha1) as Hm. unfold endOfSource in Hm. apply Z.leb_gt in Hm.
        assert (pos + 1 <? zlen source = true) as -> by (apply Z.ltb_lt; lia).
        rewrite (at_char _ _ _ Ha1). cbn [bind]. change (125 =? ch "'") with false. cbv iota. exact Hgo.
      + pose proof (at_more _ _ _ Ha1) as Hm. unfold endOfSource in Hm. apply Z.leb_gt in Hm.
        assert (pos + 1 <? zlen source = true) as -> by (apply Z.ltb_lt; lia).
        rewrite (at_char _ _ _ Ha1). cbn [bind]. cbn in H.
        assert (c =? ch "'" = false) as -> by (apply Z.eqb_neq; intros ->; apply H; reflexivity). exact Hgo.
  Qed.

  Lemma p_scan_inv : forall fuel pos t q, at_ pos t -> (List.length t < fuel)%nat ->
    (exists p r, t = p ++ 125 :: r /\ pat q p /\ p_scan source fuel pos q = Ok (Some (pos + zlen p))) \/
    p_scan source fuel pos q = Ok None.
  Proof.
    induction fuel as [|fuel IH]; intros pos t q Ha Hf; [lia|]. cbn [p_scan].
    change (zlen source <=? pos) with (endOfSource source pos).
    destruct t as [|c t]; [rewrite (at_end _ Ha); right; reflexivity|].
    rewrite (at_more _ _ _ Ha), (at_char _ _ _ Ha). cbn [bind].
    pose proof (at_next _ _ _ Ha) as Ha1. cbn in Hf.
    destruct (c =? ch "'") eqn:Eq.
    - apply Z.eqb_eq in Eq. change (ch "'") with quote in Eq. subst c.
      assert (Htog : hd_error t <> Some quote ->
        (exists p r, quote :: t = p ++ 125 :: r /\ pat q p /\ p_scan source fuel (pos + 1) (negb q) = Ok (Some (pos + zlen p))) \/
        p_scan source fuel (pos + 1) (negb q) = Ok None).
      { intros Hh. destruct (IH (pos + 1) t (negb q) Ha1) as [(p & r & E & Hp & Hs)|Hs]; [lia| |right; exact Hs].
        left. exists (quote :: p), r. subst t. repeat split; auto.
        - constructor; [|assumption]. destruct p; cbn in Hh |- *; [discriminate|exact Hh].
        - rewrite Hs, zlen_cons. do 2 f_equal. lia. }
      destruct t as [|c t].
      + pose proof (at_end _ Ha1) as He. unfold endOfSource in He. apply Z.leb_le in He.
        assert (pos + 1 <? zlen source = false) as -> by (apply Z.ltb_ge; lia). apply Htog. discriminate.
      + pose proof (at_more _ _ _ Ha1) as Hm. unfold endOfSource in Hm. apply Z.leb_gt in Hm.
        assert (pos + 1 <? zlen source = true) as -> by (apply Z.ltb_lt; lia).
        rewrite (at_char _ _ _ Ha1). cbn [bind]. destruct (c =? ch "'") eqn:Ec.
        * apply Z.eqb_eq in Ec. change (ch "'") with quote in Ec. subst c. pose proof (at_next _ _ _ Ha1) as Ha2.
          cbn in Hf. destruct (IH (pos + 1 + 1) t q Ha2) as [(p & r & E & Hp & Hs)|Hs]; [lia| |right; exact Hs].
          left. exists (quote :: quote :: p), r. subst t. repeat split; auto; [constructor; assumption|].
          rewrite Hs, !zlen_cons. do 2 f_equal. lia.
        * apply Htog. cbn. apply Z.eqb_neq in Ec. intros Hx. inversion Hx. tauto.
    - apply Z.eqb_neq in Eq. destruct ((c =? ch "}") && negb q) eqn:Eb.
      + apply andb_prop in Eb as [E1 E2]. apply Z.eqb_eq in E1. change (ch "}") with 125 in E1. subst c.
        destruct q; [discriminate|]. left. exists [], t. repeat split; [constructor|].
        change (zlen (@nil Z)) with 0. rewrite Z.add_0_r. reflexivity.
      + destruct (IH (pos + 1) t q Ha1) as [(p & r & E & Hp & Hs)|Hs]; [lia| |right; exact Hs].
        left. exists (c :: p), r. subst t. repeat split; auto.
        * constructor; auto. intros ->. destruct q; [reflexivity|discriminate].
        * rewrite Hs, zlen_cons. do 2 f_equal. lia.
  Qed.

  (* ---------- specifier ---------- *)

  Lemma find_spec c : find (fun s => spec_char s =? c) spec_values = None ->
    forall s, spec_char s <> c.
  Proof.
    intros H s. assert (In s spec_values) by (destruct s; cbn; tauto).
    pose proof (find_none _ _ H s H0) as Hn. cbn in Hn. apply Z.eqb_neq in Hn. exact Hn.
  Qed.

  Lemma spec_char_inj a b : spec_char a = spec_char b -> a = b.
  Proof. destruct a, b; vm_compute; intros H; (reflexivity || discriminate). Qed.

  Lemma letter_is s : letter s = spec_char s.
  Proof. destruct s; reflexivity. Qed.

  Lemma spec_of_char_iff c s : spec_of_char c = Some s <-> conv_char c s.
  Proof.
    unfold spec_of_char. destruct (c =? ch "i") eqn:E.
    - apply Z.eqb_eq in E. subst c. split.
      + intros H. inversion H. constructor.
      + intros H. remember (ch "i") as c eqn:Ec. destruct H as [|s0]; [reflexivity|].
        exfalso. destruct s0; vm_compute in Ec; discriminate Ec.
    - apply Z.eqb_neq in E. split.
      + intros H. apply find_some in H as [_ H]. cbn in H. apply Z.eqb_eq in H. subst c. rewrite <- letter_is. constructor.
      + intros H. revert E. destruct H as [|s]; intros E; [congruence|]. destruct (find _ _) eqn:Ef.
        * apply find_some in Ef as [_ Ef]. apply Z.eqb_eq, spec_char_inj in Ef. subst. reflexivity.
        * exfalso. exact (find_spec _ Ef s (eq_sym (letter_is s))).
  Qed.

  Lemma conv_char_plain c s : conv_char c s ->
    flag_of_char c = None /\ ~ is_dec c /\ c <> 42 /\ c <> 46.
  Proof.
    intros H. assert (E : c = ch "i" \/ In c (map spec_char spec_values)).
    { inversion H; [left; reflexivity|right]. rewrite letter_is. apply in_map. destruct s; cbn; tauto. }
    clear H. unfold is_dec.
    assert (E' : In c (105 :: map spec_char spec_values)) by (destruct E as [E|E]; [left; symmetry; exact E|right; exact E]).
    clear E. vm_compute in E'.
    repeat (destruct E' as [<-|E']; [split; [reflexivity|lia]|]). destruct E'.
  Qed.
End At.
