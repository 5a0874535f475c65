(** How deep the recursion of the compiler goes. *)
From Verif Require Import Base Digits UtilsM ContextM CompilerM GrammarSpec CompilerP CompilerP2 ErrSpec ErrP DepthM.

Section Main.
  Variable dtf_valid : list Z -> bool.
  Variable source : list Z.
  Notation at_ := (at_ source).
  Notation pN := (parseNextD dtf_valid source).
  Notation pP := (forPatternD dtf_valid source).
  Notation pF := (forFixedStringD dtf_valid source).

  Lemma start_pct t f pos acc : at_ pos (pct :: t) -> pN (S f) pos acc = pP f (pos + 1) acc.
  Proof. intros Ha. cbn [parseNextD]. rewrite (at_more _ _ _ _ Ha), (at_char _ _ _ _ Ha). reflexivity. Qed.
  Lemma start_lit c t f pos acc : at_ pos (c :: t) -> c <> pct -> pN (S f) pos acc = pF f pos acc.
  Proof.
    intros Ha Hc. cbn [parseNextD]. rewrite (at_more _ _ _ _ Ha), (at_char _ _ _ _ Ha). cbn [bind].
    apply Z.eqb_neq in Hc. change (ch "%") with pct. rewrite Hc. reflexivity.
  Qed.

  Lemma first_not_pct F fl W w P p c X s y Y : flags_text F fl -> width_text W w -> prec_text P p -> conv_char c s ->
    (F ++ W ++ P = [] -> c <> pct) -> F ++ W ++ P ++ c :: X = y :: Y -> y <> pct.
  Proof.
    intros HF HW HP Hc Hne EY ->. pose proof (proj1 (width_text_raw _ _) HW) as (HW' & _). pose proof (proj1 (prec_text_raw _ _) HP) as (HP' & _).
    destruct F as [|g F].
    - destruct HW'; cbn in EY.
      + destruct HP'; cbn in EY; inversion EY; subst. apply Hne; reflexivity.
      + discriminate.
      + match goal with HD : Forall is_dec (_ :: _) |- _ => inversion HD; subst end. inversion EY; subst. unfold is_dec, pct in *. lia.
    - destruct HF as (_ & HF & _). cbn in EY. inversion EY; subst. assert (K : In pct flag_chars) by (apply HF; left; reflexivity).
      apply flag_char_cases in K. unfold pct in K. lia.
  Qed.

  Lemma frames_lit t ds : ~ In pct t -> frames (Fixed t :: ds) = S (frames ds).
  Proof.
    intros H. unfold frames. cbn [map list_sum fold_right]. destruct (list_eq_dec Z.eq_dec t [pct]) as [->|_]; [|reflexivity].
    exfalso. apply H. left. reflexivity.
  Qed.
  Lemma frames_pct ds : frames (Fixed [pct] :: ds) = S (S (frames ds)).
  Proof. reflexivity. Qed.
  Lemma frames_dir s c ds : frames (Default s c :: ds) = S (S (frames ds)).
  Proof. reflexivity. Qed.
  Lemma frames_pos ds : exists n, frames ds = S n.
  Proof. eexists. reflexivity. Qed.

  Lemma depth s ds : format dtf_valid s ds -> forall f pos acc, at_ pos s ->
    pN f pos acc = if (frames ds <=? f)%nat then Ok (acc ++ ds) else Err OutOfFuel.
  Proof.
    induction 1 as [|lit r ds Hl Hn Hr H IH|r ds H IH|F fl W w P p c s T d r ds HF HW HP Hc HT Hne H IH]; intros f pos acc Ha.
    - destruct f as [|f]; [reflexivity|]. cbn [parseNextD]. rewrite (at_end _ _ Ha), app_nil_r. reflexivity.
    - rewrite frames_lit by exact Hn. destruct f as [|f]; [reflexivity|]. change (S (frames ds) <=? S f)%nat with (frames ds <=? f)%nat.
      destruct lit as [|y lit]; [congruence|]. assert (Hy : y <> pct) by (intros ->; apply Hn; left; reflexivity).
      rewrite (start_lit y (lit ++ r) f pos acc Ha Hy).
      destruct f as [|f]; [destruct (frames_pos ds) as (n & ->); reflexivity|]. cbn [forFixedStringD]. unfold indexOfPercent. rewrite (at_skipn _ _ _ Ha).
      destruct Hr as [->|Hr].
      + inversion H; subst; [|destruct t; [congruence|discriminate]].
        rewrite app_nil_r in *. rewrite findPct_none by assumption. cbn [option_map].
        pose proof (at_range _ _ _ Ha) as [_ Hz]. rewrite Hz.
        replace (y :: lit) with ((y :: lit) ++ []) in Ha by apply app_nil_r. rewrite (at_slice _ _ _ _ Ha). reflexivity.
      + destruct r as [|z r]; [discriminate|]. cbn in Hr. injection Hr as ->.
        rewrite findPct_at by assumption. cbn [option_map]. rewrite (at_slice _ _ _ _ Ha). apply at_app in Ha.
        specialize (IH (S f) _ (acc ++ [Fixed (y :: lit)]) Ha). rewrite (start_pct r f _ _ Ha) in IH. etransitivity; [exact IH|].
        rewrite <- app_assoc. reflexivity.
    - rewrite frames_pct. destruct f as [|f]; [reflexivity|]. rewrite (start_pct _ _ _ _ Ha). apply at_next in Ha.
      destruct f as [|f]; [reflexivity|]. cbn [forPatternD]. rewrite (at_check _ _ _ _ Ha). cbn [bind]. rewrite (at_char _ _ _ _ Ha). cbn [bind].
      change (pct =? ch "%") with true. cbv iota. apply at_next in Ha. etransitivity; [apply (IH f _ _ Ha)|].
      change (S (S (frames ds)) <=? S (S f))%nat with (frames ds <=? f)%nat. rewrite <- app_assoc. reflexivity.
    - rewrite frames_dir. destruct f as [|f]; [reflexivity|]. rewrite (start_pct _ _ _ _ Ha). apply at_next in Ha.
      destruct f as [|f]; [reflexivity|]. cbn [forPatternD].
      destruct (F ++ W ++ P ++ c :: T ++ r) as [|y Y] eqn:EY.
      { exfalso. destruct F; [|discriminate]. destruct W; [|discriminate]. destruct P; discriminate. }
      rewrite (at_check _ _ _ _ Ha). cbn [bind]. rewrite (at_char _ _ _ _ Ha). cbn [bind].
      assert (y =? ch "%" = false) as ->.
      { apply Z.eqb_neq. change (ch "%") with pct. eapply first_not_pct; eassumption. }
      rewrite <- EY in Ha. rewrite (p_directive_run dtf_valid source (pos + 1) F fl W w P p c s T d r Ha HF HW HP Hc HT). cbn [bind].
      assert (Eq : F ++ W ++ P ++ c :: T ++ r = (F ++ W ++ P ++ c :: T) ++ r) by (rewrite <- !app_assoc; reflexivity).
      rewrite Eq in Ha. apply at_app in Ha. etransitivity; [apply (IH f _ _ Ha)|].
      change (S (S (frames ds)) <=? S (S f))%nat with (frames ds <=? f)%nat. rewrite <- app_assoc. reflexivity.
  Qed.

  (** every outcome is the one without a bound, or the overflow; a frame for each character, and one, are enough *)
  Definition like (b : bool) (x y : res (list appender)) : Prop := x = y \/ (b = false /\ x = Err OutOfFuel).
  Lemma agree : forall f,
    (forall n F pos t acc, (n <= f)%nat -> at_ pos t -> (List.length t < F)%nat ->
       like (List.length t <? n)%nat (pN n pos acc) (parseNext dtf_valid source F pos acc)) /\
    (forall n F pos t acc, (n <= f)%nat -> at_ pos t -> (List.length t < F)%nat ->
       like (List.length t <? n)%nat (pP n pos acc) (forPattern dtf_valid source F pos acc)).
  Proof.
    induction f as [|f [IHn IHp]].
    { split; intros n F pos t acc Hn Ha HF; (assert (n = O) as -> by lia); right; (split; [destruct (Nat.ltb_spec (List.length t) 0); [lia|reflexivity]|reflexivity]). }
    assert (LL : forall a b x y, (b = true -> a = true) -> like a x y -> like b x y).
    { intros a b x y K [H|(H1 & H2)]; [left; exact H|]. right. split; [|exact H2]. destruct b; [|reflexivity]. rewrite K in H1 by reflexivity. discriminate. }
    split.
    - intros n F pos t acc Hn Ha HF. destruct n as [|n]; [right; split; [reflexivity|reflexivity]|]. destruct F as [|F]; [lia|].
      destruct t as [|c t].
      { left. cbn [parseNextD parseNext]. rewrite (at_end _ _ Ha). reflexivity. }
      cbn [parseNext]. rewrite (at_more _ _ _ _ Ha), (at_char _ _ _ _ Ha). cbn [bind].
      destruct (c =? ch "%") eqn:E.
      + apply Z.eqb_eq in E. change (ch "%") with pct in E. subst c. rewrite (start_pct _ _ _ _ Ha). apply at_next in Ha.
        apply (LL (List.length t <? n)%nat); [|apply IHp; auto; cbn in *; lia].
        intros K. apply Nat.ltb_lt in K. apply Nat.ltb_lt. cbn in K. lia.
      + apply Z.eqb_neq in E. change (ch "%") with pct in E. rewrite (start_lit _ _ _ _ _ Ha E).
        destruct n as [|n]; [right; split; [reflexivity|reflexivity]|]. cbn [forFixedStringD].
        unfold indexOfPercent. rewrite (at_skipn _ _ _ Ha).
        pose proof (findPct_spec dtf_valid source (c :: t)) as Sp. destruct (findPct (c :: t)) as [m|]; cbn [option_map]; [|left; reflexivity].
        destruct Sp as (lit & r & Es & Hl & En). subst m. rewrite Es in Ha. rewrite (at_slice _ _ _ _ Ha).
        pose proof (at_app _ _ _ _ Ha) as Ha1. apply at_next in Ha1.
        assert (Hlit : lit <> []) by (intros ->; cbn in Es; congruence).
        assert (Hr : (S (S (List.length r)) <= List.length (c :: t))%nat).
        { rewrite Es, app_length. cbn. destruct lit; [congruence|]. cbn. lia. }
        apply (LL (List.length r <? n)%nat); [|apply IHp; [lia|exact Ha1|lia]].
        intros K. apply Nat.ltb_lt in K. apply Nat.ltb_lt. lia.
    - intros n F pos t acc Hn Ha HF. destruct n as [|n]; [right; split; [reflexivity|reflexivity]|]. destruct F as [|F]; [lia|].
      cbn [forPatternD forPattern]. destruct t as [|c t].
      { left. unfold checkSource. rewrite (at_end _ _ Ha). reflexivity. }
      rewrite (at_check _ _ _ _ Ha). cbn [bind]. rewrite (at_char _ _ _ _ Ha). cbn [bind].
      destruct (c =? ch "%") eqn:E.
      + apply at_next in Ha. apply (LL (List.length t <? n)%nat); [|apply IHn; auto; cbn in *; lia].
        intros K. apply Nat.ltb_lt in K. apply Nat.ltb_lt. cbn in K. lia.
      + apply Z.eqb_neq in E. change (ch "%") with pct in E.
        destruct (directive_err dtf_valid source pos _ Ha) as [(G & fl & W & w & P & p & y & s & T & d & r & Et & HF' & HW & HP & Hc & HT & R)|(x & Hx & R)];
          [cbn; congruence| |]; rewrite R; cbn [bind]; [|left; reflexivity].
        rewrite Et in Ha.
        assert (Eq : G ++ W ++ P ++ y :: T ++ r = (G ++ W ++ P ++ y :: T) ++ r) by (rewrite <- !app_assoc; reflexivity).
        rewrite Eq in Ha. apply at_app in Ha.
        assert (Hl : (S (List.length r) <= List.length (c :: t))%nat).
        { rewrite Et. rewrite !app_length. cbn. rewrite app_length. lia. }
        apply (LL (List.length r <? n)%nat); [|apply IHn; [lia|exact Ha|lia]].
        intros K. apply Nat.ltb_lt in K. apply Nat.ltb_lt. lia.
  Qed.
End Main.

Lemma depth_exact dtf s ds f : compile dtf s = Ok ds ->
  compileD dtf s f = if (frames ds <=? f)%nat then Ok ds else Err OutOfFuel.
Proof. intros H. apply compile_iff in H. apply (depth dtf s s ds H f 0 [] (at_0 s)). Qed.

Lemma depth_outcome dtf s f : compileD dtf s f = compile dtf s \/ compileD dtf s f = Err OutOfFuel.
Proof.
  destruct (agree dtf s f) as (A & _). destruct (A f (S (List.length s)) 0 s [] (le_n f) (at_0 s) ltac:(lia)) as [H|(_ & H)]; [left|right]; exact H.
Qed.
Lemma depth_enough dtf s f : (List.length s < f)%nat -> compileD dtf s f = compile dtf s.
Proof.
  intros Hf. destruct (agree dtf s f) as (A & _). destruct (A f (S (List.length s)) 0 s [] (le_n f) (at_0 s) ltac:(lia)) as [H|(H & _)]; [exact H|].
  apply Nat.ltb_ge in H. lia.
Qed.
