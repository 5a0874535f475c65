(** The repaired parser does what the parser of the repository does, and says what ParseFixSpec.v says. *)
From Verif Require Import Base Digits UtilsM ContextM CompilerM GrammarSpec CompilerP CompilerP2 ErrSpec ErrP MsgM MiscM DescM DescSpec DescP
  CharSpec ImplM ParseFixM ParseFixSpec.

Section Same.
  Variable dtf_valid : list Z -> bool.
  Variable source : list Z.
  Notation at_ := (at_ source).

  (** what a thrown exception becomes *)
  Definition quoted_at (i : Z) : list Z := match znth source i with Some c => codePoint source i c | None => [] end.
  Definition fix_desc (e : exn) (m : list Z) : list Z :=
    match e with
    | Syntax DuplicateFlag i => txt "Duplicate flag '" ++ quoted_at i ++ txt "'"
    | Syntax BadSpecifier i => txt "Unknown format conversion specifier '" ++ quoted_at i ++ txt "'"
    | _ => m
    end.
  Definition fixed {A} (r : dres A) : dres A :=
    match r with DOk a => DOk a | DErr t => DErr (mkThrown (t_exn t) (fix_desc (t_exn t) (t_desc t)) (t_cause t)) end.

  (** an exception that stays as it is *)
  Definition plain (e : exn) : bool := match e with Syntax DuplicateFlag _ | Syntax BadSpecifier _ => false | _ => true end.
  Definition plain_res {A} (r : res A) : Prop := forall e, r = Err e -> plain e = true.
  Definition kept {A} (r : dres A) : Prop := forall t, r = DErr t -> plain (t_exn t) = true.
  Lemma fixed_kept {A} (r : dres A) : kept r -> fixed r = r.
  Proof.
    intros K. destruct r as [a|t]; [reflexivity|]. specialize (K t eq_refl). cbn [fixed]. destruct t as [e m b]. cbn [t_exn t_desc t_cause] in *.
    destruct e as [[]| | | | | | | |]; try discriminate K; reflexivity.
  Qed.
  Lemma fixed_bind {A B} (r : dres A) (f : A -> dres B) : fixed (dbind r f) = dbind (fixed r) (fun a => fixed (f a)).
  Proof. destruct r; reflexivity. Qed.
  Lemma dbind_ext {A B} (r : dres A) (f g : A -> dres B) : (forall a, f a = g a) -> dbind r f = dbind r g.
  Proof. intros H. destruct r; cbn; auto. Qed.
  Lemma kept_ok {A} (a : A) : kept (DOk a).
  Proof. intros t H. discriminate H. Qed.
  Lemma kept_bind {A B} (r : dres A) (f : A -> dres B) : kept r -> (forall a, kept (f a)) -> kept (dbind r f).
  Proof. intros K Kf t E. destruct r as [a|u]; cbn [dbind] in E; [exact (Kf a t E)|]. injection E as <-. exact (K u eq_refl). Qed.
  Lemma kept_lift {A} (r : res A) : plain_res r -> kept (lift r).
  Proof. intros K t E. destruct r as [a|e]; [discriminate E|]. injection E as <-. exact (K e eq_refl). Qed.
  Lemma kept_at pos : kept (d_at source pos).
  Proof. apply kept_lift. intros e. unfold sourceAt. destruct (znth source pos); [discriminate|]. intros E. injection E as <-. reflexivity. Qed.
  Lemma kept_check pos m : kept (d_check source pos m).
  Proof. intros t. unfold d_check. destruct (endOfSource source pos); [|discriminate]. intros E. injection E as <-. reflexivity. Qed.
  Lemma plain_digits : forall fuel pos, plain_res (p_digits source fuel pos).
  Proof.
    induction fuel as [|f IH]; intros pos e; cbn [p_digits]; destruct (endOfSource source pos); try discriminate.
    - intros E. injection E as <-. reflexivity.
    - unfold sourceAt. destruct (znth source pos) as [c|]; cbn [bind].
      + destruct (isNotDigit c); [discriminate|apply IH].
      + intros E. injection E as <-. reflexivity.
  Qed.
  Lemma plain_scan : forall fuel pos q, plain_res (p_scan source fuel pos q).
  Proof.
    induction fuel as [|f IH]; intros pos q e; cbn [p_scan]; destruct (zlen source <=? pos); try discriminate.
    - intros E. injection E as <-. reflexivity.
    - unfold sourceAt. destruct (znth source pos) as [c|]; cbn [bind]; [|intros E; injection E as <-; reflexivity].
      destruct (c =? ch "'").
      + destruct (pos + 1 <? zlen source); [|apply IH]. destruct (znth source (pos + 1)) as [c2|]; cbn [bind]; [|intros E; injection E as <-; reflexivity].
        destruct (c2 =? ch "'"); apply IH.
      + destruct ((c =? ch "}") && negb q); [discriminate|apply IH].
  Qed.
  Ltac err := let t := fresh in let E := fresh in intros t E; injection E as <-; reflexivity.
  Lemma kept_width pos : kept (d_width source pos).
  Proof.
    unfold d_width. apply kept_bind; [apply kept_check|]. intros _. apply kept_bind; [apply kept_at|]. intros c.
    destruct (c =? ch "*"); [apply kept_ok|]. apply kept_bind; [apply kept_lift, plain_digits|]. intros e.
    destruct (slice source pos e) as [|y w]; [apply kept_ok|]. destruct (parseInt (y :: w)); [apply kept_ok|err].
  Qed.
  Lemma kept_prec pos : kept (d_precision source pos).
  Proof.
    unfold d_precision. destruct (endOfSource source pos); [apply kept_ok|]. apply kept_bind; [apply kept_at|]. intros c.
    destruct (negb (c =? ch ".")); [apply kept_ok|]. cbv zeta. apply kept_bind; [apply kept_check|]. intros _.
    apply kept_bind; [apply kept_at|]. intros c2. destruct (c2 =? ch "*"); [apply kept_ok|].
    apply kept_bind; [apply kept_lift, plain_digits|]. intros e.
    destruct (slice source (pos + 1) e) as [|y w]; [apply kept_ok|]. destruct (parseInt (y :: w)); [apply kept_ok|err].
  Qed.
  Lemma kept_date pos : kept (d_date dtf_valid source pos).
  Proof.
    unfold d_date. destruct (endOfSource source pos); [apply kept_ok|]. apply kept_bind; [apply kept_at|]. intros c.
    destruct (negb (c =? ch "{")); [apply kept_ok|]. cbv zeta. apply kept_bind; [apply kept_lift, plain_scan|]. intros [e|]; [|err].
    destruct (slice source (pos + 1) e) as [|y w]; [err|]. destruct (dtf_valid (y :: w)); [apply kept_ok|err].
  Qed.
  Lemma kept_value k name v : kept (d_checkValue k name v).
  Proof.
    unfold d_checkValue, checkValue. destruct ((v <? 0) && negb (v =? UNSET) && negb (v =? PRECEDING)); [err|].
    destruct (MAX_WP <? v); [err|apply kept_ok].
  Qed.
  Lemma kept_create fl w p d : kept (d_create fl w p d).
  Proof. unfold d_create. apply kept_bind; [apply kept_value|]. intros _. apply kept_bind; [apply kept_value|]. intros _. apply kept_ok. Qed.

  Lemma flag_char_code c g i : flag_of_char c = Some g -> codePoint source i c = [c].
  Proof.
    intros H. assert (K : In c flag_chars) by (apply flag_chars_iff; congruence). apply flag_char_cases in K. unfold codePoint.
    destruct K as [->|[->|[->|[->| ->]]]]; reflexivity.
  Qed.
  Lemma flags_fixed : forall fuel pos fl, x_flags source fuel pos fl = fixed (d_flags source fuel pos fl).
  Proof.
    induction fuel as [|f IH]; intros pos fl; cbn [x_flags d_flags]; destruct (endOfSource source pos); try reflexivity.
    rewrite fixed_bind, (fixed_kept (d_at source pos)) by apply kept_at.
    unfold d_at, sourceAt. destruct (znth source pos) as [c|] eqn:Ec; cbn [lift dbind]; [|reflexivity].
    destruct (flag_of_char c) as [g|] eqn:Eg; [|reflexivity]. destruct (hasF g fl); [|apply IH].
    cbn [syntax fixed t_exn t_desc t_cause fix_desc]. unfold quoted_at. rewrite Ec, (flag_char_code c g pos Eg). reflexivity.
  Qed.
  Lemma spec_fixed pos : x_spec source pos = fixed (d_spec source pos).
  Proof.
    unfold x_spec, d_spec. rewrite fixed_bind, (fixed_kept (d_check source pos _)) by apply kept_check. apply dbind_ext. intros _.
    rewrite fixed_bind, (fixed_kept (d_at source pos)) by apply kept_at. unfold d_at, sourceAt.
    destruct (znth source pos) as [c|] eqn:Ec; cbn [lift dbind]; [|reflexivity]. destruct (spec_of_char c); [reflexivity|].
    cbn [syntax fixed t_exn t_desc t_cause fix_desc]. unfold quoted_at. rewrite Ec. reflexivity.
  Qed.
  Lemma directive_fixed pos : x_directive dtf_valid source pos = fixed (d_directive dtf_valid source pos).
  Proof.
    unfold x_directive, d_directive. rewrite fixed_bind, flags_fixed. apply dbind_ext. intros [fl q1].
    rewrite fixed_bind, (fixed_kept (d_width source q1)) by apply kept_width. apply dbind_ext. intros [w q2].
    rewrite fixed_bind, (fixed_kept (d_precision source q2)) by apply kept_prec. apply dbind_ext. intros [p q3].
    rewrite fixed_bind, spec_fixed. apply dbind_ext. intros [s q4].
    rewrite fixed_bind, (fixed_kept (if isDateTimeSpec s then _ else _)) by (destruct (isDateTimeSpec s); [apply kept_date|apply kept_ok]).
    apply dbind_ext. intros [d q5]. rewrite fixed_bind, (fixed_kept (d_create fl w p d)) by apply kept_create. reflexivity.
  Qed.

  (** a directive ends further on *)
  Lemma directive_moves pos t a q : at_ pos t -> d_directive dtf_valid source pos = DOk (a, q) -> exists t', at_ q t' /\ (List.length t' < List.length t)%nat.
  Proof.
    intros Ha E. pose proof (directive_erase dtf_valid source pos) as D. rewrite E in D. cbn [erase] in D.
    destruct (p_directive_inv dtf_valid source pos t Ha) as [(F & fl & W & w & P & p & c & s & T & d & r & Et & _ & _ & _ & _ & _ & Er)|[(k & i & Er & _)|[Er|Er]]];
      rewrite Er in D; try discriminate D. injection D as _ ->. exists r. split.
    - rewrite Et in Ha. replace (F ++ W ++ P ++ c :: T ++ r) with ((F ++ W ++ P ++ c :: T) ++ r) in Ha by (rewrite <- !app_assoc; reflexivity).
      apply at_app in Ha. exact Ha.
    - rewrite Et, !app_length. cbn [List.length]. rewrite app_length. lia.
  Qed.

  Lemma loop_same k : forall f F pos t acc, at_ pos t -> (List.length t < f)%nat -> (List.length t < F)%nat ->
    x_loop dtf_valid source f (S k) pos acc = fixed (d_parseNext dtf_valid source F pos acc).
  Proof.
    induction f as [|f IH]; intros F pos t acc Ha Hf HF; [lia|]. destruct F as [|F]; [lia|].
    cbn [x_loop d_parseNext]. destruct t as [|c t]; [rewrite (at_end _ _ Ha); reflexivity|].
    rewrite (at_more _ _ _ _ Ha), (d_at_char _ _ _ _ Ha). cbn [dbind List.length] in *.
    destruct (c =? ch "%") eqn:Ec.
    - (* a directive *)
      pose proof (at_next _ _ _ _ Ha) as Ha1. destruct F as [|F]; [lia|]. cbn [d_forPattern]. unfold x_forPattern.
      destruct t as [|c1 t]; [rewrite (d_check_end _ _ _ Ha1); reflexivity|].
      rewrite (d_check_more _ _ _ _ _ Ha1), (d_at_char _ _ _ _ Ha1). cbn [dbind]. pose proof (at_next _ _ _ _ Ha1) as Ha2.
      cbn [List.length] in *.
      destruct (c1 =? ch "%"); [cbn [dbind]; apply (IH F _ _ _ Ha2); lia|].
      rewrite directive_fixed, fixed_bind. destruct (d_directive dtf_valid source (pos + 1)) as [[a q]|u] eqn:Ed; [|reflexivity].
      cbn [fixed dbind]. destruct (directive_moves _ _ _ _ Ha1 Ed) as (t' & At & Lt). cbn [List.length] in Lt. apply (IH F _ _ _ At); lia.
    - (* literal text *)
      apply Z.eqb_neq in Ec. cbn [dbind]. unfold x_forFixedString, indexOfPercent. rewrite (at_skipn _ _ _ Ha).
      pose proof (findPct_spec dtf_valid source (c :: t)) as K. destruct (findPct (c :: t)) as [n|]; cbn [option_map].
      + destruct K as (u & v & E & Hu & ->). rewrite E in Ha. apply at_app in Ha. destruct u as [|y u]; [injection E as E _; exfalso; apply Ec; exact E|].
        assert (L : (List.length (pct :: v) <= List.length t)%nat).
        { apply (f_equal (@List.length Z)) in E. rewrite app_length in E. cbn [List.length] in *. lia. }
        etransitivity; [apply (IH (S F) _ _ _ Ha); lia|]. cbn [d_parseNext]. rewrite (at_more _ _ _ _ Ha), (d_at_char _ _ _ _ Ha). reflexivity.
      + destruct f as [|f]; [lia|]. cbn [x_loop]. unfold endOfSource. rewrite Z.leb_refl. reflexivity.
  Qed.

  Theorem compile_fixed k : x_compile dtf_valid source (S k) = fixed (d_compile dtf_valid source).
  Proof. unfold x_compile, d_compile. apply (loop_same k _ _ 0 source); [apply at_0|lia|lia]. Qed.

  Lemma fixed_erase {A} (r : dres A) : erase (fixed r) = erase r.
  Proof. destruct r; reflexivity. Qed.
End Same.

(** ** what is quoted *)

Lemma first_char_unique t : forall q q', first_char t q -> first_char t q' -> q = q'.
Proof.
  intros q q' H H'. destruct H as [h l r Hh Hl|c r Hc]; inversion H'; subst; try reflexivity.
  - exfalso. match goal with K : high h -> _ |- _ => exact (K Hh _ _ eq_refl Hl) end.
  - exfalso. match goal with A : high c, B : low _ |- _ => exact (Hc A _ _ eq_refl B) end.
Qed.
Lemma znth_skip (s : list Z) i c : znth s i = Some c -> exists r, skipn (Z.to_nat i) s = c :: r /\ znth s (i + 1) = hd_error r.
Proof.
  unfold znth. destruct (i <? 0) eqn:Ei; [discriminate|]. apply Z.ltb_ge in Ei. intros H.
  exists (skipn (S (Z.to_nat i)) s). replace (i + 1 <? 0) with false by lia. replace (Z.to_nat (i + 1)) with (S (Z.to_nat i)) by lia.
  generalize dependent (Z.to_nat i). intros n. clear i Ei. revert s. induction n as [|n IH]; intros [|x s] H; try discriminate H.
  - cbn in H. injection H as ->. split; [reflexivity|]. destruct s; reflexivity.
  - cbn [nth_error] in H. destruct (IH s H) as (A & B). split; [exact A|]. exact B.
Qed.
Lemma code_point_first s i c r : skipn (Z.to_nat i) s = c :: r -> znth s (i + 1) = hd_error r -> first_char (c :: r) (codePoint s i c).
Proof.
  intros E En. unfold codePoint. destruct ((55296 <=? c) && (c <=? 56319)) eqn:H.
  - rewrite En. destruct r as [|l r]; cbn [hd_error].
    + apply fc_one. intros _ l r' K. discriminate K.
    + destruct ((56320 <=? l) && (l <=? 57343)) eqn:L.
      * apply fc_pair; unfold high, low; lia.
      * apply fc_one. intros _ l' r' K. injection K as <- <-. unfold low. lia.
  - apply fc_one. unfold high. intros K. lia.
Qed.
