(** Compiling a malformed format string throws what DescSpec.v says. *)
From Verif Require Import Base Digits UtilsM ContextM CompilerM GrammarSpec CompilerP CompilerP2 ErrSpec ErrP MsgM DescM DescSpec.
From Verif Require PropsMsg CtxSpec.

Lemma erase_lift {A} (r : res A) : erase (lift r) = r.
Proof. destruct r; reflexivity. Qed.
Lemma erase_bind {A B} (r : dres A) (f : A -> dres B) : erase (dbind r f) = bind (erase r) (fun a => erase (f a)).
Proof. destruct r; reflexivity. Qed.
Lemma bind_ext {A B} (r : res A) (f g : A -> res B) : (forall a, f a = g a) -> bind r f = bind r g.
Proof. intros H. destruct r; cbn; auto. Qed.
Lemma erase_ok {A} (r : dres A) a : erase r = Ok a -> r = DOk a.
Proof. destruct r; cbn; congruence. Qed.

Section Erase.
  Variable dtf_valid : list Z -> bool.
  Variable source : list Z.

  Lemma check_erase pos m : erase (d_check source pos m) = checkSource source pos.
  Proof. unfold d_check, checkSource. destruct (endOfSource source pos); reflexivity. Qed.
  Lemma flags_erase : forall fuel pos fl, erase (d_flags source fuel pos fl) = p_flags source fuel pos fl.
  Proof.
    induction fuel as [|f IH]; intros pos fl; cbn [d_flags p_flags]; destruct (endOfSource source pos); try reflexivity.
    unfold d_at. rewrite erase_bind, erase_lift. apply bind_ext. intros c.
    destruct (flag_of_char c) as [g|]; [|reflexivity]. destruct (hasF g fl); [reflexivity|apply IH].
  Qed.
  Lemma width_erase pos : erase (d_width source pos) = p_width source pos.
  Proof.
    unfold d_width, p_width. rewrite erase_bind, check_erase. apply bind_ext. intros _.
    unfold d_at. rewrite erase_bind, erase_lift. apply bind_ext. intros c.
    destruct (c =? ch "*"); [reflexivity|]. rewrite erase_bind, erase_lift. apply bind_ext. intros e.
    destruct (slice source pos e) as [|y w]; [reflexivity|]. destruct (parseInt (y :: w)); reflexivity.
  Qed.
  Lemma prec_erase pos : erase (d_precision source pos) = p_precision source pos.
  Proof.
    unfold d_precision, p_precision. destruct (endOfSource source pos); [reflexivity|].
    unfold d_at. rewrite erase_bind, erase_lift. apply bind_ext. intros c.
    destruct (negb (c =? ch ".")); [reflexivity|]. cbv zeta. rewrite erase_bind, check_erase. apply bind_ext. intros _.
    rewrite erase_bind, erase_lift. apply bind_ext. intros c2.
    destruct (c2 =? ch "*"); [reflexivity|]. rewrite erase_bind, erase_lift. apply bind_ext. intros e.
    destruct (slice source (pos + 1) e) as [|y w]; [reflexivity|]. destruct (parseInt (y :: w)); reflexivity.
  Qed.
  Lemma date_erase pos : erase (d_date dtf_valid source pos) = p_date dtf_valid source pos.
  Proof.
    unfold d_date, p_date. destruct (endOfSource source pos); [reflexivity|].
    unfold d_at. rewrite erase_bind, erase_lift. apply bind_ext. intros c.
    destruct (negb (c =? ch "{")); [reflexivity|]. cbv zeta. rewrite erase_bind, erase_lift. apply bind_ext. intros [e|]; [|reflexivity].
    destruct (slice source (pos + 1) e) as [|y w]; [reflexivity|]. destruct (dtf_valid (y :: w)); reflexivity.
  Qed.
  Lemma spec_erase pos : erase (d_spec source pos) = p_spec source pos.
  Proof.
    unfold d_spec, p_spec. rewrite erase_bind, check_erase. apply bind_ext. intros _.
    unfold d_at. rewrite erase_bind, erase_lift. apply bind_ext. intros c. destruct (spec_of_char c); reflexivity.
  Qed.
  Lemma create_erase fl w p d : erase (d_create fl w p d) = ctx_create fl w p d.
  Proof.
    unfold d_create, ctx_create. unfold d_checkValue. destruct (checkValue WidthRange w) as [[]|]; [|reflexivity].
    cbn [dbind bind]. destruct (checkValue PrecisionRange p) as [[]|]; reflexivity.
  Qed.
  Lemma directive_erase pos : erase (d_directive dtf_valid source pos) = p_directive dtf_valid source pos.
  Proof.
    unfold d_directive, p_directive. rewrite erase_bind, flags_erase. apply bind_ext. intros [fl q1].
    rewrite erase_bind, width_erase. apply bind_ext. intros [w q2].
    rewrite erase_bind, prec_erase. apply bind_ext. intros [p q3].
    rewrite erase_bind, spec_erase. apply bind_ext. intros [s q4].
    rewrite erase_bind.
    assert (E : erase (if isDateTimeSpec s then d_date dtf_valid source q4 else DOk (None, q4))
                = (if isDateTimeSpec s then p_date dtf_valid source q4 else Ok (None, q4))) by (destruct (isDateTimeSpec s); [apply date_erase|reflexivity]).
    rewrite E. apply bind_ext. intros [d q5]. rewrite erase_bind, create_erase. apply bind_ext. intros c. reflexivity.
  Qed.
  Lemma parse_erase : forall fuel,
    (forall pos acc, erase (d_parseNext dtf_valid source fuel pos acc) = parseNext dtf_valid source fuel pos acc) /\
    (forall pos acc, erase (d_forPattern dtf_valid source fuel pos acc) = forPattern dtf_valid source fuel pos acc).
  Proof.
    induction fuel as [|f [IHn IHp]]; [split; reflexivity|]. split; intros pos acc.
    - cbn [d_parseNext parseNext]. destruct (endOfSource source pos); [reflexivity|].
      unfold d_at. rewrite erase_bind, erase_lift. apply bind_ext. intros c.
      destruct (c =? ch "%"); [apply IHp|]. destruct (indexOfPercent source pos); [apply IHp|reflexivity].
    - cbn [d_forPattern forPattern]. rewrite erase_bind, check_erase. apply bind_ext. intros _.
      unfold d_at. rewrite erase_bind, erase_lift. apply bind_ext. intros c.
      destruct (c =? ch "%"); [apply IHn|]. rewrite erase_bind, directive_erase. apply bind_ext. intros [a q]. apply IHn.
  Qed.
  Theorem compile_erase : erase (d_compile dtf_valid source) = compile dtf_valid source.
  Proof. apply parse_erase. Qed.
End Erase.

(** ** what is said *)
Lemma flag_constant c g : flag_of_char c = Some g -> In (c, flag_name g) constant_names.
Proof.
  unfold flag_of_char, constant_names.
  repeat match goal with |- context [if ?b then _ else _] => destruct b eqn:? end; intros H; try discriminate; injection H as <-;
    repeat match goal with H : (_ =? _) = true |- _ => apply Z.eqb_eq in H; subst end; cbn; tauto.
Qed.
Lemma constant_flag c name g : In (c, name) constant_names -> flag_of_char c = Some g -> name = flag_name g.
Proof.
  intros H E. unfold constant_names in H.
  repeat (destruct H as [H|H]; [injection H as <- <-; cbn in E; injection E as <-; reflexivity|]). destruct H.
Qed.
Lemma flag_named c : In c flag_chars -> exists name, In (c, name) constant_names.
Proof. intros H. apply flag_chars_iff in H. destruct (flag_of_char c) as [g|] eqn:E; [|congruence]. eexists. apply flag_constant. eassumption. Qed.

Lemma said_slip dtf n t x m b : said dtf n t x m b -> slip dtf t x.
Proof. intros H. destruct H; econstructor; eassumption. Qed.
Lemma slip_said dtf n t x : slip dtf t x -> exists m b, said dtf n t x m b.
Proof.
  intros H. destruct H as [F fl c r HF Hc|F fl ds r HF Hh HB|F fl W w ds r HF HW HB|h fl w p W P Hh|h fl w p W P c r Hh Hc Hs
      |h fl w p W P c s r Hh Hc Hs Hn|h fl w p W P c s r Hh Hc Hs|h fl w p W P c s d r Hh Hc Hs Hd Hp Hv
      |h fl w p W P c s T d r Hh Hc HT Hw|h fl w p W P c s T d r Hh Hc HT Hw Hp].
  - destruct (flag_named c) as (name & Hn); [apply HF; exact Hc|]. do 2 eexists. eapply said_flag; eassumption.
  - do 2 eexists. eapply said_width; eassumption.
  - do 2 eexists. eapply said_prec; eassumption.
  - assert (E : exists m, ending h W P m).
    { destruct (list_eq_dec Z.eq_dec P (txt ".")) as [->|Np]; [eexists; apply end_dot|].
      destruct W as [|x W]; [destruct P as [|y P]|].
      - destruct h; eexists; [apply end_percent|apply end_flags; discriminate].
      - eexists. apply end_number; [exact Np|right; discriminate].
      - eexists. apply end_number; [exact Np|left; discriminate]. }
    destruct E as (m & E). do 2 eexists. eapply said_end; eassumption.
  - do 2 eexists. eapply said_conv; eassumption.
  - do 2 eexists. eapply said_unclosed; eassumption.
  - do 2 eexists. eapply said_empty; eassumption.
  - do 2 eexists. eapply said_invalid; eassumption.
  - do 2 eexists. eapply said_wide; eassumption.
  - do 2 eexists. eapply said_fine; eassumption.
Qed.

Section Main.
  Variable dtf_valid : list Z -> bool.
  Variable source : list Z.
  Notation at_ := (at_ source).

  Lemma d_at_char pos c t : at_ pos (c :: t) -> d_at source pos = DOk c.
  Proof. intros Ha. unfold d_at. rewrite (at_char _ _ _ _ Ha). reflexivity. Qed.
  Lemma d_check_more pos c t m : at_ pos (c :: t) -> d_check source pos m = DOk tt.
  Proof. intros Ha. unfold d_check. rewrite (at_more _ _ _ _ Ha). reflexivity. Qed.
  Lemma d_check_end pos m : at_ pos [] -> d_check source pos m = syntax UnexpectedEnd pos m.
  Proof. intros Ha. unfold d_check. rewrite (at_end _ _ Ha). reflexivity. Qed.

  Lemma d_flags_dup F : forall fuel pos c r fl fl' g, at_ pos (F ++ c :: r) -> (List.length (F ++ c :: r) < fuel)%nat ->
    take_flags F fl = Some fl' -> flag_of_char c = Some g -> hasF g fl' = true ->
    d_flags source fuel pos fl = syntax DuplicateFlag (pos + zlen F) (txt "Duplicate flag '" ++ flag_name g ++ txt "'").
  Proof.
    induction F as [|x F IH]; intros fuel pos c r fl fl' g Ha Hf Ht Hg Hd; cbn [app take_flags] in *; (destruct fuel; [cbn in Hf; lia|]);
      cbn [d_flags]; rewrite (at_more _ _ _ _ Ha), (d_at_char _ _ _ Ha); cbn [dbind].
    - inversion Ht; subst. rewrite Hg, Hd. change (zlen (@nil Z)) with 0. rewrite Z.add_0_r. reflexivity.
    - destruct (flag_of_char x) as [g'|]; [|discriminate]. destruct (hasF g' fl); [discriminate|].
      rewrite zlen_cons. replace (pos + (1 + zlen F)) with (pos + 1 + zlen F) by lia.
      apply (IH fuel (pos + 1) c r (addF g' fl) fl' g); auto; [eapply at_next; eassumption|cbn in Hf; lia].
  Qed.

  Lemma flags_done F pos rest fl : at_ pos (F ++ rest) -> take_flags F noFlags = Some fl -> no_flag rest ->
    d_flags source (fuel0 source) pos noFlags = DOk (fl, pos + zlen F).
  Proof. intros Ha HF Hn. apply erase_ok. rewrite flags_erase. apply (p_flags_run source F (fuel0 source) pos rest noFlags fl Ha (at_fuel _ _ _ Ha) HF Hn). Qed.
  Lemma width_done W w rest pos : at_ pos (W ++ rest) -> width_raw W w -> after_width W rest -> d_width source pos = DOk (w, pos + zlen W).
  Proof. intros Ha HW Hn. apply erase_ok. rewrite width_erase. apply (p_width_run source W w rest pos Ha HW Hn). Qed.
  Lemma prec_done P p rest pos : at_ pos (P ++ rest) -> prec_raw P p -> after_prec P rest -> d_precision source pos = DOk (p, pos + zlen P).
  Proof. intros Ha HP Hn. apply erase_ok. rewrite prec_erase. apply (p_prec_run source P p rest pos Ha HP Hn). Qed.
  Lemma spec_done pos c r s : at_ pos (c :: r) -> conv_char c s -> d_spec source pos = DOk (s, pos + 1).
  Proof. intros Ha Hc. apply erase_ok. rewrite spec_erase. eapply p_spec_run; eassumption. Qed.

  Definition from_spec (fl : flags) (w p pos : Z) : dres (appender * Z) :=
    let+ (s, pos) := d_spec source pos in
    let+ (d, pos) := (if isDateTimeSpec s then d_date dtf_valid source pos else DOk (None, pos)) in
    let+ c := d_create fl w p d in
    DOk (Default s c, pos).

  Lemma d_head_go pos h fl w p W P c X : at_ pos (h ++ c :: X) -> head h fl w p W P -> ~ continues W P c ->
    at_ (pos + zlen h) (c :: X) /\ d_directive dtf_valid source pos = from_spec fl w p (pos + zlen h).
  Proof.
    intros Ha (F & HF & HW & HP & ->) Hc. split; [apply at_app; exact Ha|]. apply take_flags_text in HF. apply width_form_raw in HW as (HW & Hh).
    apply prec_form_raw in HP. rewrite <- !app_assoc in Ha. unfold d_directive.
    rewrite (flags_done F pos (W ++ P ++ c :: X) fl Ha HF).
    2:{ apply (head_no_flag W w P p c X HW Hh HP). intros -> ->. destruct (flag_of_char c) eqn:E; [|reflexivity].
        exfalso. apply Hc. left. repeat split. left. apply flag_chars_iff. congruence. }
    cbn [dbind]. apply at_app in Ha.
    rewrite (width_done W w _ _ Ha HW (head_after_width _ _ _ _ _ _ HW HP Hc)). cbn [dbind].
    apply at_app in Ha.
    rewrite (prec_done P p _ _ Ha HP (head_after_prec _ _ _ _ _ HP Hc)). cbn [dbind].
    replace (pos + zlen F + zlen W + zlen P) with (pos + zlen (F ++ W ++ P)) by (rewrite !zlen_app; lia). reflexivity.
  Qed.

  Lemma d_prec_end pos P p fl w : at_ pos P -> prec_raw P p -> P <> [] ->
    (let+ (p, pos) := d_precision source pos in from_spec fl w p pos)
    = syntax UnexpectedEnd (pos + zlen P)
        (if list_eq_dec Z.eq_dec P (txt ".") then txt "Format string terminates after '.'" else txt "Format string lacks specifier").
  Proof.
    intros Ha HP Hn. assert (G : after_prec P [] -> d_precision source pos = DOk (p, pos + zlen P) /\
      d_spec source (pos + zlen P) = syntax UnexpectedEnd (pos + zlen P) (txt "Format string lacks specifier")).
    { intros K. rewrite <- (app_nil_r P) in Ha. split; [apply (prec_done P p [] pos Ha HP K)|].
      apply at_app in Ha. unfold d_spec. rewrite (d_check_end _ _ Ha). reflexivity. }
    destruct HP as [| |ds HD Hd]; [congruence| |].
    - destruct G as (-> & E); [left; reflexivity|]. cbn [dbind]. unfold from_spec. rewrite E. reflexivity.
    - destruct ds as [|d ds].
      + unfold d_precision. rewrite (at_more _ _ _ _ Ha), (d_at_char _ _ _ Ha). cbn [dbind].
        change (negb (46 =? ch ".")) with false. cbv iota zeta. apply at_next in Ha. rewrite (d_check_end _ _ Ha). reflexivity.
      + destruct G as (-> & E); [right; right; right; split; [discriminate|]; split; [congruence|exact I]|]. cbn [dbind].
        unfold from_spec. rewrite E. destruct (list_eq_dec Z.eq_dec (46 :: d :: ds) (txt ".")) as [K|K]; [discriminate K|reflexivity].
  Qed.

  Lemma ending_number h W P m : ending h W P m -> W <> [] \/ P <> [] ->
    m = if list_eq_dec Z.eq_dec P (txt ".") then txt "Format string terminates after '.'" else txt "Format string lacks specifier".
  Proof.
    intros H Hn. destruct H as [|h Hh|h W|h W P Hp Hw]; [intuition congruence|intuition congruence| |].
    - destruct (list_eq_dec Z.eq_dec (txt ".") (txt ".")); congruence.
    - destruct (list_eq_dec Z.eq_dec P (txt ".")); congruence.
  Qed.

  Lemma d_end_run pos h fl w p W P m : at_ pos h -> head h fl w p W P -> ending h W P m -> h <> [] ->
    d_directive dtf_valid source pos = syntax UnexpectedEnd (pos + zlen h) m.
  Proof.
    intros Ha (F & HF & HW & HP & Eh) Hm Hne. subst h. apply take_flags_text in HF. apply width_form_raw in HW as (HW & Hh).
    apply prec_form_raw in HP. unfold d_directive.
    rewrite (flags_done F pos (W ++ P) fl Ha HF).
    2:{ destruct W as [|x W]; [destruct HP; cbn [app no_flag]; try reflexivity; exact I|].
        apply (width_head_no_flag _ w); [exact HW|exact Hh|discriminate]. }
    cbn [dbind]. apply at_app in Ha. rewrite !zlen_app.
    destruct W as [|x W], P as [|y P].
    - cbn [app] in Ha. change (zlen (@nil Z)) with 0. replace (pos + (zlen F + (0 + 0))) with (pos + zlen F) by lia.
      unfold d_width. rewrite (d_check_end _ _ Ha). cbn [dbind]. inversion Hm; subst; [|reflexivity|intuition congruence].
      exfalso. apply Hne. symmetry. assumption.
    - rewrite (width_done [] w (y :: P) _ Ha HW).
      2:{ right. left. split; [reflexivity|]. inversion HP; subst; (split; [cbn; unfold is_dec; lia|split; [cbn; congruence|discriminate]]). }
      cbn [dbind]. apply at_app in Ha. change (zlen (@nil Z)) with 0 in *. rewrite Z.add_0_r in *. rewrite Z.add_0_l.
      etransitivity; [apply (d_prec_end _ _ p fl w Ha HP); discriminate|].
      replace (pos + (zlen F + zlen (y :: P))) with (pos + zlen F + zlen (y :: P)) by lia. f_equal.
      symmetry. apply (ending_number _ _ _ _ Hm). right. discriminate.
    - rewrite (width_done (x :: W) w [] _ Ha HW).
      2:{ right. right. split; [discriminate|exact I]. }
      cbn [dbind]. apply at_app in Ha. rewrite (prec_done [] p [] _ Ha HP) by (right; left; split; [reflexivity|discriminate]).
      cbn [dbind]. change (zlen (@nil Z)) with 0. rewrite !Z.add_0_r.
      unfold d_spec. rewrite (d_check_end _ _ Ha). cbn [dbind]. unfold syntax at 1. cbn [dbind]. replace (pos + (zlen F + zlen (x :: W))) with (pos + zlen F + zlen (x :: W)) by lia.
      rewrite (ending_number _ _ _ _ Hm) by (left; discriminate). reflexivity.
    - rewrite (width_done (x :: W) w (y :: P) _ Ha HW).
      2:{ right. right. split; [discriminate|]. inversion HP; subst; cbn; unfold is_dec; lia. }
      cbn [dbind]. apply at_app in Ha.
      etransitivity; [apply (d_prec_end _ _ p fl w Ha HP); discriminate|].
      replace (pos + (zlen F + (zlen (x :: W) + zlen (y :: P)))) with (pos + zlen F + zlen (x :: W) + zlen (y :: P)) by lia. f_equal.
      symmetry. apply (ending_number _ _ _ _ Hm). right. discriminate.
  Qed.

  Lemma said_run pos t x m b : at_ pos t -> said dtf_valid pos t x m b -> t <> [] ->
    d_directive dtf_valid source pos = DErr (mkThrown (shifted pos x) m b).
  Proof.
    intros Ha H Hne. destruct H as [F fl c r name HF Hc Hname|F fl ds r HF Hh HB|F fl W w ds r HF HW HB|h fl w p W P m Hh Hm|h fl w p W P c r Hh Hc Hs
      |h fl w p W P c s r Hh Hc Hs Hn|h fl w p W P c s r Hh Hc Hs|h fl w p W P c s d r Hh Hc Hs Hd Hp Hv
      |h fl w p W P c s T d r Hh Hc HT Hw|h fl w p W P c s T d r Hh Hc HT Hw Hp]; cbn [shifted].
    - unfold d_directive. assert (K : hasc c fl = true) by (apply (hasc_in F fl); assumption).
      apply take_flags_text in HF. unfold hasc in K. destruct (flag_of_char c) as [g|] eqn:Eg; [|discriminate].
      rewrite (d_flags_dup F (fuel0 source) pos c r noFlags fl g Ha (at_fuel _ _ _ Ha) HF Eg K). rewrite (constant_flag _ _ _ Hname Eg). reflexivity.
    - apply too_big_no_digit in HB as (HD & HB & HN). apply take_flags_text in HF. unfold d_directive.
      destruct ds as [|x ds]; [vm_compute in HB; discriminate|]. cbn in Hh.
      inversion HD as [|? ? Hx HD']; subst.
      rewrite (flags_done F pos ((x :: ds) ++ r) fl Ha HF).
      2:{ cbn. destruct (flag_of_char x) eqn:E; [|reflexivity]. exfalso. apply (flag_not_dec x); [apply flag_chars_iff; congruence|congruence|exact Hx]. }
      cbn [dbind]. apply at_app in Ha. unfold d_width. cbn [app] in Ha. rewrite (d_check_more _ _ _ _ Ha). cbn [dbind]. rewrite (d_at_char _ _ _ Ha). cbn [dbind].
      assert (x =? ch "*" = false) as -> by (apply Z.eqb_neq; change (ch "*") with 42; unfold is_dec in Hx; lia).
      rewrite (p_digits_run source (x :: ds) (fuel0 source) _ r); try assumption; [|eapply at_fuel; exact Ha].
      cbn [lift dbind]. change (x :: ds ++ r) with ((x :: ds) ++ r) in Ha. rewrite (at_slice _ _ _ _ Ha). rewrite parseInt_dec by assumption.
      destruct (dec_value (x :: ds) <=? int_max) eqn:El; [apply Z.leb_le in El; lia|]. reflexivity.
    - apply too_big_no_digit in HB as (HD & HB & HN). apply take_flags_text in HF. apply width_form_raw in HW as (HW & Hh). unfold d_directive.
      destruct ds as [|x ds]; [vm_compute in HB; discriminate|]. inversion HD as [|? ? Hx HD']; subst.
      rewrite (flags_done F pos _ fl Ha HF).
      2:{ destruct W as [|y W]; [reflexivity|]. apply (width_head_no_flag _ w); [exact HW|exact Hh|discriminate]. }
      cbn [dbind]. apply at_app in Ha.
      rewrite (width_done W w _ _ Ha HW).
      2:{ destruct HW; [right; left|left; reflexivity|right; right].
          - split; [reflexivity|]. split; [cbn; unfold is_dec; lia|]. split; [cbn; congruence|discriminate].
          - split; [discriminate|]. cbn. unfold is_dec. lia. }
      cbn [dbind]. apply at_app in Ha. pose proof (at_next _ _ _ _ Ha) as Ha1. unfold d_precision.
      rewrite (at_more _ _ _ _ Ha), (d_at_char _ _ _ Ha). cbn [dbind].
      change (negb (46 =? ch ".")) with false. cbv iota zeta. cbn [app] in Ha1. rewrite (d_check_more _ _ _ _ Ha1). cbn [dbind].
      rewrite (d_at_char _ _ _ Ha1). cbn [dbind].
      assert (x =? ch "*" = false) as -> by (apply Z.eqb_neq; change (ch "*") with 42; unfold is_dec in Hx; lia).
      rewrite (p_digits_run source (x :: ds) (fuel0 source) _ r); try assumption; [|eapply at_fuel; exact Ha1].
      cbn [lift dbind]. change (x :: ds ++ r) with ((x :: ds) ++ r) in Ha1. rewrite (at_slice _ _ _ _ Ha1). rewrite parseInt_dec by assumption.
      destruct (dec_value (x :: ds) <=? int_max) eqn:El; [apply Z.leb_le in El; lia|].
      replace (pos + (zlen F + zlen W + 1)) with (pos + zlen F + zlen W + 1) by lia. reflexivity.
    - apply (d_end_run pos h fl w p W P m Ha Hh Hm Hne).
    - destruct (d_head_go pos h fl w p W P c r Ha Hh Hc) as (Ha1 & ->). unfold from_spec, d_spec. rewrite (d_check_more _ _ _ _ Ha1). cbn [dbind].
      rewrite (d_at_char _ _ _ Ha1). cbn [dbind]. destruct (spec_of_char c) as [s|] eqn:E; [|reflexivity].
      apply spec_of_char_iff in E. exfalso. exact (Hs s E).
    - destruct (d_head_go pos h fl w p W P c _ Ha Hh (conv_not_continues _ _ _ _ Hc)) as (Ha1 & ->). unfold from_spec.
      rewrite (spec_done _ _ _ _ Ha1 Hc). cbn [dbind]. apply at_next in Ha1.
      assert (isDateTimeSpec s = true) as -> by (destruct Hs; subst s; reflexivity).
      unfold d_date. rewrite (at_more _ _ _ _ Ha1), (d_at_char _ _ _ Ha1). cbn [dbind].
      change (negb (123 =? ch "{")) with false. cbv iota zeta. pose proof (at_next _ _ _ _ Ha1) as Ha2.
      rewrite (proj2 (scan_none _ _ _ Ha2) Hn). cbn [lift dbind]. replace (pos + (zlen h + 1)) with (pos + zlen h + 1) by lia. reflexivity.
    - destruct (d_head_go pos h fl w p W P c _ Ha Hh (conv_not_continues _ _ _ _ Hc)) as (Ha1 & ->). unfold from_spec.
      rewrite (spec_done _ _ _ _ Ha1 Hc). cbn [dbind]. apply at_next in Ha1.
      assert (isDateTimeSpec s = true) as -> by (destruct Hs; subst s; reflexivity).
      unfold d_date. rewrite (at_more _ _ _ _ Ha1), (d_at_char _ _ _ Ha1). cbn [dbind].
      change (negb (123 =? ch "{")) with false. cbv iota zeta. apply at_next in Ha1.
      rewrite (p_scan_run source false [] pat_nil (fuel0 source) _ r Ha1 (at_fuel _ _ _ Ha1)). cbn [lift dbind].
      change (zlen (@nil Z)) with 0. rewrite Z.add_0_r. unfold slice. rewrite Z.sub_diag. cbn [Z.to_nat firstn dbind].
      replace (pos + (zlen h + 2)) with (pos + zlen h + 1 + 1) by lia. reflexivity.
    - destruct (d_head_go pos h fl w p W P c _ Ha Hh (conv_not_continues _ _ _ _ Hc)) as (Ha1 & ->). unfold from_spec.
      rewrite (spec_done _ _ _ _ Ha1 Hc). cbn [dbind]. apply at_next in Ha1.
      assert (isDateTimeSpec s = true) as -> by (destruct Hs; subst s; reflexivity).
      unfold d_date. rewrite (at_more _ _ _ _ Ha1), (d_at_char _ _ _ Ha1). cbn [dbind].
      change (negb (123 =? ch "{")) with false. cbv iota zeta. apply at_next in Ha1.
      rewrite (p_scan_run source false d Hp (fuel0 source) _ r Ha1 (at_fuel _ _ _ Ha1)). cbn [lift dbind].
      rewrite (at_slice _ _ d _ Ha1). destruct d as [|y d]; [congruence|]. rewrite Hv. cbn [dbind].
      replace (pos + (zlen h + 2)) with (pos + zlen h + 1 + 1) by lia. reflexivity.
    - destruct (d_head_go pos h fl w p W P c _ Ha Hh (conv_not_continues _ _ _ _ Hc)) as (Ha1 & ->). unfold from_spec.
      rewrite (spec_done _ _ _ _ Ha1 Hc). cbn [dbind]. apply at_next in Ha1.
      assert ((if isDateTimeSpec s then d_date dtf_valid source (pos + zlen h + 1) else DOk (None, pos + zlen h + 1)) = DOk (d, pos + zlen h + 1 + zlen T)) as ->.
      { apply erase_ok. rewrite <- (p_date_run _ _ _ _ _ _ _ Ha1 HT). destruct (isDateTimeSpec s); [apply date_erase|reflexivity]. }
      cbn [dbind]. unfold d_create, d_checkValue.
      destruct Hh as (F & HF & HW & HP & _). apply width_form_raw in HW as (HW & _).
      rewrite (width_raw_check _ _ _ HW). pose proof Hw as Hw'. apply Z.leb_gt in Hw'. rewrite Hw'. cbn [dbind].
      rewrite PropsMsg.C70_range_messages.
      2:{ unfold CtxSpec.allowed. destruct (w =? -1) eqn:E1; [lia|]. destruct (w =? int_min) eqn:E2; [unfold int_min in E2; lia|]. cbn. lia. }
      assert (w <? 0 = false) as -> by lia. reflexivity.
    - destruct (d_head_go pos h fl w p W P c _ Ha Hh (conv_not_continues _ _ _ _ Hc)) as (Ha1 & ->). unfold from_spec.
      rewrite (spec_done _ _ _ _ Ha1 Hc). cbn [dbind]. apply at_next in Ha1.
      assert ((if isDateTimeSpec s then d_date dtf_valid source (pos + zlen h + 1) else DOk (None, pos + zlen h + 1)) = DOk (d, pos + zlen h + 1 + zlen T)) as ->.
      { apply erase_ok. rewrite <- (p_date_run _ _ _ _ _ _ _ Ha1 HT). destruct (isDateTimeSpec s); [apply date_erase|reflexivity]. }
      cbn [dbind]. unfold d_create, d_checkValue.
      destruct Hh as (F & HF & HW & HP & _). apply width_form_raw in HW as (HW & _). apply prec_form_raw in HP.
      rewrite (width_raw_check _ _ _ HW), (prec_raw_check _ _ _ HP). apply Z.leb_le in Hw. rewrite Hw. cbn [dbind].
      pose proof Hp as Hp'. apply Z.leb_gt in Hp'. rewrite Hp'. cbn [dbind].
      rewrite PropsMsg.C70_range_messages.
      2:{ unfold CtxSpec.allowed. destruct (p =? -1) eqn:E1; [lia|]. destruct (p =? int_min) eqn:E2; [unfold int_min in E2; lia|]. cbn. lia. }
      assert (p <? 0 = false) as -> by lia. reflexivity.
  Qed.

  Lemma said_pattern fuel pos t x m b acc : at_ pos t -> said dtf_valid pos t x m b -> (0 < fuel)%nat ->
    d_forPattern dtf_valid source fuel pos acc = DErr (mkThrown (shifted pos x) m b).
  Proof.
    intros Ha H Hf. destruct fuel as [|fuel]; [lia|]. cbn [d_forPattern]. pose proof (slip_hd _ _ _ (said_slip _ _ _ _ _ _ H)) as Hh.
    destruct t as [|c t].
    - rewrite (d_check_end _ _ Ha). cbn [dbind]. pose proof (slip_run dtf_valid source pos [] x Ha (said_slip _ _ _ _ _ _ H)) as R.
      rewrite (end_run dtf_valid source pos [] noFlags UNSET UNSET [] [] Ha) in R.
      2:{ exists []. split; [apply take_flags_text; reflexivity|]. split; [constructor|]. split; [constructor|reflexivity]. }
      injection R as R. rewrite <- R. change (zlen (@nil Z)) with 0. rewrite Z.add_0_r. unfold syntax. cbn [dbind].
      clear R Ha Hh. remember [] as t eqn:Et. destruct H as [F fl c r name HF Hc Hname|F fl ds r HF Hh HB|F fl W w ds r HF HW HB|h fl w p W P m Hh Hm|h fl w p W P c r Hh Hc Hs
      |h fl w p W P c s r Hh Hc Hs Hn|h fl w p W P c s r Hh Hc Hs|h fl w p W P c s d r Hh Hc Hs Hd Hp Hv
      |h fl w p W P c s T d r Hh Hc HT Hw|h fl w p W P c s T d r Hh Hc HT Hw Hp];
        try (exfalso; apply app_eq_nil in Et as (_ & Et); discriminate Et).
      + exfalso. apply app_eq_nil in Et as (_ & Et). apply app_eq_nil in Et as (-> & _). destruct HB as (_ & HB & _). vm_compute in HB. discriminate.
      + exfalso. apply app_eq_nil in Et as (_ & Et). apply app_eq_nil in Et as (_ & Et). discriminate.
      + destruct Hh as (F & _ & _ & _ & E). rewrite Et in E. symmetry in E. apply app_eq_nil in E as (_ & E). apply app_eq_nil in E as (EW & EP).
        destruct Hm; [reflexivity|congruence|discriminate|intuition congruence].
    - rewrite (d_check_more _ _ _ _ Ha). cbn [dbind]. rewrite (d_at_char _ _ _ Ha). cbn [dbind].
      destruct (c =? ch "%") eqn:E.
      { apply Z.eqb_eq in E. subst c. exfalso. apply Hh. reflexivity. }
      rewrite (said_run _ _ _ _ _ Ha H) by discriminate. reflexivity.
  Qed.

  Lemma d_parse_prefix s ds : format dtf_valid s ds -> forall t fuel pos acc,
    at_ pos (s ++ pct :: t) -> (List.length (s ++ pct :: t) < fuel)%nat ->
    exists fuel', (0 < fuel')%nat /\
      d_parseNext dtf_valid source fuel pos acc = d_forPattern dtf_valid source fuel' (pos + zlen s + 1) (acc ++ ds).
  Proof.
    assert (Start : forall t f pos acc, at_ pos (pct :: t) -> d_parseNext dtf_valid source (S f) pos acc = d_forPattern dtf_valid source f (pos + 1) acc).
    { intros t f pos acc Ha. cbn [d_parseNext]. rewrite (at_more _ _ _ _ Ha), (d_at_char _ _ _ Ha). reflexivity. }
    induction 1 as [|lit r ds Hl Hn Hr H IH|r ds H IH|F fl W w P p c s T d r ds HF HW HP Hc HT Hne H IH]; intros t fuel pos acc Ha Hf.
    - cbn [app] in *. destruct fuel as [|f]; [cbn in Hf; lia|]. exists f. cbn in Hf. split; [lia|].
      rewrite (Start t); [|exact Ha]. change (zlen (@nil Z)) with 0. rewrite app_nil_r. f_equal. lia.
    - destruct fuel as [|f]; [lia|].
      assert (E : exists q, r ++ pct :: t = pct :: q).
      { destruct Hr as [->|Hr]; [exists t; reflexivity|]. destruct r as [|y r]; [discriminate|]. cbn in Hr. injection Hr as ->. exists (r ++ pct :: t). reflexivity. }
      destruct E as (q & E). rewrite <- app_assoc, E in Ha.
      assert (K : d_parseNext dtf_valid source (S f) pos acc = d_parseNext dtf_valid source (S f) (pos + zlen lit) (acc ++ [Fixed lit])).
      { rewrite (Start q f (pos + zlen lit) _ (at_app _ _ _ _ Ha)). cbn [d_parseNext]. destruct lit as [|y lit]; [congruence|].
        rewrite (at_more _ _ _ _ Ha), (d_at_char _ _ _ Ha). cbn [dbind].
        assert (y =? ch "%" = false) as ->.
        { apply Z.eqb_neq. change (ch "%") with pct. intros ->. apply Hn. left. reflexivity. }
        unfold indexOfPercent. rewrite (at_skipn _ _ _ Ha). rewrite findPct_at by assumption. cbn [option_map].
        rewrite (at_slice _ _ _ _ Ha). reflexivity. }
      rewrite K. destruct (IH t (S f) (pos + zlen lit) (acc ++ [Fixed lit])) as (f' & Hp & E').
      + rewrite E. apply at_app. exact Ha.
      + rewrite !app_length in *. lia.
      + exists f'. split; [exact Hp|]. rewrite E', <- app_assoc, zlen_app. f_equal. lia.
    - destruct fuel as [|[|f]]; [cbn in Hf; lia|cbn in Hf; lia|]. cbn [app] in Ha. rewrite (Start _ _ _ _ Ha).
      cbn [d_forPattern]. apply at_next in Ha. rewrite (d_check_more _ _ _ _ Ha). cbn [dbind]. rewrite (d_at_char _ _ _ Ha). cbn [dbind].
      change (pct =? ch "%") with true. cbv iota. apply at_next in Ha.
      destruct (IH t f (pos + 1 + 1) (acc ++ [Fixed [pct]]) Ha) as (f' & Hp & E'); [cbn in Hf; lia|].
      exists f'. split; [exact Hp|]. etransitivity; [exact E'|]. rewrite <- app_assoc, !zlen_cons. f_equal. lia.
    - destruct fuel as [|[|f]]; [cbn in Hf; lia|cbn in Hf; lia|].
      assert (Eq : (pct :: F ++ W ++ P ++ c :: T ++ r) ++ pct :: t = pct :: F ++ W ++ P ++ c :: T ++ (r ++ pct :: t)).
      { cbn [app]. rewrite <- !app_assoc. cbn [app]. rewrite <- !app_assoc. reflexivity. }
      rewrite Eq in Ha, Hf. rewrite (Start _ _ _ _ Ha). apply at_next in Ha.
      assert (HT' : date_text dtf_valid s (r ++ pct :: t) T d) by (apply date_text_grow; [exact HT|discriminate]).
      assert (Eq2 : F ++ W ++ P ++ c :: T ++ (r ++ pct :: t) = (F ++ W ++ P ++ c :: T) ++ (r ++ pct :: t)) by (rewrite <- !app_assoc; reflexivity).
      destruct (F ++ W ++ P ++ c :: T ++ (r ++ pct :: t)) as [|y Y] eqn:EY.
      { exfalso. destruct F; [|discriminate]. destruct W; [|discriminate]. destruct P; discriminate. }
      cbn [d_forPattern]. rewrite (d_check_more _ _ _ _ Ha). cbn [dbind]. rewrite (d_at_char _ _ _ Ha). cbn [dbind].
      assert (y =? ch "%" = false) as ->.
      { apply Z.eqb_neq. change (ch "%") with pct. intros ->.
        pose proof (proj1 (width_text_raw _ _) HW) as (HW' & _). pose proof (proj1 (prec_text_raw _ _) HP) as (HP' & _).
        destruct F as [|g F].
        - destruct HW'; cbn in EY.
          + destruct HP'; cbn in EY; inversion EY; subst. apply Hne; reflexivity.
          + discriminate.
          + match goal with HD : Forall is_dec (_ :: _) |- _ => inversion HD; subst end. inversion EY; subst. unfold is_dec, pct in *. lia.
        - destruct HF as (_ & HF & _). cbn in EY. inversion EY; subst. assert (K : In pct flag_chars) by (apply HF; left; reflexivity).
          apply flag_char_cases in K. unfold pct in K. lia. }
      rewrite <- EY in Ha.
      assert (Dr : d_directive dtf_valid source (pos + 1) = DOk (Default s (mkCtx fl w p d), pos + 1 + zlen (F ++ W ++ P ++ c :: T))).
      { apply erase_ok. rewrite directive_erase. apply (p_directive_run dtf_valid source (pos + 1) F fl W w P p c s T d _ Ha HF HW HP Hc HT'). }
      rewrite Dr. cbn [dbind].
      rewrite EY, Eq2 in Ha. apply at_app in Ha.
      destruct (IH t f (pos + 1 + zlen (F ++ W ++ P ++ c :: T)) (acc ++ [Default s (mkCtx fl w p d)]) Ha) as (f' & Hp & E').
      { rewrite Eq2 in Hf. cbn [List.length] in Hf. rewrite (app_length (F ++ W ++ P ++ c :: T)) in Hf.
        rewrite !(app_length F), !(app_length W), !(app_length P) in Hf. cbn [List.length] in Hf. lia. }
      exists f'. split; [exact Hp|]. etransitivity; [exact E'|]. rewrite <- app_assoc. f_equal.
      rewrite zlen_cons. rewrite !zlen_app, !zlen_cons, !zlen_app. lia.
  Qed.
End Main.

Theorem compile_complaint dtf_valid src e m b :
  d_compile dtf_valid src = DErr (mkThrown e m b) <-> complaint dtf_valid src e m b.
Proof.
  assert (R : forall s ds t x m b, format dtf_valid s ds -> said dtf_valid (zlen s + 1) t x m b ->
    d_compile dtf_valid (s ++ pct :: t) = DErr (mkThrown (shifted (zlen s + 1) x) m b)).
  { intros s ds t x m0 b0 Hs Hx. unfold d_compile.
    destruct (d_parse_prefix dtf_valid (s ++ pct :: t) s ds Hs t (S (List.length (s ++ pct :: t))) 0 [] (at_0 _)) as (f & Hf & ->); [lia|].
    rewrite Z.add_0_l. apply (said_pattern dtf_valid (s ++ pct :: t) f (zlen s + 1) t x); [|exact Hx|exact Hf].
    pose proof (at_0 (s ++ pct :: t)) as Ha. apply at_app in Ha. apply at_next in Ha. exact Ha. }
  split.
  - intros D. assert (E : compile dtf_valid src = Err e) by (rewrite <- compile_erase, D; reflexivity).
    apply compile_malformed in E. destruct E as (s & ds & t & x & -> & Hs & Hx & ->).
    destruct (slip_said dtf_valid (zlen s + 1) _ _ Hx) as (m' & b' & Hm). rewrite (R s ds t x m' b' Hs Hm) in D.
    assert (Em : m' = m) by congruence. assert (Eb : b' = b) by congruence. subst. exists s, ds, t, x. repeat split; auto.
  - intros (s & ds & t & x & -> & Hs & Hx & ->). exact (R s ds t x m b Hs Hx).
Qed.
