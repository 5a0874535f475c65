(** Field width and padding of the floating-point conversions. *)
From Coq Require Import QArith.
From Verif Require Import Base Digits UtilsM SeqM SeqSpec SeqP SeqSubP ContextM CompilerM GrammarSpec IntFormM FormatterM MathM DecimalM FPDecimalM
  DoubleM BigDecM RoundM TraitsM ImplM FmtSpec FmtP FmtP2 DirSpec DecSpec FloatSpec BigSpec FPDecP FloatP DoubleP HexP FloatQ FloatArgP AnnP BigDecP BigGenP
  CompilerP CompilerP2 PatternP ImplP LoopSpec LoopP IntP PropsInt PropsFloat PropsBig.
Open Scope Z_scope.

(** the texts of %f of this decimal number fit into a Java String, whatever the directive *)
Definition fixed_fits (u sc : Z) : Prop := ndigits (Z.abs u) - sc < 2000000000 /\ (u = 0 \/ sc <= 646456992).

(** floating-point conversions and arguments: all doubles and NaN; of the decimal numbers, %f and %e *)
Inductive float_arg (J : jdk) : spec -> value -> Prop :=
| fa_double s v b : is_float_spec s -> is_double J v b -> float_arg J s v
| fa_nan s v : is_float_spec s -> is_nan J v -> float_arg J s v
| fa_fixed s v u sc : s = Sf \/ s = SF -> is_decimal v u sc -> fixed_fits u sc -> float_arg J s v
| fa_exp s v u sc : s = Se \/ s = SE -> is_decimal v u sc -> scale_room u sc -> float_arg J s v.

(** the same, finite *)
Inductive finite_arg (J : jdk) : spec -> value -> Prop :=
| fi_double s v b : is_float_spec s -> is_double J v b -> finite b -> finite_arg J s v
| fi_fixed s v u sc : s = Sf \/ s = SF -> is_decimal v u sc -> fixed_fits u sc -> finite_arg J s v
| fi_exp s v u sc : s = Se \/ s = SE -> is_decimal v u sc -> scale_room u sc -> finite_arg J s v.

(** every context gives the text [T] of what it asks for *)
Definition converts (J : jdk) (s : spec) (x : traits) (T : fspec -> list Z) : Prop :=
  forall c, rt_ok c -> exists u, formatterFor J s c x = Ok u /\ den u (T (q_of c)).

Lemma converts_prints J s x T src q : converts J s x T -> directive src s q -> prints J src [x] (T q).
Proof. intros H Hd. apply (prints_one J src s q _ _ Hd). intros c Hr <-. apply H. exact Hr. Qed.

Lemma renders_converts J s x T : renders J s x T -> converts J s x T.
Proof. intros H c Hr. apply renders_den; assumption. Qed.

Lemma form_converts J s v r F T : is_float_spec s -> t_asFloatForm (traitsOf J v r) = Ok F ->
  (forall c G, rt_ok c -> float_conv c s = Some G -> exists u, G F = Ok u /\ den u (T (q_of c))) ->
  converts J s (traitsOf J v r) (fun q => cased s (T q)).
Proof.
  intros Hs Ev H c Hr.
  assert (Up : forall G, float_conv c s = Some G -> exists u, upperOf (withFloat (traitsOf J v r) G) = Ok u /\ den u (upper (T (q_of c)))).
  { intros G EG. destruct (H c G Hr EG) as (u & Eu & Du). unfold upperOf, withFloat. rewrite Ev. cbn [bind]. rewrite Eu. cbn [bind]. apply s_upper_den. exact Du. }
  assert (Lo : forall G, float_conv c s = Some G -> exists u, withFloat (traitsOf J v r) G = Ok u /\ den u (T (q_of c))).
  { intros G EG. destruct (H c G Hr EG) as (u & Eu & Du). unfold withFloat. rewrite Ev. cbn [bind]. exists u. split; assumption. }
  destruct Hs as [->|[->|[->|[->|[->|[->|[->| ->]]]]]]]; cbn [formatterFor cased]; first [apply Lo; reflexivity|apply Up; reflexivity].
Qed.

(** ** Layout *)

(** padded numbers whose sign and digits do not depend on the width *)
Definition padded (s : spec) (T : fspec -> list Z) : Prop :=
  exists pre body, (forall q, pre (no_width q) = pre q /\ body (no_width q) = body q) /\
    (forall q, exists neg, pre q = sign_text q neg ++ (match s with Sa | SA => txt "0x" | _ => [] end)) /\
    forall q, T q = cased s (pad_number q (q_zero q) (pre q) (body q)).
(** words, padded with spaces only *)
Definition justified (s : spec) (T : fspec -> list Z) : Prop :=
  exists body, (forall q, body (no_width q) = body q) /\ forall q, T q = cased s (justify q (body q)).

Lemma cased_field s q zp t0 t : field q zp t0 t -> field q zp (cased s t0) (cased s t).
Proof. intros H. destruct s; try exact H; apply field_upper; exact H. Qed.

Lemma padded_field s T q : padded s T -> field q (q_zero q) (T (no_width q)) (T q).
Proof.
  intros (pre & body & E & _ & H). rewrite !H. destruct (E q) as [-> ->]. change (q_zero (no_width q)) with (q_zero q). rewrite pad_number_nowidth.
  apply cased_field, field_pad.
Qed.

Lemma justified_field s T q : justified s T -> field q false (T (no_width q)) (T q).
Proof. intros (body & E & H). rewrite !H, E, justify_nowidth. apply cased_field, field_justify. Qed.

Lemma finite_padded s neg body : s <> Sa -> s <> SA -> (forall q, body (no_width q) = body q) -> padded s (fun q => cased s (finite_text q neg (body q))).
Proof.
  intros H1 H2 E. exists (fun q => sign_text q neg ++ []), body. split; [intros q; split; [reflexivity|apply E]|]. split.
  - intros q. exists neg. destruct s; try reflexivity; contradiction.
  - intros q. rewrite app_nil_r. reflexivity.
Qed.

Lemma double_converts J s v b r : is_float_spec s -> is_double J v b -> finite b -> exists T, converts J s (traitsOf J v r) T /\ padded s T.
Proof.
  intros Hs Hv Hf. destruct (double_view J v b r Hv) as [Ev Hb]. destruct (printed_exists b Hf) as (f & e & P).
  set (T := fun q => match s with Sf | SF => c_f q (b <? 0) f e | Se | SE => c_e q (b <? 0) f e | Sg | SG => j_g q (b <? 0) f e | _ => j_a q (b <? 0) (magnitude b) end).
  exists (fun q => cased s (T q)). split.
  - apply (form_converts J s v r (doubleForm b) T Hs Ev). intros c G Hr EG. unfold T.
    destruct Hs as [->|[->|[->|[->|[->|[->|[->| ->]]]]]]]; cbn in EG; injection EG as <-;
      first [apply fmt_f_double|apply fmt_e_double|apply fmt_g_double|apply fmt_a_double]; assumption.
  - assert (A : (s = Sf \/ s = SF) \/ (s = Se \/ s = SE) \/ (s = Sg \/ s = SG) \/ (s = Sa \/ s = SA)) by (unfold is_float_spec in Hs; tauto).
    destruct A as [A|[A|[A|A]]].
    + assert (ET : forall q, T q = finite_text q (b <? 0) (f_body q f e)) by (intros q; unfold T; destruct A as [-> | ->]; reflexivity).
      destruct (finite_padded s (b <? 0) (fun q => f_body q f e)) as (pre & body & E1 & E2 & E3); [destruct A; congruence|destruct A; congruence|reflexivity|].
      exists pre, body. split; [exact E1|]. split; [exact E2|]. intros q. rewrite ET. apply E3.
    + assert (ET : forall q, T q = finite_text q (b <? 0) (e_body q f e)) by (intros q; unfold T; destruct A as [-> | ->]; reflexivity).
      destruct (finite_padded s (b <? 0) (fun q => e_body q f e)) as (pre & body & E1 & E2 & E3); [destruct A; congruence|destruct A; congruence|reflexivity|].
      exists pre, body. split; [exact E1|]. split; [exact E2|]. intros q. rewrite ET. apply E3.
    + assert (ET : forall q, T q = finite_text q (b <? 0) (if g_irregular q f e then g_unpadded q f e else g_body q f e)).
      { intros q. unfold T. destruct A as [-> | ->]; unfold j_g, c_g; destruct (g_irregular q f e); reflexivity. }
      destruct (finite_padded s (b <? 0) (fun q => if g_irregular q f e then g_unpadded q f e else g_body q f e)) as (pre & body & E1 & E2 & E3); [destruct A; congruence|destruct A; congruence|reflexivity|].
      exists pre, body. split; [exact E1|]. split; [exact E2|]. intros q. rewrite ET. apply E3.
    + exists (fun q => sign_text q (b <? 0) ++ txt "0x"), (fun q => a_body q (magnitude b)). split; [intros q; split; reflexivity|]. split.
      * intros q. exists (b <? 0). destruct A as [-> | ->]; reflexivity.
      * intros q. unfold T. destruct A as [-> | ->]; reflexivity.
Qed.

Lemma special_converts J s v r b : is_float_spec s -> t_asFloatForm (traitsOf J v r) = Ok (doubleForm b) -> inf_bits <= magnitude b ->
  exists T, converts J s (traitsOf J v r) T /\ justified s T.
Proof.
  intros Hs Ev Hb. set (T := fun q => if magnitude b =? inf_bits then j_inf q (b <? 0) else c_nan q).
  exists (fun q => cased s (T q)). split.
  - apply (form_converts J s v r (doubleForm b) T Hs Ev). intros c G Hr EG. rewrite (special_conv c s G b EG Hb). apply special_den; assumption.
  - unfold T. destruct (magnitude b =? inf_bits).
    + eexists. split; [|intros q; unfold j_inf; reflexivity]. reflexivity.
    + eexists. split; [|intros q; unfold c_nan; reflexivity]. reflexivity.
Qed.

(** ** Decimals *)

Lemma rt_bounds c : rt_ok c -> 0 <= q_width (q_of c) <= 65536 /\ 0 <= prec_or 6 (q_of c) <= 65536.
Proof. intros Hr. split; [apply (width_val c Hr)|apply (precOr6_spec c Hr)]. Qed.

Lemma hup_digits a k : 0 <= a -> 0 <= hup a k <= 10 ^ (ndigits a + Z.max 0 (- k)).
Proof.
  intros Ha. split; [apply hup_nonneg'; exact Ha|]. assert (N : 1 <= ndigits a /\ a < 10 ^ ndigits a).
  { destruct (Z.eq_dec a 0) as [->|Hn]; [split; vm_compute; [discriminate|reflexivity]|]. destruct (ndigits_bounds a ltac:(lia)) as (N1 & _ & B). split; [exact N1|exact B]. }
  destruct N as [N1 B]. unfold hup. destruct (Z.leb_spec k 0) as [L|L].
  - rewrite Z.max_r by lia. rewrite Z.pow_add_r by lia. assert (0 < 10 ^ (- k)) by (apply Z.pow_pos_nonneg; lia). nia.
  - rewrite Z.max_l by lia. rewrite Z.add_0_r. assert (P : 10 <= 10 ^ k) by (change 10 with (10 ^ 1) at 1; apply Z.pow_le_mono_r; lia).
    assert (H : 10 ^ k / 2 <= 10 ^ k) by (apply Z.div_le_upper_bound; lia). apply Z.le_trans with (a + 1); [|lia].
    apply Z.div_le_upper_bound; [lia|]. nia.
Qed.

Lemma with_alt_short al a k p : 0 <= a -> 0 <= p ->
  zlen (with_alt al (hup a k) p) <= ndigits a + Z.max 0 (- k) + 2 + p.
Proof.
  intros Ha Hp. assert (N1 : 1 <= ndigits a) by (unfold ndigits; apply digits_nonempty; lia).
  assert (Z1 : zlen (numeral 10 (hup a k / 10 ^ p)) <= ndigits a + Z.max 0 (- k) + 1).
  { apply zlen_numeral_lt; [lia|]. destruct (hup_digits a k Ha) as [H1 H2]. assert (P : 0 < 10 ^ p) by (apply Z.pow_pos_nonneg; lia). split; [apply Z.div_pos; lia|].
    apply Z.le_lt_trans with (hup a k); [apply Z.div_le_upper_bound; nia|]. apply Z.le_lt_trans with (1 := H2). apply Z.pow_lt_mono_r; lia. }
  unfold with_alt. destruct al; [rewrite zlen_alt_text by lia; lia|rewrite zlen_decimal_text by lia; destruct (p =? 0); lia].
Qed.

Lemma fixed_converts J s v u sc r : s = Sf \/ s = SF -> is_decimal v u sc -> fixed_fits u sc -> exists T, converts J s (traitsOf J v r) T /\ padded s T.
Proof.
  intros Hs Hv Hf. destruct (decimal_view J v u sc r Hv) as [Hj Ev]. unfold fixed_fits in Hf.
  assert (Hs' : is_float_spec s) by (unfold is_float_spec; tauto).
  assert (N1 : 1 <= ndigits (Z.abs u)) by (unfold ndigits; apply digits_nonempty; lia). pose proof (ndigits_fits u (proj1 Hj)) as N9.
  assert (C : u <> 0 \/ 0 <= sc \/ u = 0 /\ sc < 0) by lia. destruct (Z.eq_dec u 0) as [U0|U0].
  - destruct (Z_lt_ge_dec sc 0) as [Sn|Sp].
    + subst u. set (body := fun q => zeros (- sc) ++ with_alt (q_alt q) 0 (prec_or 6 q)).
      exists (fun q => cased s (finite_text q false (body q))). split; [|apply finite_padded; [destruct Hs; congruence|destruct Hs; congruence|reflexivity]].
      apply (form_converts J s v r _ (fun q => finite_text q false (body q)) Hs' Ev). intros c G Hr EG.
      assert (G = fmt_f c) as -> by (destruct Hs as [-> | ->]; cbn in EG; congruence). apply (fmt_f_big_zero c sc Hr Sn).
      destruct (rt_bounds c Hr) as [W P]. rewrite zlen_finite_text. unfold body. rewrite zlen_app. unfold zeros. rewrite zlen_rep.
      pose proof (zlen_sign_text (q_of c) false). pose proof (with_alt_short (q_alt (q_of c)) 0 0 (prec_or 6 (q_of c)) ltac:(lia) ltac:(lia)) as L.
      change (hup 0 0) with 0 in L. change (Z.abs 0) with 0 in Hf. rewrite int_max_val. lia.
    + exists (fun q => cased s (finite_text q (u <? 0) (f_body q (Z.abs u) (- sc)))).
      split; [|apply finite_padded; [destruct Hs; congruence|destruct Hs; congruence|reflexivity]].
      apply (form_converts J s v r _ (fun q => finite_text q (u <? 0) (f_body q (Z.abs u) (- sc))) Hs' Ev). intros c G Hr EG.
      assert (G = fmt_f c) as -> by (destruct Hs as [-> | ->]; cbn in EG; congruence). destruct (rt_bounds c Hr) as [W P]. apply (fmt_f_big c u sc Hr Hj ltac:(lia) ltac:(lia)).
      unfold c_f. rewrite zlen_finite_text. pose proof (zlen_sign_text (q_of c) (u <? 0)).
      pose proof (with_alt_short (q_alt (q_of c)) (Z.abs u) (- (- sc + prec_or 6 (q_of c))) (prec_or 6 (q_of c)) ltac:(lia) ltac:(lia)) as L.
      change (zlen (f_body (q_of c) (Z.abs u) (- sc))) with (zlen (with_alt (q_alt (q_of c)) (hup (Z.abs u) (- (- sc + prec_or 6 (q_of c)))) (prec_or 6 (q_of c)))). rewrite int_max_val. lia.
  - exists (fun q => cased s (finite_text q (u <? 0) (f_body q (Z.abs u) (- sc)))).
    split; [|apply finite_padded; [destruct Hs; congruence|destruct Hs; congruence|reflexivity]].
    apply (form_converts J s v r _ (fun q => finite_text q (u <? 0) (f_body q (Z.abs u) (- sc))) Hs' Ev). intros c G Hr EG.
    assert (G = fmt_f c) as -> by (destruct Hs as [-> | ->]; cbn in EG; congruence). destruct (rt_bounds c Hr) as [W P]. apply (fmt_f_big c u sc Hr Hj ltac:(lia) ltac:(lia)).
    unfold c_f. rewrite zlen_finite_text. pose proof (zlen_sign_text (q_of c) (u <? 0)).
    pose proof (with_alt_short (q_alt (q_of c)) (Z.abs u) (- (- sc + prec_or 6 (q_of c))) (prec_or 6 (q_of c)) ltac:(lia) ltac:(lia)) as L.
    change (zlen (f_body (q_of c) (Z.abs u) (- sc))) with (zlen (with_alt (q_alt (q_of c)) (hup (Z.abs u) (- (- sc + prec_or 6 (q_of c)))) (prec_or 6 (q_of c)))). rewrite int_max_val. lia.
Qed.

Lemma exp_converts J s v u sc r : s = Se \/ s = SE -> is_decimal v u sc -> scale_room u sc -> exists T, converts J s (traitsOf J v r) T /\ padded s T.
Proof.
  intros Hs Hv Hf. destruct (decimal_view J v u sc r Hv) as [Hj Ev]. unfold scale_room in Hf.
  assert (Hs' : is_float_spec s) by (unfold is_float_spec; tauto).
  exists (fun q => cased s (finite_text q (u <? 0) (be_body q (Z.abs u) (- sc)))).
  split; [|apply finite_padded; [destruct Hs; congruence|destruct Hs; congruence|reflexivity]].
  apply (form_converts J s v r _ (fun q => finite_text q (u <? 0) (be_body q (Z.abs u) (- sc))) Hs' Ev). intros c G Hr EG.
  assert (G = fmt_e c) as -> by (destruct Hs as [-> | ->]; cbn in EG; congruence). apply (fmt_e_big c u sc Hr Hj Hf).
Qed.

Lemma finite_converts J s v r : finite_arg J s v -> exists T, converts J s (traitsOf J v r) T /\ padded s T.
Proof.
  intros H. destruct H as [s v b Hs Hv Hf|s v u sc Hs Hv Hf|s v u sc Hs Hv Hf]; [apply (double_converts J s v b)|apply (fixed_converts J s v u sc)|apply (exp_converts J s v u sc)]; assumption.
Qed.

Lemma float_converts J s v r : float_arg J s v -> exists T, converts J s (traitsOf J v r) T /\ (padded s T \/ justified s T).
Proof.
  intros H. destruct H as [s v b Hs Hv|s v Hs Hv|s v u sc Hs Hv Hf|s v u sc Hs Hv Hf].
  - destruct (double_view J v b r Hv) as [Ev _]. destruct (Z_lt_ge_dec (magnitude b) inf_bits) as [L|L].
    + destruct (double_converts J s v b r Hs Hv L) as (T & H1 & H2). exists T. auto.
    + destruct (special_converts J s v r b Hs Ev ltac:(lia)) as (T & H1 & H2). exists T. auto.
  - destruct (nan_view J v r Hv) as (b & Ev & Hb). destruct (special_converts J s v r b Hs Ev ltac:(lia)) as (T & H1 & H2). exists T. auto.
  - destruct (fixed_converts J s v u sc r Hs Hv Hf) as (T & H1 & H2). exists T. auto.
  - destruct (exp_converts J s v u sc r Hs Hv Hf) as (T & H1 & H2). exists T. auto.
Qed.

(** ** What is printed *)

Lemma float_width J s v r src src0 q : float_arg J s v -> directive src s q -> directive src0 s (no_width q) ->
  exists t t0, prints J src [traitsOf J v r] t /\ prints J src0 [traitsOf J v r] t0 /\ zlen t = Z.max (q_width q) (zlen t0).
Proof.
  intros H D D0. destruct (float_converts J s v r H) as (T & HT & L). exists (T q), (T (no_width q)).
  split; [apply (converts_prints J s _ T); assumption|]. split; [apply (converts_prints J s _ T); assumption|].
  destruct L as [L|L]; eapply field_len; [apply (padded_field s T q L)|apply (justified_field s T q L)].
Qed.

Lemma float_justified J s v r src src0 q : float_arg J s v -> directive src s q -> directive src0 s (no_width q) -> q_zero q = false \/ q_left q = true ->
  exists t0, prints J src0 [traitsOf J v r] t0 /\ prints J src [traitsOf J v r] (justify q t0).
Proof.
  intros H D D0 Hz. destruct (float_converts J s v r H) as (T & HT & L). exists (T (no_width q)).
  split; [apply (converts_prints J s _ T); assumption|].
  assert (E : T q = justify q (T (no_width q))).
  { destruct L as [L|L]; [apply (padded_field s T q L)|apply (justified_field s T q L); reflexivity]. destruct Hz as [-> | ->]; [reflexivity|apply andb_false_r]. }
  rewrite <- E. apply (converts_prints J s _ T); assumption.
Qed.

Definition float_prefix (s : spec) (q : fspec) (pre : list Z) : Prop :=
  exists neg, pre = cased s (sign_text q neg ++ (match s with Sa | SA => txt "0x" | _ => [] end)).

Lemma cased_app s a b : cased s (a ++ b) = cased s a ++ cased s b.
Proof. destruct s; try reflexivity; apply map_app. Qed.
Lemma cased_zeros s n : cased s (zeros n) = zeros n.
Proof. destruct s; try reflexivity; unfold cased, upper, zeros; rewrite map_rep; reflexivity. Qed.
Lemma zlen_cased s t : zlen (cased s t) = zlen t.
Proof. destruct s; try reflexivity; apply zlen_map. Qed.

Lemma finite_zeros J s v r src src0 q : finite_arg J s v -> directive src s q -> directive src0 s (no_width q) -> q_zero q = true -> q_left q = false ->
  exists pre body, float_prefix s q pre /\ prints J src0 [traitsOf J v r] (pre ++ body) /\
    prints J src [traitsOf J v r] (pre ++ zeros (q_width q - zlen (pre ++ body)) ++ body).
Proof.
  intros H D D0 Hz Hl. destruct (finite_converts J s v r H) as (T & HT & (pre & body & E1 & E2 & E3)).
  destruct (E2 q) as (neg & En). exists (cased s (pre q)), (cased s (body q)). split; [exists neg; rewrite En; reflexivity|].
  assert (T0 : T (no_width q) = cased s (pre q) ++ cased s (body q)).
  { rewrite E3. destruct (E1 q) as [-> ->]. rewrite pad_number_nowidth. apply cased_app. }
  assert (T1 : T q = cased s (pre q) ++ zeros (q_width q - zlen (cased s (pre q) ++ cased s (body q))) ++ cased s (body q)).
  { rewrite E3. unfold pad_number. rewrite Hz, Hl. cbn [negb andb]. rewrite !cased_app, cased_zeros. rewrite zlen_app, !zlen_cased. do 3 f_equal. lia. }
  rewrite <- T1, <- T0. split; apply (converts_prints J s _ T); assumption.
Qed.

(** ** A '*' width of zero *)
Lemma star_zero_converts J s x T w0 F fl P p c : converts J s x T -> flags_text F fl -> prec_text P p -> p <> PRECEDING -> conv_char c s -> s <> Spct ->
  t_asInt w0 = Ok 0 ->
  prints J (pct :: F ++ txt "*" ++ P ++ [c]) [w0; x]
    (T (mkSpec (f_left fl) (f_alt fl) (f_plus fl) (f_space fl) (f_zero fl) 0 (if p =? UNSET then None else Some p))).
Proof.
  intros Hr HF HP Hp Hc Hs H0 dtf. exists [Default s (mkCtx fl PRECEDING p None)].
  split; [apply one_directive; try assumption; constructor|].
  assert (Hp' : p = UNSET \/ 0 <= p <= 65536) by (destruct (prec_ok _ _ HP) as [H|[H|H]]; auto; contradiction).
  set (c0 := mkCtx fl 0 p None).
  assert (Hrt : rt_ok c0) by (split; cbn; [right; left; lia|exact Hp']).
  destruct (Hr c0 Hrt) as (u & Eu & Du).
  assert (Eq : q_of c0 = mkSpec (f_left fl) (f_alt fl) (f_plus fl) (f_space fl) (f_zero fl) 0 (if p =? UNSET then None else Some p)).
  { unfold q_of. cbn. f_equal. unfold UNSET in *. destruct Hp' as [->|H]; [reflexivity|].
    replace (p <? 0) with false by (symmetry; apply Z.ltb_ge; lia). replace (p =? -1) with false by (symmetry; apply Z.eqb_neq; lia). reflexivity. }
  rewrite Eq in Du. apply den_wden in Du.
  assert (E : appendOne J (Default s (mkCtx fl PRECEDING p None)) [w0; x] = Ok (u, [])).
  { rewrite (appendOne_resolve J s _ _ _ _ (resolve_star_width fl p None w0 0 [x] H0 ltac:(cbn; lia))).
    cbn [appendOne]. change (mkCtx (if 0 <? 0 then addF LEFT_JUSTIFY fl else fl) (Z.abs 0) p None) with c0.
    rewrite resolve_plain; [cbn [bind]; rewrite Eu; reflexivity|reflexivity|].
    unfold isPrecedingPrecision. cbn. apply Z.eqb_neq. exact Hp. }
  split.
  - unfold format. cbn [run]. rewrite E, (emitSB_wden _ _ _ Du). reflexivity.
  - intros sb target. unfold formatInto. cbn [run]. rewrite E, (wden_emits _ _ _ target (emits_if sb) Du). reflexivity.
Qed.

Lemma float_star_zero J s v r w0 F fl P p c : float_arg J s v -> flags_text F fl -> prec_text P p -> p <> PRECEDING -> conv_char c s ->
  t_asInt w0 = Ok 0 ->
  exists t, prints J (pct :: F ++ txt "*" ++ P ++ [c]) [w0; traitsOf J v r] t /\ prints J (pct :: F ++ P ++ [c]) [traitsOf J v r] t.
Proof.
  intros H HF HP Hp Hc H0. destruct (float_converts J s v r H) as (T & HT & _).
  assert (Hs : is_float_spec s) by (destruct H; unfold is_float_spec; try assumption; tauto).
  assert (Hn : s <> Spct) by (intros ->; unfold is_float_spec in Hs; repeat destruct Hs as [Hs|Hs]; discriminate).
  eexists. split; [apply (star_zero_converts J s _ T w0 F fl P p c HT); assumption|].
  assert (D : directive (pct :: F ++ [] ++ P ++ [c]) s (mkSpec (f_left fl) (f_alt fl) (f_plus fl) (f_space fl) (f_zero fl) 0 (if p =? UNSET then None else Some p))).
  { apply (dir_text F fl [] UNSET P p c s); try assumption; [constructor|discriminate|]. intros _ ->. inversion Hc as [E|s0 E E0]; subst s0. destruct s; try discriminate. contradiction. }
  apply (converts_prints J s _ T _ _ HT D).
Qed.
