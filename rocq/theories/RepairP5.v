(** Calls no repair touches. *)
From Coq Require Import QArith.
From Verif Require CharP.
From Verif Require Import Base Digits UtilsM SeqM SeqSpec SeqP SeqSubP ContextM CompilerM GrammarSpec CompilerP CompilerP2 PatternP
  IntFormM FormatterM FmtSpec FmtP FmtP2 MathM DecimalM FPDecimalM DoubleM BigDecM RoundM TraitsM ImplM ImplP DecSpec
  FloatSpec DirSpec CastP IntP LoopSpec LoopP NearP FloatP DoubleP HexP FloatArgP PropsFloat BigSpec BigDecP BigGenP PropsBig WidthP BigFixP BigReadP ExactSpec ExactP
  ScaleSpec ScaleP ValueSpec ValueP ValueP2 WholeSpec WholeP RepairM RepairSpec RepairP RepairP2 RepairP3 RepairP4 DiffP.
Open Scope Z_scope.

Lemma same_f q u sc : u <> 0 \/ 0 <= sc -> b_f q u sc = c_f q (u <? 0) (Z.abs u) (- sc).
Proof.
  intros H. unfold b_f, c_f, f_body. cbv zeta. destruct (Z.eqb_spec u 0); [rewrite zeros_none by lia|]; reflexivity.
Qed.

Lemma same_e q u sc : (u = 0 -> sc = 0) -> ~ (kept (Z.abs u) (prec_or 6 q + 1) = 10 /\ snd (sig (Z.abs u) (- sc) (prec_or 6 q + 1)) = 9) ->
  b_e q (u <? 0) (Z.abs u) (- sc) = c_e q (u <? 0) (Z.abs u) (- sc).
Proof.
  intros H K. unfold b_e, c_e, be_body, e_body, sig0. cbv zeta. destruct (Z.eqb_spec (Z.abs u) 0) as [E|E].
  - assert (sc = 0) as -> by lia. reflexivity.
  - destruct (sig (Z.abs u) (- sc) (prec_or 6 q + 1)) as [S X]. cbn [snd] in K. unfold big_exp_text.
    destruct (Z.eqb_spec X 9), (Z.eqb_spec (kept (Z.abs u) (prec_or 6 q + 1)) 10); cbn [andb]; try reflexivity. lia.
Qed.

Lemma positional_fits u sc P : 1 <= P <= 65536 -> bg_positional (Z.abs u) (- sc) P = true -> u <> 0 -> last_exp (Z.abs u) (- sc) P <= 2147483648.
Proof.
  intros HP B Hu. unfold bg_positional in B. replace (Z.abs u =? 0) with false in B by (symmetry; apply Z.eqb_neq; lia). apply andb_prop in B as [B1 B2]. bools.
  rewrite last_rscale by lia. unfold rscale. pose proof (ndigits_pos (Z.abs u) ltac:(lia)).
  destruct (ndigits (Z.abs u) <=? P) eqn:E1; bools; [lia|]. destruct (hup _ _ =? _); lia.
Qed.

Lemma same_inf q neg : neg = true \/ q_plus q = true \/ q_space q = false -> j_inf q neg = c_inf q neg.
Proof. unfold j_inf, c_inf, sign_text. intros [->|[E|E]]; [reflexivity| |]; destruct neg; try reflexivity; rewrite E; [reflexivity|destruct (q_plus q); reflexivity]. Qed.

Definition q_ok (q : fspec) : Prop := 0 <= prec_or 6 q <= 65536 /\ 0 <= q_width q.

Lemma prec_some q p : q_ok q -> q_prec q = Some p -> 0 <= p.
Proof. unfold q_ok, prec_or. intros [H _] E. rewrite E in H. lia. Qed.
Lemma g_prec_ok q : q_ok q -> 1 <= g_prec q <= 65536.
Proof. unfold g_prec, q_ok. cbv zeta. destruct (prec_or 6 q =? 0) eqn:E; bools; lia. Qed.

(** a conversion gives what it gave, or its argument is touched *)
Lemma meant_cases J s d q g o : q_ok q -> meant J s d q g o -> shown J s d q (traitsGiven J g) o \/ touched J s q g.
Proof.
  intros Hq H. pose proof (g_prec_ok q Hq) as GP. assert (Hp := proj1 Hq). assert (Hw := proj2 Hq).
  destruct H; cbn [traitsGiven].
  - destruct (d_irregular q z) eqn:E; [|left; replace (c_d q z) with (j_d q z) by (unfold j_d; rewrite E; reflexivity); apply sh_signed; assumption].
    assert (z = 0) as -> by (unfold d_irregular in E; destruct (Z.eqb_spec z 0); [assumption|rewrite ?andb_false_r in E; discriminate E]).
    destruct (Z.eq_dec (q_width q) 0) as [W|W]; [right; apply to_signed; assumption|]. left. apply (d_seen q Hw E) in W. rewrite <- W. apply sh_signed; assumption.
  - left. apply sh_unsigned; assumption.
  - destruct (x_irregular q n) eqn:E; [|left; replace (c_x q n) with (j_x q n) by (unfold j_x; rewrite E; reflexivity); apply sh_hex; assumption].
    assert (n = 0) as -> by (unfold x_irregular in E; destruct (Z.eqb_spec n 0); [assumption|rewrite ?andb_false_r in E; discriminate E]).
    destruct (Z_lt_le_dec (q_width q) 2) as [W|W]; [|right; apply to_hex; assumption]. left. apply (x_seen s q E) in W. rewrite <- W. apply sh_hex; assumption.
  - destruct (o_irregular q n) eqn:E; [|left; replace (c_o q n) with (j_o q n) by (unfold j_o; rewrite E; reflexivity); apply sh_octal; assumption].
    assert (n = 0) as -> by (unfold o_irregular in E; destruct (Z.eqb_spec n 0); [assumption|rewrite ?andb_false_r in E; discriminate E]).
    pose proof (o_seen q (fun p => prec_some q p Hq) E) as O.
    assert (D : match q_prec q with Some p => p = 1 | None => q_width q < 2 end \/ match q_prec q with Some p => p <> 1 | None => 2 <= q_width q end).
    { destruct (q_prec q) as [p|]; [destruct (Z.eq_dec p 1); auto|lia]. }
    destruct D as [D|D]; [|right; apply to_octal; assumption]. left. apply O in D. rewrite <- D. apply sh_octal; assumption.
  - left. eapply sh_negative; eassumption.
  - left. eapply sh_not_integer; eassumption.
  - left. apply sh_char; assumption.
  - left. apply sh_not_char; assumption.
  - left. apply sh_char_fails; assumption.
  - left. apply sh_text; assumption.
  - destruct (wden_leaves _ _ (den_wden _ _ H0)) as (ts & F & _). pose proof (sh_seq J s d q u t ts r H H0 F) as Sh.
    destruct (q_prec q) as [p|] eqn:Ep; [|left; replace (c_s q t) with (seq_text q t ts) by (unfold seq_text, c_s; rewrite Ep; reflexivity); exact Sh].
    destruct (Z_lt_le_dec p (zlen t)) as [L|L].
    + pose proof (seq_seen s q t ts p Ep (prec_some q p Hq Ep) L) as Sn. pose proof (leaf_start_nonneg ts p) as Ln.
      destruct (Z.eq_dec (leaf_start ts p) 0) as [E|E]; [left; rewrite <- (proj2 Sn (or_introl E)); exact Sh|].
      destruct (Z_lt_le_dec p (q_width q + leaf_start ts p)) as [W|W]; [|left; rewrite <- (proj2 Sn (or_intror W)); exact Sh].
      right. eapply to_seq; try eassumption. lia.
    + left. replace (c_s q t) with (seq_text q t ts); [exact Sh|]. unfold seq_text, c_s. rewrite Ep. replace (p <? zlen t) with false by (symmetry; apply Z.ltb_ge; exact L).
      rewrite firstn_all2 by (unfold zlen in L; lia). reflexivity.
  - left. apply sh_no_text; assumption.
  - left. apply sh_fixed; assumption.
  - left. apply sh_exp; assumption.
  - pose proof (sh_general J s d q v b f e r H H0 H1) as Sh. destruct (g_irregular q f e) eqn:E; [|left; replace (c_g q (b <? 0) f e) with (j_g q (b <? 0) f e) by (unfold j_g; rewrite E; reflexivity); exact Sh].
    assert (Hf : 0 <= f) by (apply (CharP.its_digits_nonneg _ _ _ H1)).
    assert (D : 1 < g_prec q <= ndigits f \/ g_prec q = 1 \/ ndigits f < g_prec q) by lia. destruct D as [D|D].
    + left. apply (g_double_seen s q (b <? 0) f e Hf (proj1 GP) E) in D. rewrite <- D. exact Sh.
    + right. eapply to_general; eassumption.
  - left. apply sh_hexfloat; assumption.
  - pose proof (sh_infinite J s d q v b r H H0 H1) as Sh. destruct (b <? 0) eqn:E; [left; exact Sh|]. bools.
    destruct (q_plus q) eqn:E1; [left; rewrite <- (same_inf q false) by auto; exact Sh|]. destruct (q_space q) eqn:E2; [|left; rewrite <- (same_inf q false) by auto; exact Sh].
    assert (D : (q_left q = false /\ 8 < q_width q) \/ (q_left q = true \/ q_width q <= 8)) by (destruct (q_left q); [auto|]; destruct (Z_lt_le_dec 8 (q_width q)); auto).
    destruct D as [D|D]; [left; apply (inf_seen s q E2 E1) in D; rewrite <- D; exact Sh|]. right. eapply to_infinite; eassumption.
  - left. apply sh_nan; assumption.
  - destruct (Z.eq_dec u 0) as [->|Nu].
    + destruct (Z_lt_le_dec sc 0) as [L|L]; [|left; rewrite <- same_f by auto; apply sh_big_fixed; auto]. change (0 <? 0) with false. change (Z.abs 0) with 0.
      assert (D : (q_zero q = true /\ q_left q = false /\ zlen (sign_text q false) - sc + zlen (f_body q 0 0) <= q_width q) \/
        (q_zero q = false \/ q_left q = true \/ q_width q < zlen (sign_text q false) - sc + zlen (f_body q 0 0))).
      { destruct (q_zero q); [|auto]. destruct (q_left q); [auto|]. destruct (Z_le_gt_dec (zlen (sign_text q false) - sc + zlen (f_body q 0 0)) (q_width q)); [auto|right; right; right; lia]. }
      destruct D as [D|D]; [|right; eapply to_big_fixed; eassumption]. left. apply (f_seen s q sc Hw L) in D. rewrite <- D. apply sh_big_fixed; auto.
    + destruct (Z_le_gt_dec (sc - prec_or 6 q) 646456992); [left; rewrite <- same_f by auto; apply sh_big_fixed; auto|]. right. eapply to_big_tiny; [eassumption..|lia].
  - assert (L : last_exp (Z.abs u) (- sc) (prec_or 6 q + 1) <= 2147483648).
    { destruct H1 as [-> |H1]; [|exact H1]. assert (Hj : java_decimal 0 sc) by (inversion H0; assumption). destruct Hj. cbn. lia. }
    assert (Dz : u = 0 /\ sc <> 0 \/ (u = 0 -> sc = 0)) by (destruct (Z.eq_dec u 0), (Z.eq_dec sc 0); auto; right; congruence).
    destruct Dz as [[-> Dz]|Dz]; [right; eapply to_big_zero; eassumption|].
    destruct (Z.eq_dec (kept (Z.abs u) (prec_or 6 q + 1)) 10) as [K|K]; [destruct (Z.eq_dec (snd (sig (Z.abs u) (- sc) (prec_or 6 q + 1))) 9) as [X|X]; [right; eapply to_big_exp; eassumption|]|];
      left; rewrite <- same_e by (try assumption; tauto); apply sh_big_exp; assumption.
  - left. apply sh_big_exp_huge with (u := u) (sc := sc); try assumption. unfold scale_fits in H1. lia.
  - assert (L : last_exp (Z.abs u) (- sc) (g_prec q) <= 2147483648).
    { destruct H1 as [-> |H1]; [|exact H1]. assert (Hj : java_decimal 0 sc) by (inversion H0; assumption). destruct Hj. cbn. lia. }
    pose proof (g_seen s q (u <? 0) (Z.abs u) sc ltac:(lia) (proj1 GP)) as G. destruct (g_differs q (u <? 0) (Z.abs u) (- sc)) eqn:E; [right; eapply to_big_general; eassumption|].
    left. rewrite <- (proj2 G eq_refl). apply sh_big_general; auto.
  - left. assert (L : u <> 0 /\ 2147483648 < last_exp (Z.abs u) (- sc) (g_prec q)) by (unfold scale_fits in H1; lia).
    apply sh_big_general_huge with (u := u) (sc := sc); try assumption; [|apply L]. destruct (bg_positional (Z.abs u) (- sc) (g_prec q)) eqn:E; [|reflexivity].
    pose proof (positional_fits u sc (g_prec q) GP E (proj1 L)). lia.
  - left. eapply sh_big_hex; eassumption.
  - left. apply sh_not_float; assumption.
  - left. apply sh_float_fails; assumption.
  - left. eapply sh_date; eassumption.
  - left. eapply sh_date_fails; eassumption.
  - left. eapply sh_not_date; eassumption.
  - left. apply sh_pointer; assumption.
  - left. apply sh_no_pointer; assumption.
  - left. apply sh_primitive; assumption.
  - left. apply sh_null_text; assumption.
  - left. apply sh_null_pointer; assumption.
  - left. apply sh_null; assumption.
  - left. apply sh_nothing; assumption.
  - left. apply sh_percent; assumption.
Qed.

Lemma meant_shown J s d q g o : q_ok q -> meant J s d q g o -> ~ touched J s q g -> shown J s d q (traitsGiven J g) o.
Proof. intros Hq H N. destruct (meant_cases J s d q g o Hq H) as [S|T]; [exact S|exfalso; exact (N T)]. Qed.

(** a touched argument is shown differently *)
Lemma touched_differs J s d q g : q_ok q -> touched J s q g -> exists o o', meant J s d q g o /\ shown J s d q (traitsGiven J g) o' /\ o <> o'.
Proof.
  intros Hq H. pose proof (g_prec_ok q Hq) as GP. assert (Hp := proj1 Hq). assert (Hw := proj2 Hq). destruct H; cbn [traitsGiven].
  - eexists _, _. split; [apply mn_signed; eassumption|]. split; [apply sh_signed; eassumption|]. intros E. injection E as E. symmetry in E. apply (d_seen q Hw H1) in E. exact (E H2).
  - eexists _, _. split; [apply mn_hex; eassumption|]. split; [apply sh_hex; eassumption|]. intros E. injection E as E. symmetry in E. apply (x_seen s q H1) in E. lia.
  - eexists _, _. split; [apply mn_octal; eassumption|]. split; [apply sh_octal; eassumption|]. intros E. injection E as E. symmetry in E.
    apply (o_seen q (fun p => prec_some q p Hq) H1) in E. destruct (q_prec q); lia.
  - eexists _, _. split; [apply mn_seq; eassumption|]. split; [apply sh_seq; eassumption|]. intros E. injection E as E. symmetry in E.
    apply (seq_seen s q t ts p H2 (prec_some q p Hq H2) H3) in E. lia.
  - eexists _, _. split; [eapply mn_infinite; eassumption|]. split; [eapply sh_infinite; eassumption|]. intros E. injection E as E. symmetry in E.
    replace (b <? 0) with false in E by (symmetry; apply Z.ltb_ge; assumption). apply (inf_seen s q H3 H4) in E as [E1 E2]. destruct H5; [congruence|lia].
  - eexists _, _. split; [eapply mn_general; eassumption|]. split; [eapply sh_general; eassumption|]. intros E. injection E as E. symmetry in E.
    apply (g_double_seen s q (b <? 0) f e (CharP.its_digits_nonneg _ _ _ H1) (proj1 GP) H2) in E. lia.
  - eexists _, _. split; [eapply mn_big_fixed; eassumption|]. split; [eapply sh_big_fixed; eauto|]. intros E. injection E as E. symmetry in E.
    apply (f_seen s q sc Hw H2) in E as (E1 & E2 & E3). destruct H3 as [F|[F|F]]; [congruence|congruence|lia].
  - eexists _, _. split; [eapply mn_big_fixed; eassumption|]. split; [eapply sh_big_tiny; eassumption|]. discriminate.
  - assert (Hj : java_decimal 0 sc) by (inversion H0; assumption). destruct Hj. eexists _, _. split; [eapply mn_big_exp; [eassumption..|left; reflexivity]|].
    split; [eapply sh_big_exp; [eassumption..|cbn; lia]|]. intros E. injection E as E. symmetry in E. apply (e_seen s q 0 sc (proj1 Hp)) in E. apply E. left. split; [reflexivity|assumption].
  - assert (Nu : u <> 0) by (intros ->; unfold kept in H1; change (ndigits (Z.abs 0)) with 1 in H1; lia).
    assert (L : last_exp (Z.abs u) (- sc) (prec_or 6 q + 1) <= 2147483648).
    { unfold last_exp. replace (Z.abs u =? 0) with false by (symmetry; apply Z.eqb_neq; lia). destruct (sig (Z.abs u) (- sc) (prec_or 6 q + 1)) as [S X]. cbn [snd] in H2. lia. }
    eexists _, _. split; [eapply mn_big_exp; [eassumption..|right; exact L]|]. split; [eapply sh_big_exp; [eassumption..|exact L]|].
    intros E. injection E as E. symmetry in E. apply (e_seen s q u sc (proj1 Hp)) in E. apply E. right. repeat split; assumption.
  - assert (L : last_exp (Z.abs u) (- sc) (g_prec q) <= 2147483648).
    { destruct H1 as [-> |H1]; [|exact H1]. assert (Hj : java_decimal 0 sc) by (inversion H0; assumption). destruct Hj. cbn. lia. }
    eexists _, _. split; [eapply mn_big_general; eassumption|]. split; [eapply sh_big_general; [eassumption..|right; exact L]|].
    intros E. injection E as E. symmetry in E. apply (g_seen s q (u <? 0) (Z.abs u) sc ltac:(lia) (proj1 GP)) in E. congruence.
Qed.

(** ** Calls *)

Lemma takes_taken J args o : takes J args o ->
  taken J (map (traitsGiven J) args) (match o with Ok (w, rest) => Ok (w, map (traitsGiven J) rest) | Err e => Err e end).
Proof.
  intros H. destruct H; cbn [map traitsGiven].
  - apply tk_missing.
  - apply tk_int, st_int. assumption.
  - apply tk_not_int, st_not_int. assumption.
  - apply tk_not_int, st_fails. assumption.
  - apply tk_not_int, st_null.
Qed.

Lemma width_same J l w args o : (forall rest, w = PRECEDING -> ~ takes J args (Ok (- 2 ^ 31, rest))) -> width_meant J l w args o ->
  width_is J l w (map (traitsGiven J) args) (match o with Ok (l', w', rest) => Ok (l', w', map (traitsGiven J) rest) | Err e => Err e end).
Proof.
  intros N H. destruct H.
  - apply wi_none.
  - apply wi_number. assumption.
  - apply wi_star; [apply (takes_taken _ _ _ H)|assumption].
  - apply wi_negative; [apply (takes_taken _ _ _ H)|assumption].
  - eapply wi_range; [apply (takes_taken _ _ _ H)|assumption|]. intros ->. exact (N rest eq_refl H).
  - apply wi_fails. apply (takes_taken _ _ _ H).
Qed.

Lemma prec_same J p args o : prec_meant J p args o ->
  prec_is J p (map (traitsGiven J) args) (match o with Ok (p', rest) => Ok (p', map (traitsGiven J) rest) | Err e => Err e end).
Proof.
  intros H. destruct H.
  - apply pi_none.
  - apply pi_number. assumption.
  - apply pi_star; [apply (takes_taken _ _ _ H)|assumption].
  - eapply pi_negative; [apply (takes_taken _ _ _ H)|assumption].
  - eapply pi_range; [apply (takes_taken _ _ _ H)|assumption].
  - apply pi_fails. apply (takes_taken _ _ _ H).
Qed.

Lemma prec_ok J p args p' rest fl l0 w a0 a1 l w' : star_ok p -> width_meant J l0 w a0 (Ok (l, w', a1)) -> prec_meant J p args (Ok (p', rest)) -> q_ok (asked fl l w' p').
Proof.
  intros Hs W H. assert (0 <= w') by (inversion W; subst; lia). unfold q_ok, prec_or, asked. cbn [q_prec q_width]. split; [|assumption]. inversion H; subst; try lia. unfold star_ok, UNSET, PRECEDING, int_min in Hs. lia.
Qed.

Lemma spared_says J ds : Forall sane ds -> forall args t o, spared J ds args -> means J ds args t o -> says J ds (map (traitsGiven J) args) t o.
Proof.
  intros Hs. induction Hs as [|a r Ha Hr IH]; intros args t o Sp M; inversion M as [|? ? ? ? ? ? ? P M'|? ? ? ? P]; subst.
  - apply sy_end.
  - inversion P; subst; cbn [spared] in Sp.
    + eapply sy_piece; [apply pc_literal|]. apply IH; assumption.
    + destruct Sp as [S1 S2]. match goal with W : width_meant _ _ _ _ _, Q : prec_meant _ _ _ _, X : meant _ _ _ _ _ _ |- _ => destruct (S2 _ _ _ _ _ _ W Q) as [S3 S4];
        pose proof (prec_ok J _ _ _ _ fl _ _ _ _ l w' (proj2 Ha) W Q) as Hq; apply (width_same J _ _ _ _ S1) in W; apply prec_same in Q; apply (meant_shown J _ _ _ _ _ Hq) in X; [|exact S3] end.
      cbn [map] in *. eapply sy_piece; [eapply pc_shown; eassumption|]. apply IH; assumption.
  - apply sy_stop. inversion P; subst; cbn [spared] in Sp; destruct Sp as [S1 S2].
    + apply pc_width_fails. match goal with W : width_meant _ _ _ _ _ |- _ => apply (width_same J _ _ _ _ S1) in W; exact W end.
    + match goal with W : width_meant _ _ _ _ _, Q : prec_meant _ _ _ _ |- _ => apply (width_same J _ _ _ _ S1) in W; apply prec_same in Q end. cbn [map] in *. eapply pc_prec_fails; eassumption.
    + match goal with W : width_meant _ _ _ _ _, Q : prec_meant _ _ _ _ |- _ => apply (width_same J _ _ _ _ S1) in W; apply prec_same in Q end. cbn [map] in *. eapply pc_missing; eassumption.
    + match goal with W : width_meant _ _ _ _ _, Q : prec_meant _ _ _ _, X : meant _ _ _ _ _ _ |- _ => destruct (S2 _ _ _ _ _ _ W Q) as [S3 S4];
        pose proof (prec_ok J _ _ _ _ fl _ _ _ _ l w' (proj2 Ha) W Q) as Hq; apply (width_same J _ _ _ _ S1) in W; apply prec_same in Q; apply (meant_shown J _ _ _ _ _ Hq) in X; [|exact S3] end.
      cbn [map] in *. eapply pc_refused; eassumption.
Qed.
