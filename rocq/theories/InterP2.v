(** C104: %d, %c, %s and %f at the level of texts. *)
From Coq Require Import QArith.
From Verif Require Import Base Digits ContextM CompilerM SeqSpec FmtSpec FmtP FloatSpec FloatP FPDecP ExactSpec BigSpec WholeSpec FlagP InterSpec InterP.
Open Scope Z_scope.

(** ** %d *)
Definition dsign (q : fspec) (v : Z) : list Z := sign_text q (v <? 0).
Definition dbody (q : fspec) (v : Z) : list Z :=
  if (v =? 0) && (digits_asked q =? 0) then (if q_plus q then [43] else []) else dsign q v ++ min_digits (digits_asked q) (numeral 10 (Z.abs v)).

Lemma dsign_len q v : zlen (dsign q v) = if (v <? 0) || q_plus q || q_space q then 1 else 0.
Proof. unfold dsign, sign_text. destruct (v <? 0), (q_plus q), (q_space q); reflexivity. Qed.

Lemma d_core q v : prec_fine q -> zero_filled q = false -> j_d q v = just (q_width q) (q_left q) (dbody q v).
Proof.
  intros Hp Hz. unfold j_d, d_irregular, dbody, c_d, pad_number, zero_filled, no_prec, digits_asked, dsign, prec_fine in *.
  assert (E : q_zero q && match q_prec q with Some _ => false | None => true end && negb (q_left q) = false).
  { destruct (q_zero q), (q_left q), (q_prec q); try reflexivity; discriminate. }
  rewrite E. rewrite !justify_just. unfold int_digits. destruct (q_prec q) as [p|].
  - destruct (Z.eqb_spec v 0) as [->|Nv]; cbn [andb].
    + change (Z.abs 0 =? 0) with true. cbn [andb]. destruct (Z.eqb_spec p 0) as [->|Np].
      * cbn [andb]. unfold sign_text. change (0 <? 0) with false. cbv iota. destruct (q_space q), (q_plus q); reflexivity.
      * replace (match p with 0 => true | _ => false end) with false by (destruct p; [contradiction|reflexivity..]). reflexivity.
    + replace (Z.abs v =? 0) with false by (symmetry; apply Z.eqb_neq; lia). reflexivity.
  - change (1 =? 0) with false. rewrite !andb_false_r. cbn [andb]. f_equal. f_equal. symmetry. apply min_digits_one; lia.
Qed.

Definition dfilled (q : fspec) (v : Z) : list Z := dsign q v ++ min_digits (q_width q - zlen (dsign q v)) (numeral 10 (Z.abs v)).
Lemma d_filled q v : zero_filled q = true -> j_d q v = dfilled q v.
Proof.
  intros Hz. unfold zero_filled in Hz. rewrite !andb_true_iff in Hz. destruct Hz as ((Hz & Hl) & Hn). unfold j_d, d_irregular, c_d, pad_number, dfilled, dsign, int_digits, min_digits.
  unfold no_prec in *. destruct (q_prec q); [discriminate|]. rewrite Hz, Hl, !andb_false_r. reflexivity.
Qed.

Lemma dbody_len q v : prec_fine q ->
  zlen (dbody q v) = if (v =? 0) && (digits_asked q =? 0) then (if q_plus q then 1 else 0)
    else (if (v <? 0) || q_plus q || q_space q then 1 else 0) + Z.max (digits_asked q) (zlen (numeral 10 (Z.abs v))).
Proof. intros Hp. unfold dbody. destruct ((v =? 0) && (digits_asked q =? 0)); [destruct (q_plus q); reflexivity|]. rewrite zlen_app, dsign_len, min_digits_len. reflexivity. Qed.
Lemma asked_nonneg q : prec_fine q -> 0 <= digits_asked q.
Proof. unfold prec_fine, digits_asked. destruct (q_prec q); lia. Qed.
Lemma asked_at_least l a p s z w m : digits_asked (mkSpec l a p s z w (at_least m)) = m.
Proof. unfold digits_asked, at_least. cbn [q_prec]. destruct (Z.eqb_spec m 1); lia. Qed.

Lemma sign_text_same l a p s z w r l' a' z' w' r' n : sign_text (mkSpec l' a' p (s && negb p) z' w' r') n = sign_text (mkSpec l a p s z w r) n.
Proof. unfold sign_text. cbn [q_plus q_space]. destruct n, p, s; reflexivity. Qed.

Lemma plainest_d_same q v : prec_fine q -> j_d (plainest_d q) v = j_d q v.
Proof.
  intros Hp. pose proof (asked_nonneg q Hp) as M0. unfold plainest_d. cbv zeta. pose proof (numeral_nonempty 10 (Z.abs v) ltac:(lia) ltac:(lia)) as L.
  destruct (zero_filled q) eqn:Hz.
  - rewrite (d_filled q v Hz). assert (Es : q_plus q || q_space q && negb (q_plus q) = q_plus q || q_space q) by (destruct (q_plus q), (q_space q); reflexivity). rewrite Es.
    destruct (q_plus q || q_space q) eqn:Sg.
    + set (r := mkSpec _ _ _ _ _ _ _). assert (Hs : forall n, sign_text r n = sign_text q n) by (intros n; destruct q; apply sign_text_same).
      assert (Pr : prec_fine r) by (unfold prec_fine, r, at_least; cbn [q_prec]; destruct (_ =? 1); [exact I|lia]).
      assert (Da : digits_asked r = Z.max 1 (q_width q - 1)) by apply asked_at_least.
      rewrite d_core; [|exact Pr|reflexivity]. rewrite just_fits by apply zlen_nonneg. unfold dbody. rewrite Da. replace (Z.max 1 (q_width q - 1) =? 0) with false by (symmetry; apply Z.eqb_neq; lia).
      rewrite andb_false_r. unfold dfilled. unfold dsign at 1. rewrite Hs. fold (dsign q v). f_equal. rewrite dsign_len.
      rewrite <- orb_assoc, Sg, orb_true_r. unfold min_digits. f_equal. destruct (Z.max_spec 1 (q_width q - 1)) as [[? ->]|[? ->]]; [reflexivity|rewrite !zeros_neg by lia; reflexivity].
    + apply orb_false_iff in Sg as [Sp Ss]. destruct (Z.leb_spec (q_width q) 1).
      * rewrite d_core; [|exact I|reflexivity]. rewrite just_fits by apply zlen_nonneg. unfold dbody. change (digits_asked plain) with 1. rewrite andb_false_r.
        unfold dfilled. assert (dsign plain v = dsign q v) as -> by (unfold dsign, sign_text; rewrite Sp, Ss; reflexivity). f_equal. unfold min_digits. pose proof (zlen_nonneg (dsign q v)). rewrite !zeros_neg by lia. reflexivity.
      * rewrite d_filled by reflexivity. unfold dfilled. cbn [q_width].
        assert (dsign (mkSpec false false false false true (q_width q) None) v = dsign q v) as -> by (unfold dsign, sign_text; rewrite Sp, Ss; reflexivity). reflexivity.
  - rewrite (d_core q v Hp Hz). set (m := digits_asked q) in *. set (r := mkSpec _ _ _ _ _ _ _).
    assert (Hs : forall n, sign_text r n = sign_text q n) by (intros n; destruct q; apply sign_text_same).
    assert (Pr : prec_fine r) by (unfold prec_fine, r, at_least; cbn [q_prec]; destruct (m =? 1); [exact I|lia]).
    assert (Da : digits_asked r = m) by apply asked_at_least.
    assert (Eb : dbody r v = dbody q v) by (unfold dbody, dsign; rewrite Hs, Da; reflexivity).
    rewrite d_core; [|exact Pr|reflexivity]. rewrite Eb. symmetry. unfold r at 1 2. cbn [q_width q_left]. apply just_plainest; rewrite dbody_len by exact Hp; fold m.
    + destruct (Z.eqb_spec v 0), (Z.eqb_spec m 0), (Z.ltb_spec 0 m); try lia; destruct (q_plus q), (q_space q), (v <? 0); cbn [andb orb negb]; lia.
    + destruct (Z.eqb_spec v 0), (Z.eqb_spec m 0), (Z.ltb_spec 0 m); try lia; destruct (q_plus q), (q_space q), (v <? 0); cbn [andb orb negb]; lia.
Qed.

(** the numbers that tell %d directives apart *)
Definition d_probe (q q' : fspec) : Z := 10 ^ (q_width q + q_width q' + digits_asked q + digits_asked q').

Lemma dsign_chars q v : blank_first (dsign q v ++ numeral 10 (Z.abs v)) = negb (v <? 0) && negb (q_plus q) && q_space q.
Proof.
  pose proof (numeral_nonempty 10 (Z.abs v) ltac:(lia) ltac:(lia)) as L. pose proof (numeral_chars 10 (Z.abs v) ltac:(lia) ltac:(lia)) as C.
  assert (N : blank_first (numeral 10 (Z.abs v)) = false).
  { rewrite blank_first_eq. destruct (numeral 10 (Z.abs v)); [reflexivity|]. inversion_clear C. apply Z.eqb_neq. tauto. }
  unfold dsign, sign_text. destruct (v <? 0); [reflexivity|]. destruct (q_plus q); [reflexivity|]. destruct (q_space q); [reflexivity|]. cbn [app negb andb]. exact N.
Qed.
Lemma d_big q v : prec_fine q -> 0 < v -> q_width q <= zlen (numeral 10 v) -> digits_asked q <= zlen (numeral 10 v) -> j_d q v = dsign q v ++ numeral 10 (Z.abs v).
Proof.
  intros Hp Hv Hw Hd. rewrite Z.abs_eq by lia. assert (E : forall m, m <= zlen (numeral 10 v) -> min_digits m (numeral 10 v) = numeral 10 v) by (intros m Hm; unfold min_digits; rewrite zeros_neg by lia; reflexivity).
  pose proof (zlen_nonneg (dsign q v)). destruct (zero_filled q) eqn:Hz.
  - rewrite d_filled by exact Hz. unfold dfilled. rewrite Z.abs_eq by lia. rewrite E by lia. reflexivity.
  - rewrite d_core by assumption. unfold dbody. replace (v =? 0) with false by (symmetry; apply Z.eqb_neq; lia). cbn [andb]. rewrite Z.abs_eq, E by lia. apply just_fits. rewrite zlen_app. lia.
Qed.

Lemma count_43_dsign q v : count 43 (dsign q v ++ numeral 10 (Z.abs v)) = if negb (v <? 0) && q_plus q then 1 else 0.
Proof.
  rewrite count_app, (count_plus_no (numeral 10 _)) by (apply numeral_chars; lia). unfold dsign, sign_text. destruct (v <? 0), (q_plus q), (q_space q); reflexivity.
Qed.

(** what '0' fills, when no sign is always there *)
Lemma dsign_none q v : q_plus q || q_space q = false -> dsign q v = if v <? 0 then [45] else [].
Proof. intros H. apply orb_false_iff in H as [E1 E2]. unfold dsign, sign_text. rewrite E1, E2. destruct (v <? 0); reflexivity. Qed.

(** directives that are as plain as can be *)
Inductive d_plain : fspec -> Prop :=
| dp_zero w : 2 <= w -> d_plain (mkSpec false false false false true w None)
| dp_other l p s w m : 0 <= m -> p && s = false ->
    (w = 0 \/ (if p || s && (0 <? m) then m + 1 else m) < w) ->
    (l = true -> (if m =? 0 then (if s then 2 else 1) else if p || s && (0 <? m) then m + 1 else m) < w) ->
    d_plain (mkSpec l false p s false w (at_least m)).
Lemma plainest_d_plain q : prec_fine q -> 0 <= q_width q -> d_plain (plainest_d q).
Proof.
  intros Hp Hw. pose proof (asked_nonneg q Hp) as M0. unfold plainest_d. cbv zeta. destruct (zero_filled q).
  - destruct (q_plus q || q_space q && negb (q_plus q)).
    + apply dp_other; [lia|destruct (q_plus q), (q_space q); reflexivity|left; reflexivity|discriminate].
    + destruct (Z.leb_spec (q_width q) 1); [|apply dp_zero; lia]. apply (dp_other false false false 0 1); [lia|reflexivity|left; reflexivity|discriminate].
  - apply dp_other; [exact M0|destruct (q_plus q), (q_space q); reflexivity| |].
    + unfold width_above. destruct (Z.leb_spec (q_width q) (if q_plus q || q_space q && negb (q_plus q) && (0 <? digits_asked q) then digits_asked q + 1 else digits_asked q)); [left; reflexivity|right; assumption].
    + intros H. apply andb_true_iff in H as [_ H]. apply Z.ltb_lt in H. unfold width_above.
      destruct (Z.leb_spec (q_width q) (if q_plus q || q_space q && negb (q_plus q) && (0 <? digits_asked q) then digits_asked q + 1 else digits_asked q)); [|exact H]. exfalso.
      destruct (Z.eqb_spec (digits_asked q) 0) as [E|E]; [|lia]. rewrite E in *. cbn in *. destruct (q_plus q), (q_space q); cbn in *; lia.
Qed.

Lemma d_plain_fine q : d_plain q -> prec_fine q /\ 0 <= q_width q.
Proof.
  intros [w H|l p s w m H _ H1 _]; cbn [q_width]; (split; [unfold prec_fine; cbn [q_prec]|]).
  - exact I. - lia. - unfold at_least. destruct (m =? 1); [exact I|exact H].
  - destruct (p || s && (0 <? m)); lia.
Qed.

Lemma d_plain_unique q q' : d_plain q -> d_plain q' ->
  (forall v, v = 0 \/ v = 1 \/ v = -1 \/ v = d_probe q q' -> alike (j_d q v) (j_d q' v)) -> q = q'.
Proof.
  intros D D' H. destruct (d_plain_fine q D) as [Hp Hw]. destruct (d_plain_fine q' D') as [Hp' Hw'].
  pose proof (H 0 ltac:(auto)) as H0. pose proof (H 1 ltac:(auto)) as H1. pose proof (H (-1) ltac:(auto)) as Hn. pose proof (H (d_probe q q') ltac:(auto)) as Hb. clear H.
  pose proof (asked_nonneg q Hp) as M. pose proof (asked_nonneg q' Hp') as M'. unfold d_probe in Hb. set (k := q_width q + q_width q' + digits_asked q + digits_asked q') in *.
  assert (Hk : 0 <= k) by lia. pose proof (Z.pow_pos_nonneg 10 k ltac:(lia) Hk) as Pk. pose proof (numeral_long 10 k ltac:(lia) Hk) as Lk.
  rewrite !d_big in Hb by (assumption || lia).
  pose proof (al_plus _ _ Hb) as Ep. rewrite !count_43_dsign in Ep. pose proof (al_first _ _ Hb) as Es. rewrite !dsign_chars in Es.
  replace (10 ^ k <? 0) with false in * by (symmetry; apply Z.ltb_ge; lia). cbn [negb andb] in *. clear Hb.
  assert (Pl : q_plus q = q_plus q') by (destruct (q_plus q), (q_plus q'); congruence || lia). rewrite <- Pl in Es. clear Ep. clearbody k. clear k Hk Pk Lk.
  destruct D as [w Dw|l p s w m Dm Dps Dw Dl], D' as [w' Dw'|l' p' s' w' m' Dm' Dps' Dw' Dl']; cbn [q_plus q_space] in Pl, Es.
  - (* both filled *) pose proof (al_len _ _ H0) as E. rewrite !d_filled in E by reflexivity. unfold dfilled in E. rewrite !zlen_app, !min_digits_len in E. cbn -[Z.add Z.max Z.sub] in E. f_equal; lia.
  - (* one filled *) exfalso. subst p'. cbn [negb andb] in Es. subst s'.
    pose proof (al_zeros _ _ H0) as E0. pose proof (al_len _ _ H0) as E1. pose proof (al_len _ _ Hn) as E2.
    rewrite d_filled in E0, E1, E2 by reflexivity. rewrite d_core in E0, E1, E2 by (assumption || reflexivity). rewrite just_len in E1, E2. rewrite count_just in E0 by lia.
    rewrite dbody_len in E1, E2 by assumption. unfold dbody in E0. rewrite asked_at_least in E0, E1, E2. unfold dfilled in E0, E1, E2. rewrite zlen_app, min_digits_len in E1, E2.
    cbn -[Z.add Z.max Z.sub] in E1, E2. change (dsign (mkSpec false false false false true w None) 0) with (@nil Z) in E0. cbn [app] in E0. change (zlen []) with 0 in E0. cbn [q_width] in E0. rewrite min_digits_zero in E0 by lia.
    unfold zeros in E0. rewrite count_rep in E0. change (ch "0" =? 48) with true in E0. cbv iota in E0. change (0 =? 0) with true in E0. cbn [andb] in E0. destruct (Z.eqb_spec m' 0) as [Z0|Z0]; [cbn in E0; lia|].
    change (dsign (mkSpec l' false false false false w' (at_least m')) 0) with (@nil Z) in E0. cbn [app] in E0. change (Z.abs 0) with 0 in E0. rewrite min_digits_zero in E0 by lia. unfold zeros in E0. rewrite count_rep in E0.
    change (ch "0" =? 48) with true in E0. cbv iota in E0. cbn -[Z.add Z.max Z.sub] in E1, E2. lia.
  - exfalso. subst p. cbn [negb andb] in Es. subst s.
    pose proof (al_zeros _ _ H0) as E0. pose proof (al_len _ _ H0) as E1. pose proof (al_len _ _ Hn) as E2. symmetry in E0, E1, E2.
    rewrite d_filled in E0, E1, E2 by reflexivity. rewrite d_core in E0, E1, E2 by (assumption || reflexivity). rewrite just_len in E1, E2. rewrite count_just in E0 by lia.
    rewrite dbody_len in E1, E2 by assumption. unfold dbody in E0. rewrite asked_at_least in E0, E1, E2. unfold dfilled in E0, E1, E2. rewrite zlen_app, min_digits_len in E1, E2.
    cbn -[Z.add Z.max Z.sub] in E1, E2. change (dsign (mkSpec false false false false true w' None) 0) with (@nil Z) in E0. cbn [app] in E0. change (zlen []) with 0 in E0. cbn [q_width] in E0. rewrite min_digits_zero in E0 by lia.
    unfold zeros in E0. rewrite count_rep in E0. change (ch "0" =? 48) with true in E0. cbv iota in E0. change (0 =? 0) with true in E0. cbn [andb] in E0. destruct (Z.eqb_spec m 0) as [Z0|Z0]; [cbn in E0; lia|].
    change (dsign (mkSpec l false false false false w (at_least m)) 0) with (@nil Z) in E0. cbn [app] in E0. change (Z.abs 0) with 0 in E0. rewrite min_digits_zero in E0 by lia. unfold zeros in E0. rewrite count_rep in E0.
    change (ch "0" =? 48) with true in E0. cbv iota in E0. cbn -[Z.add Z.max Z.sub] in E1, E2. lia.
  - (* neither *) subst p'. assert (s' = s) as -> by (destruct p, s, s'; cbn in *; congruence).
    rewrite !d_core in H0, H1 by (assumption || reflexivity).
    assert (Em : m = m').
    { pose proof (al_zeros _ _ H0) as E. rewrite !count_just in E by lia. unfold dbody in E. rewrite !asked_at_least in E. change (0 =? 0) with true in E. change (Z.abs 0) with 0 in E. cbn [andb q_plus] in E.
      assert (C : forall l w m, 1 <= m -> count 48 (dsign (mkSpec l false p s false w (at_least m)) 0 ++ min_digits m (numeral 10 0)) = m).
      { intros l0 w0 m0 B. rewrite count_app, min_digits_zero by lia. unfold zeros. rewrite count_rep. change (ch "0" =? 48) with true. cbv iota. unfold dsign, sign_text. cbn. destruct p, s; cbn; lia. }
      destruct (Z.eqb_spec m 0) as [->|], (Z.eqb_spec m' 0) as [->|]; [reflexivity| | |]; try rewrite !C in E by lia; try lia; destruct p; cbn in E; lia. }
    subst m'. assert (Ew : w = w').
    { pose proof (al_len _ _ H0) as E. rewrite !just_len, !dbody_len in E by assumption. rewrite !asked_at_least in E. cbn [q_width q_plus q_space] in E. change (0 =? 0) with true in E. change (0 <? 0) with false in E.
      change (zlen (numeral 10 (Z.abs 0))) with 1 in E. cbn [andb orb] in E. destruct (Z.eqb_spec m 0), (Z.ltb_spec 0 m); try lia; destruct p, s; cbn [andb orb] in *; try discriminate; lia. }
    subst w'. f_equal. destruct (Bool.bool_dec l l') as [|Nl]; [assumption|exfalso].
    assert (Hl : (if m =? 0 then (if s then 2 else 1) else if p || s && (0 <? m) then m + 1 else m) < w) by (destruct l, l'; try contradiction; auto).
    clear Dl Dl' Dw Dw' Hw Hw'. 
    assert (B0 : forall l, (m =? 0) && negb p = false -> blank_last (just w l (dbody (mkSpec l false p s false w (at_least m)) 0)) = l).
    { intros l0 C. rewrite just_blank_last.
      - rewrite dbody_len by assumption. rewrite asked_at_least. cbn [q_plus q_space]. change (0 =? 0) with true. change (0 <? 0) with false. change (zlen (numeral 10 (Z.abs 0))) with 1. cbn [andb orb].
        replace ((if m =? 0 then if p then 1 else 0 else (if p || s then 1 else 0) + Z.max m 1) <? w) with true; [apply andb_true_r|]. symmetry. apply Z.ltb_lt.
        destruct (Z.eqb_spec m 0), (Z.ltb_spec 0 m); try lia; destruct p, s; cbn [andb orb negb] in *; try discriminate; lia.
      - apply nonempty_len. rewrite dbody_len by assumption. rewrite asked_at_least. cbn [q_plus q_space]. change (0 =? 0) with true. change (0 <? 0) with false. change (zlen (numeral 10 (Z.abs 0))) with 1. cbn [andb orb].
        destruct (Z.eqb_spec m 0); [destruct p; [lia|discriminate]|]. destruct (p || s); lia.
      - unfold dbody. rewrite asked_at_least. change (0 =? 0) with true. cbn [andb q_plus]. destruct (Z.eqb_spec m 0); [destruct p; [reflexivity|discriminate]|].
        rewrite blank_last_app by (apply nonempty_len; rewrite min_digits_len; lia). apply blank_last_no, min_digits_chars; lia. }
    destruct ((m =? 0) && negb p) eqn:C.
    + apply andb_true_iff in C as [Z0 P0]. apply Z.eqb_eq in Z0. subst m. destruct p; [discriminate|]. clear B0.
      assert (B1 : forall l, blank_last (just w l (dbody (mkSpec l false false s false w (at_least 0)) 1)) = l).
      { intros l0. rewrite just_blank_last.
        - rewrite dbody_len by exact (ltac:(unfold prec_fine; cbn; lia)). rewrite asked_at_least. cbn. replace ((if s then 1 else 0) + 1 <? w) with true; [apply andb_true_r|]. symmetry. apply Z.ltb_lt. cbn in Hl. destruct s; lia.
        - unfold dbody. cbn. unfold dsign, sign_text. cbn. destruct s; discriminate.
        - unfold dbody. cbn. unfold dsign, sign_text. cbn. destruct s; reflexivity. }
      pose proof (al_last _ _ H1) as E. cbn [q_width q_left] in E. rewrite !B1 in E. contradiction.
    + pose proof (al_last _ _ H0) as E. cbn [q_width q_left] in E. rewrite !B0 in E by reflexivity. contradiction.
Qed.
