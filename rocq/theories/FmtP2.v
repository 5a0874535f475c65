(** Complete description of the integer conversions, including where they depart from C; layout laws. *)
From Verif Require Import Base Digits UtilsM SeqM SeqSpec SeqP SeqSubP ContextM IntFormM FormatterM FmtSpec FmtP.

Lemma fmt_d_full c f v : rt_ok c -> int_view f v -> java_magnitude (Z.abs v) ->
  exists u, fmt_d c f = Ok u /\ den u (j_d (q_of c) v).
Proof.
  intros Hc Hv Hj. unfold j_d. destruct (d_irregular (q_of c) v) eqn:E.
  - unfold d_irregular in E. apply andb_prop in E as [E Epl]. apply andb_prop in E as [E Esp]. apply andb_prop in E as [Ev E]. bools. subst v. destruct (q_prec (q_of c)) as [[|p|p]|] eqn:Ep; try discriminate.
    destruct (prec_cases c Hc) as [(P1 & P2 & P3)|(P1 & P2 & P3)]; rewrite Ep in P3; [discriminate|]. injection P3 as P3.
    destruct Hv as [Hs Hd]. unfold fmt_d. rewrite Hs, <- P3. cbn [Z.sgn Z.eqb andb].
    change (hasFlag c PLUS) with (q_plus (q_of c)). rewrite Epl. apply spaceJustify_den; [assumption|apply emptyS_den].
  - apply fmt_d_den; try assumption. intros (A & B & C & D). unfold d_irregular in E. rewrite A, B, C, D in E. discriminate.
Qed.

Lemma fmt_x_full c f n : rt_ok c -> uint_view f n i_hex 16 -> java_magnitude n ->
  exists u, fmt_x c f = Ok u /\ den u (j_x (q_of c) n).
Proof.
  intros Hc Hv Hj. unfold j_x. destruct (x_irregular (q_of c) n) eqn:E.
  - unfold x_irregular in E. apply andb_prop in E as [E El]. apply andb_prop in E as [E Ez]. apply andb_prop in E as [E Ep].
    apply andb_prop in E as [Ea En]. bools. subst n. unfold no_prec in Ep.
    destruct (prec_cases c Hc) as [(P1 & P2 & P3)|(P1 & P2 & P3)]; rewrite P3 in Ep; [|discriminate].
    destruct Hv as [Hz Hg]. unfold fmt_x, formatUnsignedInteger. rewrite Hz, Hg, P1, P2.
    change (-1 =? 0) with false. rewrite andb_false_r. cbn [bind].
    change (hasFlag c ALTERNATE) with (q_alt (q_of c)).
    change (hasFlag c ZERO_PAD) with (q_zero (q_of c)). change (hasFlag c LEFT_JUSTIFY) with (q_left (q_of c)).
    rewrite Ea, Ez, El. cbn [Z.eqb negb andb]. rewrite andb_true_r.
    change (zlen (txt "0x")) with 2. change (numeral 16 0) with (txt "0").
    destruct (width_val c Hc) as (_ & _ & W3 & _).
    assert (HW : den (wrapS (txt "0")) (txt "0")) by (apply wrapS_den; vm_compute; discriminate).
    pose proof (width_nonleft c Hc El) as Ww. unfold width in Ww.
    destruct (isWidthSet c) eqn:Ew.
    + rewrite Ww. rewrite wrap32_small by lia.
      destruct (padDigits_den (q_width (q_of c) - 2) _ _ HW) as (u & Eu & Du & _); [vm_compute; reflexivity|lia|].
      rewrite Eu. cbn [bind]. apply spaceJustify_den; assumption.
    + rewrite <- Ww. change (min_digits (0 - 2) (txt "0")) with (txt "0").
      destruct (padDigits_den 1 _ _ HW) as (u & Eu & Du & _); [vm_compute; reflexivity|lia|].
      rewrite Eu. cbn [bind]. rewrite min_digits_le in Du by (vm_compute; discriminate). apply spaceJustify_den; assumption.
  - apply fmt_x_den; try assumption. unfold x_irregular, no_prec, x_regular in *.
    destruct (q_alt (q_of c)); [|auto]. destruct (n =? 0) eqn:En; [|bools; auto].
    destruct (q_prec (q_of c)); [right; right; left; discriminate|].
    destruct (q_zero (q_of c)), (q_left (q_of c)); cbn in E; try discriminate; auto.
Qed.

Lemma fmt_o_full c f n : rt_ok c -> uint_view f n i_oct 8 -> java_magnitude n ->
  exists u, fmt_o c f = Ok u /\ den u (j_o (q_of c) n).
Proof.
  intros Hc Hv Hj. unfold j_o. destruct (o_irregular (q_of c) n) eqn:E.
  - unfold o_irregular in E. apply andb_prop in E as [E E3]. apply andb_prop in E as [Ea En]. bools. subst n.
    destruct Hv as [Hz Hg]. unfold fmt_o, formatUnsignedInteger. rewrite Hz, Hg.
    change (hasFlag c ALTERNATE) with (q_alt (q_of c)).
    change (hasFlag c ZERO_PAD) with (q_zero (q_of c)). change (hasFlag c LEFT_JUSTIFY) with (q_left (q_of c)).
    rewrite Ea. cbn [Z.eqb negb andb]. change (zlen (txt "0")) with 1. change (numeral 8 0) with (txt "0").
    change (match txt "0" with [48] => true | _ => false end) with true. cbn iota.
    destruct (width_val c Hc) as (_ & _ & W3 & _).
    assert (HW : den (wrapS (txt "0")) (txt "0")) by (apply wrapS_den; vm_compute; discriminate).
    unfold no_prec in E3.
    destruct (prec_cases c Hc) as [(P1 & P2 & P3)|(P1 & P2 & P3)]; rewrite P1, P3 in *.
    + rewrite P2. change (-1 =? 0) with false. cbn iota. cbn [negb orb] in E3. apply andb_prop in E3 as [Ez El]. bools.
      pose proof (width_nonleft c Hc El) as Ww. unfold width in Ww. rewrite Ez, El. cbn [andb negb]. rewrite andb_true_r.
      destruct (isWidthSet c) eqn:Ew.
      * rewrite Ww. rewrite wrap32_small by lia. cbn [bind].
        destruct (padDigits_den (q_width (q_of c) - 1) _ _ HW) as (u & Eu & Du & _); [vm_compute; reflexivity|lia|].
        rewrite Eu. cbn [bind]. apply spaceJustify_den; assumption.
      * rewrite <- Ww. cbn [bind]. change (min_digits (0 - 1) (txt "0")) with (txt "0").
        destruct (padDigits_den 1 _ _ HW) as (u & Eu & Du & _); [vm_compute; reflexivity|lia|].
        rewrite Eu. cbn [bind]. rewrite min_digits_le in Du by (vm_compute; discriminate). apply spaceJustify_den; assumption.
    + destruct (c_prec c =? 0) eqn:E0.
      * apply spaceJustify_den; [assumption|apply emptyS_den].
      * bools. cbn [bind]. rewrite wrap32_small by lia.
        destruct (padDigits_den (c_prec c - 1) _ _ HW) as (u & Eu & Du & _); [vm_compute; reflexivity|lia|].
        rewrite Eu. cbn [bind]. apply spaceJustify_den; assumption.
  - apply fmt_o_den; try assumption. unfold o_irregular, no_prec, o_regular in *.
    destruct (q_alt (q_of c)); [|auto]. destruct (n =? 0) eqn:En; [|bools; auto].
    destruct (q_prec (q_of c)); [discriminate|]. right. right. split; [reflexivity|].
    destruct (q_zero (q_of c)), (q_left (q_of c)); cbn in E; try discriminate; auto.
Qed.

(** ** Layout laws on texts *)

Lemma justify_nowidth q t : justify (no_width q) t = t.
Proof. apply justify_full. cbn [no_width q_width]. apply zlen_nonneg. Qed.

Lemma pad_number_nowidth q zp pre body : pad_number (no_width q) zp pre body = pre ++ body.
Proof.
  unfold pad_number. rewrite justify_nowidth. cbn [no_width q_left q_width].
  destruct (zp && negb (q_left q)); [|reflexivity]. unfold zeros. pose proof (zlen_nonneg pre). pose proof (zlen_nonneg body).
  rewrite rep_nonpos by lia. reflexivity.
Qed.

(** how the text [t] of a directive relates to the text [t0] of the same directive without width: spaces are
    added on one side, or, when zero padding applies, zeros are inserted after the sign or prefix *)
Definition field (q : fspec) (zero_pad : bool) (t0 t : list Z) : Prop :=
  (zero_pad && negb (q_left q) = false -> t = justify q t0) /\
  (zero_pad && negb (q_left q) = true -> exists pre body, t0 = pre ++ body /\ t = pre ++ zeros (q_width q - zlen t0) ++ body).

Lemma field_len q zp t0 t : field q zp t0 t -> zlen t = Z.max (q_width q) (zlen t0).
Proof.
  intros [A B]. destruct (zp && negb (q_left q)) eqn:E.
  - destruct (B eq_refl) as (pre & body & -> & ->). unfold zeros. rewrite !zlen_app, zlen_rep. lia.
  - rewrite (A eq_refl). apply zlen_justify.
Qed.

Lemma field_pad q zp pre body : field q zp (pre ++ body) (pad_number q zp pre body).
Proof.
  unfold field, pad_number. split; intros ->; [reflexivity|]. exists pre, body. split; [reflexivity|].
  rewrite zlen_app. do 3 f_equal. lia.
Qed.

Lemma field_justify q t : field q false t (justify q t).
Proof. split; [reflexivity|discriminate]. Qed.

Lemma field_upper q zp t0 t : field q zp t0 t -> field q zp (map ascii_upper t0) (map ascii_upper t).
Proof.
  intros [A B]. split.
  - intros E. rewrite (A E). unfold justify, spaces. rewrite zlen_map. destruct (q_left q); rewrite map_app, map_rep; reflexivity.
  - intros E. destruct (B E) as (pre & body & -> & ->). exists (map ascii_upper pre), (map ascii_upper body).
    rewrite !map_app. split; [reflexivity|]. unfold zeros. rewrite !zlen_app, !zlen_map, map_rep. reflexivity.
Qed.

Lemma c_s_field q t : field q false (c_s (no_width q) t) (c_s q t).
Proof. unfold c_s. rewrite justify_nowidth. apply field_justify. Qed.

Lemma c_c_field q x : field q false (c_c (no_width q) x) (c_c q x).
Proof. unfold c_c. rewrite justify_nowidth. apply field_justify. Qed.

Lemma c_d_field q v : field q (q_zero q && no_prec q) (c_d (no_width q) v) (c_d q v).
Proof. unfold c_d. rewrite pad_number_nowidth. apply field_pad. Qed.
Lemma c_u_field q v : field q (q_zero q && no_prec q) (c_u (no_width q) v) (c_u q v).
Proof. unfold c_u. rewrite pad_number_nowidth. apply field_pad. Qed.
Lemma c_x_field q v : field q (q_zero q && no_prec q) (c_x (no_width q) v) (c_x q v).
Proof. unfold c_x. rewrite pad_number_nowidth. apply field_pad. Qed.
Lemma c_o_field q v : field q (q_zero q && no_prec q) (c_o (no_width q) v) (c_o q v).
Proof. unfold c_o. rewrite pad_number_nowidth. apply field_pad. Qed.

(** without the zero flag every conversion is justified *)
Lemma j_d_field q v : q_zero q = false \/ d_irregular q v = false ->
  field q (q_zero q && no_prec q) (j_d (no_width q) v) (j_d q v).
Proof.
  intros H. unfold j_d. change (d_irregular (no_width q) v) with (d_irregular q v).
  destruct (d_irregular q v); [|apply c_d_field]. destruct H as [->|H]; [|discriminate].
  rewrite justify_nowidth. apply field_justify.
Qed.
Lemma j_x_field q n : x_irregular q n = false -> field q (q_zero q && no_prec q) (j_x (no_width q) n) (j_x q n).
Proof.
  intros H. unfold j_x. change (x_irregular (no_width q) n) with (x_irregular q n). rewrite H. apply c_x_field.
Qed.

(** total width is right even where the conversions depart from C *)
Lemma j_d_len q v : zlen (j_d q v) = Z.max (q_width q) (zlen (j_d (no_width q) v)).
Proof.
  unfold j_d. change (d_irregular (no_width q) v) with (d_irregular q v).
  destruct (d_irregular q v); [rewrite justify_nowidth; apply zlen_justify|eapply field_len, c_d_field].
Qed.
Lemma j_x_len q n : zlen (j_x q n) = Z.max (q_width q) (zlen (j_x (no_width q) n)).
Proof.
  unfold j_x. change (x_irregular (no_width q) n) with (x_irregular q n).
  destruct (x_irregular q n); [|eapply field_len, c_x_field].
  rewrite justify_nowidth, zlen_justify, !zlen_min_digits. cbn [no_width q_width]. change (zlen (txt "0")) with 1. lia.
Qed.
Lemma j_o_len q n : zlen (j_o q n) = Z.max (q_width q) (zlen (j_o (no_width q) n)).
Proof.
  unfold j_o. change (o_irregular (no_width q) n) with (o_irregular q n).
  destruct (o_irregular q n); [|eapply field_len, c_o_field].
  rewrite justify_nowidth, zlen_justify. cbn [no_width q_width q_prec].
  destruct (q_prec q) as [p|]; [reflexivity|]. rewrite !zlen_min_digits. change (zlen (txt "0")) with 1. lia.
Qed.

Lemma j_x_justified q n : q_zero q = false -> j_x q n = justify q (j_x (no_width q) n).
Proof.
  intros H. apply j_x_field; [|rewrite H; reflexivity]. unfold x_irregular. rewrite H, andb_false_r. reflexivity.
Qed.
Lemma j_o_justified q n : q_zero q = false -> j_o q n = justify q (j_o (no_width q) n).
Proof.
  intros H. unfold j_o. change (o_irregular (no_width q) n) with (o_irregular q n).
  destruct (o_irregular q n) eqn:E.
  - rewrite justify_nowidth. cbn [no_width q_prec q_width]. destruct (q_prec q) eqn:Ep; [reflexivity|].
    unfold o_irregular, no_prec in E. rewrite Ep, H in E. cbn in E. rewrite andb_false_r in E. discriminate.
  - apply c_o_field. rewrite H. reflexivity.
Qed.
Lemma j_d_justified q v : q_zero q = false -> j_d q v = justify q (j_d (no_width q) v).
Proof. intros H. apply j_d_field; [auto|]. rewrite H. reflexivity. Qed.
Lemma c_u_justified q v : q_zero q = false -> c_u q v = justify q (c_u (no_width q) v).
Proof. intros H. apply c_u_field. rewrite H. reflexivity. Qed.

(** with an explicit precision the zero flag has no effect *)
Lemma int_prec_justified q v p : q_prec q = Some p ->
  c_d q v = justify q (c_d (no_width q) v) /\ c_u q v = justify q (c_u (no_width q) v) /\
  c_x q v = justify q (c_x (no_width q) v) /\ c_o q v = justify q (c_o (no_width q) v).
Proof.
  intros H. assert (no_prec q = false) as E by (unfold no_prec; rewrite H; reflexivity).
  repeat split; [apply c_d_field|apply c_u_field|apply c_x_field|apply c_o_field]; rewrite E, andb_false_r; reflexivity.
Qed.

(** zero padding: zeros go between the sign or prefix and the digits *)
Definition zero_padded (q : fspec) (t0 t : list Z) : Prop :=
  exists pre body, In pre [[]; txt "-"; txt "+"; txt " "; txt "0x"; txt "0X"] /\ t0 = pre ++ body /\
    t = pre ++ zeros (q_width q - zlen t0) ++ body.

Lemma pad_number_zero q pre body : q_left q = false -> In pre [[]; txt "-"; txt "+"; txt " "; txt "0x"; txt "0X"] ->
  zero_padded q (pad_number (no_width q) true pre body) (pad_number q true pre body).
Proof.
  intros Hl Hp. rewrite pad_number_nowidth. exists pre, body. split; [exact Hp|]. split; [reflexivity|].
  unfold pad_number. rewrite Hl. cbn [andb negb]. rewrite zlen_app. do 3 f_equal. lia.
Qed.

Lemma sign_text_in q neg : In (sign_text q neg) [[]; txt "-"; txt "+"; txt " "; txt "0x"; txt "0X"].
Proof. unfold sign_text. destruct neg, (q_plus q), (q_space q); cbn; tauto. Qed.

Lemma int_zero_padded q v : q_zero q = true -> q_left q = false -> q_prec q = None ->
  zero_padded q (j_d (no_width q) v) (j_d q v) /\ zero_padded q (c_u (no_width q) v) (c_u q v) /\
  (q_alt q = false \/ v <> 0 -> zero_padded q (j_x (no_width q) v) (j_x q v) /\ zero_padded q (j_o (no_width q) v) (j_o q v)).
Proof.
  intros Hz Hl Hp. assert (Hnp : no_prec q = true) by (unfold no_prec; rewrite Hp; reflexivity).
  assert (Hnp' : no_prec (no_width q) = true) by exact Hnp.
  assert (Hz' : q_zero (no_width q) = true) by exact Hz.
  split; [|split].
  - unfold j_d, d_irregular. change (q_prec (no_width q)) with (q_prec q). rewrite Hp, andb_false_r. cbn [andb].
    unfold c_d. rewrite Hz, Hnp, Hz', Hnp'. apply pad_number_zero; [exact Hl|apply sign_text_in].
  - unfold c_u. rewrite Hz, Hnp, Hz', Hnp'. apply pad_number_zero; [exact Hl|cbn; tauto].
  - intros H. assert (Ex : x_irregular q v = false /\ o_irregular q v = false).
    { unfold x_irregular, o_irregular. destruct H as [->|H]; [auto|].
      replace (v =? 0) with false by (symmetry; apply Z.eqb_neq; exact H). rewrite andb_false_r. auto. }
    destruct Ex as [Ex Eo]. unfold j_x, j_o.
    change (x_irregular (no_width q) v) with (x_irregular q v). change (o_irregular (no_width q) v) with (o_irregular q v).
    rewrite Ex, Eo. split.
    + unfold c_x. rewrite Hz, Hnp, Hz', Hnp'. change (q_alt (no_width q)) with (q_alt q).
      apply pad_number_zero; [exact Hl|]. destruct (q_alt q && negb (v =? 0)); cbn; tauto.
    + unfold c_o. rewrite Hz, Hnp, Hz', Hnp'. change (q_alt (no_width q)) with (q_alt q).
      apply pad_number_zero; [exact Hl|cbn; tauto].
Qed.

Lemma zero_padded_upper q t0 t : zero_padded q t0 t -> zero_padded q (map ascii_upper t0) (map ascii_upper t).
Proof.
  intros (pre & body & Hin & -> & ->). exists (map ascii_upper pre), (map ascii_upper body). split.
  - cbn in Hin. destruct Hin as [<-|[<-|[<-|[<-|[<-|[<-|[]]]]]]]; cbn; tauto.
  - rewrite !map_app. split; [reflexivity|]. unfold zeros. rewrite !zlen_app, !zlen_map, map_rep. reflexivity.
Qed.
