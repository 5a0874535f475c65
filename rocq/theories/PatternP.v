(** Proofs about compiled directives: ranges of width and precision, and the pattern string round trip. *)
From Verif Require Import Base Digits UtilsM ContextM CompilerM GrammarSpec CompilerP CompilerP2.

Lemma dec_value_of_numeral ds : dec_value ds = of_numeral 10 ds \/ ~ Forall is_dec ds.
Proof.
  destruct (Forall_dec is_dec) with (l := ds) as [F|F].
  { intros x. unfold is_dec. destruct (Z_le_dec 48 x), (Z_le_dec x 57); [left|right|right|right]; lia. }
  2: { right; exact F. }
  left. unfold dec_value, of_numeral, of_digits. generalize 0 as a.
  induction F as [|x l Hx F IH]; intros a; cbn [fold_left map]; [reflexivity|].
  rewrite IH. f_equal. unfold digit_val, is_dec in *.
  replace (x <? 58) with true by (symmetry; apply Z.ltb_lt; lia). lia.
Qed.

Lemma numeral10_dec n : 0 <= n -> Forall is_dec (numeral 10 n).
Proof.
  intros Hn. unfold numeral. apply Forall_forall. intros x Hx. apply in_map_iff in Hx as (d & <- & Hd).
  pose proof (digits_digits_ok 10 n ltac:(lia) Hn) as Hok. unfold digits_ok in Hok.
  rewrite Forall_forall in Hok. apply Hok in Hd. unfold digit_char, is_dec.
  replace (d <? 10) with true by (symmetry; apply Z.ltb_lt; lia). lia.
Qed.

Lemma dec_text_nonneg n : 0 <= n -> dec_text n = numeral 10 n.
Proof. intros. unfold dec_text. replace (n <? 0) with false by (symmetry; apply Z.ltb_ge; lia). reflexivity. Qed.

Lemma dec_value_dec_text n : 0 <= n -> dec_value (dec_text n) = n.
Proof.
  intros Hn. rewrite dec_text_nonneg by lia.
  destruct (dec_value_of_numeral (numeral 10 n)) as [E|E]; [|exfalso; apply E; apply numeral10_dec; lia].
  rewrite E. apply of_numeral_numeral; lia.
Qed.

Lemma dec_text_head n : 0 < n -> exists d r, dec_text n = d :: r /\ d <> 48.
Proof.
  intros Hn. rewrite dec_text_nonneg by lia. unfold numeral.
  destruct (digits_head 10 n ltac:(lia) Hn) as (d & r & -> & Hd).
  exists (digit_char d), (map digit_char r). split; [reflexivity|]. unfold digit_char.
  replace (d <? 10) with true by (symmetry; apply Z.ltb_lt; lia). lia.
Qed.

(** what the grammar guarantees about each directive *)
Definition dir_ok (s : spec) (c : ctx) : Prop :=
  (c_width c = UNSET \/ c_width c = PRECEDING \/ 1 <= c_width c <= 65536) /\
  (c_prec c = UNSET \/ c_prec c = PRECEDING \/ 0 <= c_prec c <= 65536) /\
  (s = Spct -> c_flags c <> noFlags \/ c_width c <> UNSET \/ c_prec c <> UNSET) /\
  (c_dtf c <> None -> s = St \/ s = ST).

Lemma flags_text_nonempty F fl : flags_text F fl -> F <> [] -> fl <> noFlags.
Proof.
  intros (_ & Hi & ->) Hne E. unfold noFlags in E. destruct F as [|c F]; [tauto|].
  pose proof (Hi c (or_introl eq_refl)) as Hc. apply flag_char_cases in Hc. cbn [existsb] in E.
  destruct Hc as [->|[->|[->|[->| ->]]]]; cbn in E; discriminate.
Qed.

Lemma dec_value_fold l : forall a, 0 <= a -> Forall is_dec l ->
  a <= fold_left (fun a c => 10 * a + (c - 48)) l a.
Proof.
  induction l as [|x l IH]; intros a Ha F; cbn [fold_left]; [lia|]. inversion F; subst. unfold is_dec in *.
  specialize (IH (10 * a + (x - 48)) ltac:(lia) ltac:(assumption)). lia.
Qed.

Lemma width_ok W w : width_text W w -> w = UNSET \/ w = PRECEDING \/ 1 <= w <= 65536.
Proof.
  intros H; inversion H; subst; auto. right; right. split; [|assumption].
  unfold dec_value. cbn [fold_left].
  match goal with H : Forall is_dec _ |- _ => inversion H; subst end.
  pose proof (dec_value_fold ds (10 * 0 + (d - 48))) as B. unfold is_dec in *.
  specialize (B ltac:(lia) ltac:(assumption)). lia.
Qed.

Lemma prec_ok P p : prec_text P p -> p = UNSET \/ p = PRECEDING \/ 0 <= p <= 65536.
Proof.
  intros H; inversion H; subst; auto. right; right. split; [|assumption].
  unfold dec_value. pose proof (dec_value_fold ds 0) as B. apply B; [lia|assumption].
Qed.

Lemma width_nonempty W w : width_text W w -> W <> [] -> w <> UNSET.
Proof.
  intros H Hne. inversion H as [|EW Ew|d ds Hd HF Hle EW Ew]; subst; [tauto|vm_compute; discriminate|].
  pose proof (dec_value_fold (d :: ds) 0 ltac:(lia) HF) as B. unfold dec_value, UNSET. lia.
Qed.

Lemma prec_nonempty P p : prec_text P p -> P <> [] -> p <> UNSET.
Proof.
  intros H Hne. inversion H as [|EP Ep|ds HF Hle EP Ep]; subst; [tauto|vm_compute; discriminate|].
  pose proof (dec_value_fold ds 0 ltac:(lia) HF) as B. unfold dec_value, UNSET. lia.
Qed.

Lemma conv_pct c : conv_char c Spct -> c = pct.
Proof. intros H. inversion H; subst; reflexivity. Qed.

Lemma format_dir_ok dtf s ds : format dtf s ds -> forall sp c, In (Default sp c) ds -> dir_ok sp c.
Proof.
  induction 1; intros sp c0 Hin.
  - destruct Hin.
  - destruct Hin as [E|Hin]; [discriminate|eauto].
  - destruct Hin as [E|Hin]; [discriminate|eauto].
  - destruct Hin as [E|Hin]; [|eauto]. injection E as <- <-. unfold dir_ok. cbn.
    split; [eapply width_ok; eauto|]. split; [eapply prec_ok; eauto|]. split.
    + intros ->. match goal with H : conv_char _ Spct |- _ => apply conv_pct in H as -> end.
      destruct F as [|f F].
      * destruct W as [|x W].
        -- destruct P as [|y P].
           ++ exfalso. match goal with H : _ -> pct <> pct |- _ => apply H; reflexivity end.
           ++ right; right. eapply prec_nonempty; [eassumption|discriminate].
        -- right; left. eapply width_nonempty; [eassumption|discriminate].
      * left. eapply flags_text_nonempty; eauto. discriminate.
    + intros Hd. match goal with H : date_text _ _ _ _ _ |- _ => inversion H; subst end; tauto.
Qed.

Lemma flags_text_of_ok fl : flags_text (flags_text_of fl) fl.
Proof.
  destruct fl as [[] [] [] [] []]; unfold flags_text_of, flags_text; cbn;
  (split; [repeat constructor; cbn; lia|]);
  (split; [intros x Hx; cbn in *; tauto|reflexivity]).
Qed.

Lemma pattern_format dtf s c : dir_ok s c ->
  format dtf (toPatternString c s) [Default s (mkCtx (c_flags c) (c_width c) (c_prec c) None)].
Proof.
  intros (Hw & Hp & Hpct & _). unfold toPatternString.
  set (W := if c_width c =? PRECEDING then [ch "*"] else if negb (c_width c =? UNSET) then dec_text (c_width c) else []).
  set (P := if c_prec c =? PRECEDING then [ch "."; ch "*"]
            else if negb (c_prec c =? UNSET) then [ch "."] ++ dec_text (c_prec c) else []).
  assert (HW : width_text W (c_width c)).
  { subst W. destruct Hw as [->|[->|Hw]]; [constructor|constructor|].
    replace (c_width c =? PRECEDING) with false by (symmetry; apply Z.eqb_neq; unfold PRECEDING, int_min; lia).
    replace (c_width c =? UNSET) with false by (symmetry; apply Z.eqb_neq; unfold UNSET; lia). cbn [negb].
    destruct (dec_text_head (c_width c)) as (d & r & E & Hd); [lia|].
    pose proof (dec_value_dec_text (c_width c) ltac:(lia)) as V.
    pose proof (numeral10_dec (c_width c) ltac:(lia)) as F. rewrite <- dec_text_nonneg in F by lia.
    rewrite E in *. rewrite <- V. constructor; [assumption|assumption|lia]. }
  assert (HP : prec_text P (c_prec c)).
  { subst P. destruct Hp as [->|[->|Hp]]; [constructor|constructor|].
    replace (c_prec c =? PRECEDING) with false by (symmetry; apply Z.eqb_neq; unfold PRECEDING, int_min; lia).
    replace (c_prec c =? UNSET) with false by (symmetry; apply Z.eqb_neq; unfold UNSET; lia). cbn [negb].
    pose proof (dec_value_dec_text (c_prec c) ltac:(lia)) as V.
    pose proof (numeral10_dec (c_prec c) ltac:(lia)) as F. rewrite <- dec_text_nonneg in F by lia.
    rewrite <- V at 2. cbn [app]. change (ch ".") with 46. constructor; [assumption|lia]. }
  change ([ch "%"] ++ flags_text_of (c_flags c) ++ W ++ P ++ [spec_char s])
    with (pct :: flags_text_of (c_flags c) ++ W ++ P ++ spec_char s :: [] ++ []).
  pose proof (conv_self s) as CS. rewrite letter_is in CS. eapply fmt_dir; eauto using flags_text_of_ok.
  - destruct s; try (apply D_other; discriminate); (apply D_none; [tauto|discriminate]).
  - intros E Es. assert (s = Spct) by (destruct s; vm_compute in Es; discriminate || reflexivity).
    destruct (Hpct H) as [N|[N|N]].
    + apply N. apply app_eq_nil in E as [E _]. pose proof (flags_text_of_ok (c_flags c)) as (_ & _ & ->).
      rewrite E. reflexivity.
    + apply N. apply app_eq_nil in E as [_ E]. apply app_eq_nil in E as [E _].
      inversion HW; [reflexivity|exfalso..]; congruence.
    + apply N. apply app_eq_nil in E as [_ E]. apply app_eq_nil in E as [_ E].
      inversion HP; [reflexivity|exfalso..]; congruence.
  - constructor.
Qed.

Lemma pattern_round_trip dtf dtf' s ds sp c :
  compile dtf s = Ok ds -> In (Default sp c) ds ->
  compile dtf' (toPatternString c sp) = Ok [Default sp (mkCtx (c_flags c) (c_width c) (c_prec c) None)].
Proof.
  intros H Hin. apply compile_iff in H. apply compile_iff. apply pattern_format.
  eapply format_dir_ok; eauto.
Qed.

(** with no date pattern the round trip is exact *)
Lemma pattern_round_trip_exact dtf dtf' s ds sp c :
  compile dtf s = Ok ds -> In (Default sp c) ds -> c_dtf c = None ->
  compile dtf' (toPatternString c sp) = Ok [Default sp c].
Proof.
  intros H Hin Hd. rewrite (pattern_round_trip _ _ _ _ _ _ H Hin). destruct c; cbn in *; subst; reflexivity.
Qed.

(** ** literal text *)
Lemma literal_format dtf t : ~ In pct t -> format dtf t (match t with [] => [] | _ => [Fixed t] end).
Proof.
  intros H. destruct t as [|c t]; [constructor|].
  rewrite <- (app_nil_r (c :: t)) at 1. constructor; [discriminate|assumption|left; reflexivity|constructor].
Qed.

(** doubling every '%' *)
Fixpoint double_pct (t : list Z) : list Z :=
  match t with [] => [] | c :: r => if c =? pct then pct :: pct :: double_pct r else c :: double_pct r end.

Definition fixed_text (a : appender) : list Z := match a with Fixed t => t | Default _ _ => [] end.
Definition is_fixed (a : appender) : Prop := match a with Fixed _ => True | Default _ _ => False end.

Lemma double_pct_app_lit t r : ~ In pct t -> double_pct (t ++ r) = t ++ double_pct r.
Proof.
  induction t as [|c t IH]; cbn; intros H; [reflexivity|].
  replace (c =? pct) with false by (symmetry; apply Z.eqb_neq; intros ->; tauto). f_equal. apply IH. tauto.
Qed.

Lemma double_pct_head r : hd_error r = Some pct -> hd_error (double_pct r) = Some pct.
Proof. destruct r as [|c r]; cbn; [discriminate|]. intros [= ->]. reflexivity. Qed.

Lemma split_lit (t : list Z) : exists a b, t = a ++ b /\ ~ In pct a /\ (b = [] \/ hd_error b = Some pct).
Proof.
  induction t as [|c t (a & b & -> & Ha & Hb)].
  - exists [], []. cbn. auto.
  - destruct (Z.eq_dec c pct) as [->|Hc].
    + exists [], (pct :: a ++ b). cbn. auto.
    + exists (c :: a), b. cbn. split; [reflexivity|]. split; [|assumption]. intros [E|E]; auto.
Qed.

Lemma double_format dtf n : forall t, (List.length t <= n)%nat ->
  exists ds, format dtf (double_pct t) ds /\ Forall is_fixed ds /\ concat (map fixed_text ds) = t.
Proof.
  induction n as [|n IH]; intros t Hn.
  - destruct t; [|cbn in Hn; lia]. exists []. repeat split; constructor.
  - destruct (split_lit t) as (a & b & -> & Ha & Hb). rewrite app_length in Hn.
    assert (HB : (a = [] \/ (List.length b <= n)%nat) ->
      exists ds, format dtf (double_pct b) ds /\ Forall is_fixed ds /\ concat (map fixed_text ds) = b).
    { intros _. destruct b as [|c b]; [exists []; repeat split; constructor|].
      destruct Hb as [Hb|Hb]; [discriminate|]. cbn in Hb. injection Hb as ->.
      cbn [List.length] in Hn. destruct (IH b) as (ds & F & X & E); [lia|].
      exists (Fixed [pct] :: ds). cbn [double_pct]. rewrite Z.eqb_refl. split; [constructor; exact F|].
      split; [constructor; [exact I|exact X]|]. cbn. f_equal. exact E. }
    rewrite double_pct_app_lit by assumption.
    destruct HB as (ds & F & X & E). { destruct a; [auto|right; cbn in Hn; lia]. }
    destruct a as [|c a].
    + exists ds. auto.
    + exists (Fixed (c :: a) :: ds). split.
      * apply fmt_lit; [discriminate|assumption| |exact F].
        destruct Hb as [->|Hb]; [left; reflexivity|right; apply double_pct_head; exact Hb].
      * split; [constructor; [exact I|exact X]|]. cbn [map concat fixed_text]. rewrite E. reflexivity.
Qed.

Lemma pattern_text c sp : exists F W P,
  toPatternString c sp = pct :: F ++ W ++ P ++ [letter sp] /\
  flags_text F (c_flags c) /\ (exists keep, F = filter keep (txt "-#+ 0")) /\
  ((c_width c = UNSET /\ W = []) \/ (c_width c = PRECEDING /\ W = txt "*") \/
   (c_width c <> UNSET /\ c_width c <> PRECEDING /\ W = dec_text (c_width c))) /\
  ((c_prec c = UNSET /\ P = []) \/ (c_prec c = PRECEDING /\ P = txt ".*") \/
   (c_prec c <> UNSET /\ c_prec c <> PRECEDING /\ P = txt "." ++ dec_text (c_prec c))).
Proof.
  eexists _, _, _. split; [unfold toPatternString; rewrite <- letter_is; reflexivity|].
  split; [apply flags_text_of_ok|]. split; [|split].
  - exists (fun x => existsb (Z.eqb x) (flags_text_of (c_flags c))).
    destruct (c_flags c) as [[] [] [] [] []]; reflexivity.
  - destruct (Z.eqb_spec (c_width c) PRECEDING) as [E|E]; [right; left; auto|].
    destruct (Z.eqb_spec (c_width c) UNSET) as [E'|E']; cbn [negb]; auto.
  - destruct (Z.eqb_spec (c_prec c) PRECEDING) as [E|E]; [right; left; auto|].
    destruct (Z.eqb_spec (c_prec c) UNSET) as [E'|E']; cbn [negb]; auto.
Qed.
