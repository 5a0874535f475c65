(** C104: integer and text conversions at the level of texts. *)
From Verif Require Import Base Digits ContextM CompilerM FmtSpec FmtP FloatSpec ExactSpec BigSpec WholeSpec FlagP InterSpec SeqSpec.

(** ** Fields *)
Definition just (w : Z) (l : bool) (t : list Z) : list Z := if l then t ++ spaces (w - zlen t) else spaces (w - zlen t) ++ t.
Lemma justify_just q t : justify q t = just (q_width q) (q_left q) t. Proof. reflexivity. Qed.
Lemma just_fits w l t : w <= zlen t -> just w l t = t.
Proof. intros H. unfold just. rewrite spaces_neg by lia. destruct l; [apply app_nil_r|reflexivity]. Qed.
Lemma just_len w l t : zlen (just w l t) = Z.max w (zlen t).
Proof. unfold just, spaces. pose proof (zlen_nonneg t). destruct l; rewrite zlen_app, zlen_rep; lia. Qed.

Lemma just_plainest w l S L t : S <= zlen t -> (zlen t = 0 \/ L <= zlen t) -> just w l t = just (width_above S w) (l && (L <? w)) t.
Proof.
  intros HS HL. unfold width_above. pose proof (zlen_nonneg t) as N. destruct (Z.leb_spec w S).
  - rewrite !just_fits by lia. reflexivity.
  - destruct l; [|reflexivity]. cbn [andb]. destruct (Z.ltb_spec L w); [reflexivity|]. destruct HL as [E|E].
    + destruct t; [|rewrite zlen_cons in E; pose proof (zlen_nonneg t); lia]. unfold just. rewrite app_nil_r. reflexivity.
    + rewrite !just_fits by lia. reflexivity.
Qed.

(** ** What is looked at: length, numbers of characters, first and last character *)
Fixpoint count (c : Z) (t : list Z) : Z := match t with [] => 0 | x :: r => (if x =? c then 1 else 0) + count c r end.
Lemma count_app c t u : count c (t ++ u) = count c t + count c u.
Proof. induction t as [|x t IH]; cbn [count app]; [reflexivity|]. rewrite IH. lia. Qed.
Lemma count_rep c x n : count c (rep x n) = if x =? c then Z.max 0 n else 0.
Proof.
  unfold rep. destruct (Z.eqb_spec x c) as [->|N].
  - assert (E : forall k, count c (repeat c k) = Z.of_nat k) by (induction k as [|k IH]; cbn [count repeat]; [reflexivity|rewrite Z.eqb_refl, IH; lia]). rewrite E. lia.
  - assert (E : forall k, count c (repeat x k) = 0) by (induction k as [|k IH]; cbn [count repeat]; [reflexivity|rewrite IH; destruct (Z.eqb_spec x c); lia]). apply E.
Qed.
Lemma count_just c w l t : c <> 32 -> count c (just w l t) = count c t.
Proof. intros N. assert (E : forall n, count c (spaces n) = 0). { intros n. unfold spaces. rewrite count_rep. change (ch " ") with 32. destruct (Z.eqb_spec 32 c); lia. }
  unfold just. destruct l; rewrite count_app, E; lia. Qed.

Definition blank_first (t : list Z) : bool := match t with 32 :: _ => true | _ => false end.
Definition blank_last (t : list Z) : bool := blank_first (rev t).
Lemma blank_last_app t u : u <> [] -> blank_last (t ++ u) = blank_last u.
Proof. intros N. unfold blank_last. rewrite rev_app_distr. destruct (rev u) eqn:E; [|reflexivity]. apply (f_equal (@rev Z)) in E. rewrite rev_involutive in E. contradiction. Qed.
Lemma blank_first_app t u : t <> [] -> blank_first (t ++ u) = blank_first t.
Proof. destruct t; [contradiction|reflexivity]. Qed.
Lemma spaces_ne n : 0 < n -> spaces n = spaces (n - 1) ++ [32].
Proof. intros H. unfold spaces. replace n with ((n - 1) + 1) at 1 by lia. rewrite rep_add by lia. reflexivity. Qed.
Lemma just_blank_last w l t : t <> [] -> blank_last t = false -> blank_last (just w l t) = (l && (zlen t <? w)).
Proof.
  intros N H. unfold just. destruct l; cbn [andb]; [|rewrite blank_last_app by exact N; exact H]. destruct (Z.ltb_spec (zlen t) w).
  - rewrite spaces_ne by lia. rewrite app_assoc, blank_last_app by discriminate. reflexivity.
  - rewrite spaces_neg by lia. rewrite app_nil_r. exact H.
Qed.

(** these survive upper-casing *)
Lemma upper_keeps c : (ascii_upper c = c) \/ (97 <= c <= 122 /\ ascii_upper c = c - 32).
Proof. unfold ascii_upper. destruct ((97 <=? c) && (c <=? 122)) eqn:E; [right|left; reflexivity]. apply andb_prop in E as [E1 E2]. lia. Qed.
Lemma upper_is c x : c = 48 \/ c = 43 \/ c = 32 -> (ascii_upper x =? c) = (x =? c).
Proof. intros H. destruct (upper_keeps x) as [-> |[B ->]]; [reflexivity|]. apply eq_true_iff_eq. rewrite !Z.eqb_eq. lia. Qed.
Lemma count_upper c t : c = 48 \/ c = 43 -> count c (map ascii_upper t) = count c t.
Proof. intros H. induction t as [|x t IH]; cbn [count map]; [reflexivity|]. rewrite IH, upper_is by tauto. reflexivity. Qed.
Lemma blank_first_eq t : blank_first t = match t with x :: _ => x =? 32 | [] => false end.
Proof. destruct t as [|x t]; [reflexivity|]. destruct (Z.eqb_spec x 32) as [->|N]; [reflexivity|]. cbn. destruct x as [|p|p]; try reflexivity. do 6 (destruct p as [p|p|]; try reflexivity; try (exfalso; apply N; reflexivity)). Qed.
Lemma blank_first_upper t : blank_first (map ascii_upper t) = blank_first t.
Proof. rewrite !blank_first_eq. destruct t; [reflexivity|]. apply upper_is. auto. Qed.

Record alike (t u : list Z) : Prop := mkAlike {
  al_len : zlen t = zlen u; al_zeros : count 48 t = count 48 u; al_plus : count 43 t = count 43 u;
  al_first : blank_first t = blank_first u; al_last : blank_last t = blank_last u }.
Lemma alike_upper (up : bool) t u : (if up then map ascii_upper t else t) = (if up then map ascii_upper u else u) -> alike t u.
Proof.
  destruct up; intros E; [|subst; constructor; reflexivity]. constructor.
  - apply (f_equal (@zlen Z)) in E. unfold zlen in *. rewrite !map_length in E. exact E.
  - apply (f_equal (count 48)) in E. rewrite !count_upper in E by auto. exact E.
  - apply (f_equal (count 43)) in E. rewrite !count_upper in E by auto. exact E.
  - apply (f_equal blank_first) in E. rewrite !blank_first_upper in E. exact E.
  - apply (f_equal (@rev Z)) in E. rewrite <- !map_rev in E. apply (f_equal blank_first) in E. rewrite !blank_first_upper in E. exact E.
Qed.

(** ** Digits *)
Lemma zeros_plus n m : 0 <= n -> 0 <= m -> zeros (n + m) = zeros n ++ zeros m.
Proof. apply rep_add. Qed.
Lemma zeros_last n : 1 <= n -> zeros n = zeros (n - 1) ++ [48].
Proof. intros H. unfold zeros. replace n with ((n - 1) + 1) at 1 by lia. rewrite rep_add by lia. reflexivity. Qed.
Lemma zeros_first n : 0 <= n -> zeros (n + 1) = 48 :: zeros n.
Proof. apply rep_succ. Qed.
Lemma zeros_len n : zlen (zeros n) = Z.max 0 n.
Proof. apply zlen_rep. Qed.
Lemma numeral_zero b : 2 <= b -> numeral b 0 = [48].
Proof. intros H. unfold numeral. rewrite digits_0 by exact H. reflexivity. Qed.
Lemma min_digits_zero b m : 2 <= b -> 1 <= m -> min_digits m (numeral b 0) = zeros m.
Proof. intros H Hm. rewrite numeral_zero by exact H. unfold min_digits. change (zlen [48]) with 1. rewrite (zeros_last m) by lia. reflexivity. Qed.
Lemma numeral_first b n : 2 <= b <= 16 -> 0 < n -> exists c r, numeral b n = c :: r /\ c <> 48 /\ c <> 32 /\ c <> 43.
Proof.
  intros Hb Hn. destruct (digits_head b n ltac:(lia) Hn) as (d & r & E & Hd). unfold numeral. rewrite E. cbn [map]. eexists _, _. split; [reflexivity|].
  unfold digit_char. change (ch "0") with 48. change (ch "a") with 97. destruct (d <? 10); lia.
Qed.
Lemma digit_not_blank d : 0 <= d < 36 -> digit_char d <> 32 /\ digit_char d <> 43.
Proof. intros H. unfold digit_char. change (ch "0") with 48. change (ch "a") with 97. destruct (d <? 10); lia. Qed.
Lemma numeral_chars b n : 2 <= b <= 36 -> 0 <= n -> Forall (fun c => c <> 32 /\ c <> 43) (numeral b n).
Proof.
  intros Hb Hn. unfold numeral. pose proof (digits_digits_ok b n ltac:(lia) Hn) as D. apply Forall_map. eapply Forall_impl; [|exact D]. cbn. intros d Hd. apply digit_not_blank. lia.
Qed.
Lemma numeral_long b k : 2 <= b -> 0 <= k -> k < zlen (numeral b (b ^ k)).
Proof.
  intros Hb Hk. rewrite zlen_numeral. pose proof (Z.pow_pos_nonneg b k ltac:(lia) Hk) as P. pose proof (digits_upper b (b ^ k) Hb ltac:(lia)) as U.
  pose proof (digits_nonempty b (b ^ k) Hb ltac:(lia)). apply (Z.pow_lt_mono_r_iff b); lia.
Qed.
Lemma blank_last_no t : Forall (fun c => c <> 32 /\ c <> 43) t -> blank_last t = false.
Proof.
  intros H. unfold blank_last. apply Forall_rev in H. rewrite blank_first_eq. destruct (rev t) as [|x r]; [reflexivity|]. inversion_clear H. apply Z.eqb_neq. tauto.
Qed.
Lemma count_plus_no t : Forall (fun c => c <> 32 /\ c <> 43) t -> count 43 t = 0.
Proof. induction 1 as [|c t [H1 H2] _ IH]; cbn [count]; [reflexivity|]. rewrite IH. destruct (Z.eqb_spec c 43); lia. Qed.

(** ** Unsigned integers *)
Definition prec_fine (q : fspec) : Prop := match q_prec q with Some p => 0 <= p | None => True end.
Definition base (s : spec) : Z := match s with Su => 10 | So => 8 | _ => 16 end.
Definition utext (s : spec) (q : fspec) (n : Z) : list Z := match s with Su => c_u q n | So => j_o q n | _ => j_x q n end.
Definition prefix (s : spec) (q : fspec) : list Z := if has_prefix s q then (if is_octal s then [48] else [48; 120]) else [].
Lemma base_fine s : 2 <= base s <= 16. Proof. destruct s; cbn; lia. Qed.
Lemma prefix_len s q : zlen (prefix s q) = prefix_length s q.
Proof. unfold prefix, prefix_length. destruct (has_prefix s q), (is_octal s); reflexivity. Qed.
Lemma zero_digits_nonneg s q : prec_fine q -> 0 <= zero_digits s q.
Proof.
  unfold prec_fine, zero_digits. destruct (q_prec q) as [p|]; intros H; [destruct (p =? 0); [lia|]; destruct (is_octal s && q_alt q); lia|]. destruct (q_zero q && negb (q_left q)); lia.
Qed.

Lemma min_digits_one m n b : 2 <= b -> 0 <= n -> m <= 1 -> min_digits m (numeral b n) = numeral b n.
Proof. intros Hb Hn Hm. unfold min_digits. pose proof (numeral_nonempty b n Hb Hn). rewrite zeros_neg by lia. reflexivity. Qed.
Lemma min_digits_len m t : zlen (min_digits m t) = Z.max m (zlen t).
Proof. unfold min_digits. rewrite zlen_app, zeros_len. pose proof (zlen_nonneg t). lia. Qed.
Lemma shift_zero n t : 0 <= n -> zeros n ++ 48 :: t = 48 :: zeros n ++ t.
Proof. intros H. change (48 :: t) with ([48] ++ t). rewrite app_assoc. replace (zeros n ++ [48]) with (zeros (n + 1)); [rewrite zeros_first by exact H; reflexivity|]. rewrite (zeros_last (n + 1)) by lia. f_equal. f_equal. lia. Qed.

(** no '#': digits only *)
Lemma core_plain b q n m : 2 <= b -> 0 <= n -> prec_fine q ->
  m = match q_prec q with Some p => p | None => if q_zero q && negb (q_left q) then Z.max 1 (q_width q) else 1 end ->
  pad_number q (q_zero q && no_prec q) [] (int_digits b n (q_prec q)) =
  just (q_width q) (q_left q) (if n =? 0 then zeros m else min_digits m (numeral b n)).
Proof.
  intros Hb Hn Hp ->. unfold pad_number, no_prec, prec_fine, int_digits in *. destruct (q_prec q) as [p|].
  - rewrite andb_false_r. cbn [andb]. rewrite justify_just. cbn [app]. f_equal. destruct (Z.eqb_spec n 0) as [->|N]; cbn [andb]; [|reflexivity].
    destruct (Z.eqb_spec p 0) as [->|Np]; [reflexivity|]. apply min_digits_zero; lia.
  - rewrite andb_true_r. pose proof (numeral_nonempty b n Hb Hn) as L. destruct (q_zero q && negb (q_left q)) eqn:Z0.
    + cbn [app]. change (zlen []) with 0. rewrite Z.sub_0_r. rewrite just_fits.
      * destruct (Z.eqb_spec n 0) as [->|N].
        -- rewrite numeral_zero by exact Hb. change (zlen [48]) with 1. rewrite (zeros_last (Z.max 1 (q_width q))) by lia. f_equal. destruct (Z.max_spec 1 (q_width q)) as [[? ->]|[? ->]]; [reflexivity|rewrite !zeros_neg by lia; reflexivity].
        -- unfold min_digits. f_equal. destruct (Z.max_spec 1 (q_width q)) as [[? ->]|[? ->]]; [reflexivity|rewrite !zeros_neg by lia; reflexivity].
      * destruct (Z.eqb_spec n 0); [rewrite zeros_len|rewrite min_digits_len]; lia.
    + rewrite justify_just. cbn [app]. f_equal. destruct (Z.eqb_spec n 0) as [->|N]; [apply numeral_zero, Hb|]. symmetry. apply min_digits_one; lia.
Qed.

Lemma force_numeral b n : 2 <= b <= 16 -> 0 < n -> force_zero (numeral b n) = 48 :: numeral b n.
Proof. intros Hb Hn. destruct (numeral_first b n Hb Hn) as (c & r & -> & N & _). unfold force_zero. destruct c as [|p|p]; try reflexivity. do 6 (destruct p as [p|p|]; try reflexivity). contradiction. Qed.
Lemma force_zeros n t : 0 < n -> force_zero (zeros n ++ t) = zeros n ++ t.
Proof. intros H. replace n with (n - 1 + 1) by lia. rewrite zeros_first by lia. reflexivity. Qed.

Lemma unsigned_core s q n : unsigned_conv s = true -> 0 <= n -> prec_fine q ->
  utext s q n = just (q_width q) (q_left q) (if n =? 0 then zeros (zero_digits s q) else prefix s q ++ min_digits (zero_digits s q) (numeral (base s) n)).
Proof.
  intros Hs Hn Hp.
  assert (Plain : has_prefix s q = false -> prefix s q = [] /\ zero_digits s q = match q_prec q with Some p => p | None => if q_zero q && negb (q_left q) then Z.max 1 (q_width q) else 1 end).
  { intros H. unfold prefix, zero_digits, prefix_length. rewrite H, Z.sub_0_r. split; [reflexivity|]. destruct (q_prec q) as [p|]; [|reflexivity]. destruct (Z.eqb_spec p 0) as [->|]; [reflexivity|].
    destruct s; cbn in *; try discriminate; try reflexivity. rewrite H. reflexivity. }
  assert (X : forall n, 0 <= n -> j_x q n = just (q_width q) (q_left q) (if n =? 0 then zeros (zero_digits Sx q) else prefix Sx q ++ min_digits (zero_digits Sx q) (numeral 16 n))).
  { clear n Hn Plain. intros n Hn. unfold j_x, x_irregular. destruct (q_alt q) eqn:A; cbn [andb].
    - unfold zero_digits, prefix, prefix_length, has_prefix, is_octal. rewrite A. cbn [andb]. unfold prec_fine, c_x, no_prec in *. rewrite A. destruct (Z.eqb_spec n 0) as [->|N]; cbn [andb negb].
      + destruct (q_prec q) as [p|] eqn:P; cbn [andb].
        * rewrite andb_false_r. unfold pad_number, int_digits. cbn [andb]. rewrite justify_just. cbn [app]. f_equal. rewrite Z.eqb_refl. cbn [andb]. destruct (Z.eqb_spec p 0) as [->|Np]; [reflexivity|]. apply min_digits_zero; lia.
        * rewrite andb_true_r. destruct (q_zero q && negb (q_left q)) eqn:Z0.
          -- rewrite justify_just. f_equal. unfold min_digits. change (zlen (txt "0")) with 1. rewrite (zeros_last (Z.max 1 (q_width q - 2))) by lia. f_equal. destruct (Z.max_spec 1 (q_width q - 2)) as [[? ->]|[? ->]]; [reflexivity|rewrite !zeros_neg by lia; reflexivity].
          -- unfold pad_number. rewrite Z0. rewrite justify_just. reflexivity.
      + unfold pad_number, int_digits. destruct (q_prec q) as [p|] eqn:P; cbn [andb].
        * rewrite andb_false_r. cbn [andb]. rewrite justify_just. f_equal. f_equal. replace (n =? 0) with false by (symmetry; apply Z.eqb_neq; exact N). cbn [andb].
          destruct (Z.eqb_spec p 0) as [->|Np]; reflexivity.
        * rewrite andb_true_r. pose proof (numeral_nonempty 16 n ltac:(lia) Hn) as L. destruct (q_zero q && negb (q_left q)) eqn:Z0.
          -- change (zlen (txt "0x")) with 2. rewrite just_fits.
             ++ f_equal. unfold min_digits. f_equal. destruct (Z.max_spec 1 (q_width q - 2)) as [[? ->]|[? ->]]; [reflexivity|rewrite !zeros_neg by lia; reflexivity].
             ++ rewrite zlen_app, min_digits_len. change (zlen [48; 120]) with 2. lia.
          -- rewrite justify_just. f_equal. f_equal. symmetry. apply min_digits_one; lia.
    - unfold c_x. rewrite A. cbn [andb]. unfold zero_digits, prefix, prefix_length, has_prefix, is_octal. rewrite A. cbn [andb app]. rewrite Z.sub_0_r.
      apply core_plain; [lia|exact Hn|exact Hp|]. destruct (q_prec q) as [p|]; [|reflexivity]. destruct (Z.eqb_spec p 0); [symmetry; assumption|reflexivity]. }
  destruct s; try discriminate Hs; unfold utext, base.
  - (* %u *) destruct (Plain eq_refl) as [E1 E2]. rewrite E1. cbn [app]. apply core_plain; [lia|exact Hn|exact Hp|exact E2].
  - (* %o *) destruct (q_alt q) eqn:A.
    + unfold j_o, o_irregular, c_o. rewrite A. cbn [andb]. unfold zero_digits, prefix, prefix_length, has_prefix, is_octal, no_prec. rewrite A. cbn [andb]. unfold prec_fine, pad_number, int_digits in *.
      destruct (Z.eqb_spec n 0) as [->|N]; cbn [andb].
      * destruct (q_prec q) as [p|] eqn:P; cbn [negb orb andb].
        -- rewrite justify_just. f_equal. destruct (Z.eqb_spec p 0) as [->|Np]; [reflexivity|]. unfold min_digits. change (zlen (txt "0")) with 1. rewrite (zeros_last (Z.max 1 (p - 1))) by lia. f_equal.
           destruct (Z.max_spec 1 (p - 1)) as [[? ->]|[? ->]]; [reflexivity|rewrite !zeros_neg by lia; reflexivity].
        -- rewrite andb_true_r. destruct (q_zero q && negb (q_left q)) eqn:Z0.
           ++ rewrite justify_just. f_equal. unfold min_digits. change (zlen (txt "0")) with 1. rewrite (zeros_last (Z.max 1 (q_width q - 1))) by lia. f_equal.
              destruct (Z.max_spec 1 (q_width q - 1)) as [[? ->]|[? ->]]; [reflexivity|rewrite !zeros_neg by lia; reflexivity].
           ++ rewrite justify_just. reflexivity.
      * pose proof (numeral_nonempty 8 n ltac:(lia) Hn) as L. destruct (q_prec q) as [p|] eqn:P; cbn [andb].
        -- rewrite andb_false_r. cbn [andb app]. rewrite justify_just. f_equal. unfold min_digits at 1. destruct (Z.leb_spec p (zlen (numeral 8 n))) as [B|B].
           ++ rewrite (zeros_neg (p - _)) by lia. cbn [app]. rewrite force_numeral by lia. f_equal. unfold min_digits. rewrite zeros_neg; [reflexivity|]. destruct (p =? 0); lia.
           ++ rewrite force_zeros by lia. unfold min_digits. destruct (Z.eqb_spec p 0); [lia|]. rewrite Z.max_r by lia. change ([48] ++ ?x) with (48 :: x).
              replace (p - zlen (numeral 8 n)) with ((p - 1 - zlen (numeral 8 n)) + 1) by lia. rewrite zeros_first by lia. reflexivity.
        -- rewrite andb_true_r. rewrite force_numeral by lia. destruct (q_zero q && negb (q_left q)) eqn:Z0.
           ++ cbn [app]. change (zlen []) with 0. rewrite zlen_cons. rewrite just_fits.
              ** unfold min_digits. destruct (Z.leb_spec (q_width q - 1) (zlen (numeral 8 n))) as [B|B].
                 { rewrite !zeros_neg by lia. reflexivity. }
                 rewrite shift_zero by lia. f_equal. f_equal. f_equal. lia.
              ** rewrite zlen_cons, min_digits_len. lia.
           ++ rewrite justify_just. cbn [app]. f_equal. f_equal. symmetry. apply min_digits_one; lia.
    + destruct (Plain A) as [E1 E2]. rewrite E1. cbn [app]. unfold j_o, o_irregular, c_o. rewrite A. cbn [andb]. apply core_plain; [lia|exact Hn|exact Hp|exact E2].
  - apply X, Hn.
  - apply X, Hn.
Qed.

(** the plainest directive asks for the same digits *)
Lemma plainest_u_digits s q : unsigned_conv s = true -> prec_fine q ->
  zero_digits s (plainest_u s q) = zero_digits s q /\ has_prefix s (plainest_u s q) = has_prefix s q /\ prec_fine (plainest_u s q).
Proof.
  intros Hs Hp. pose proof (zero_digits_nonneg s q Hp) as N. unfold plainest_u. cbv zeta. set (m := zero_digits s q) in *.
  assert (Hh : has_prefix s (mkSpec (q_left q && ((if m =? 0 then prefix_length s q + 1 else m) <? q_width q)) (has_prefix s q) false false false (width_above m (q_width q))
    (at_least (if is_octal s && q_alt q && (1 <? m) then m + 1 else m))) = has_prefix s q) by (destruct s; try discriminate Hs; reflexivity).
  refine (conj _ (conj Hh _)).
  - unfold zero_digits. cbn [q_prec q_zero q_left q_width q_alt andb]. unfold at_least. destruct (is_octal s) eqn:O; cbn [andb].
    + assert (s = So) as -> by (destruct s; try discriminate; reflexivity). cbn [has_prefix]. destruct (q_alt q); cbn [andb].
      * destruct (Z.ltb_spec 1 m); [|destruct (Z.eqb_spec m 1); [lia|]; destruct (Z.eqb_spec m 0); lia]. destruct (Z.eqb_spec (m + 1) 1); [lia|]. destruct (Z.eqb_spec (m + 1) 0); lia.
      * destruct (Z.eqb_spec m 1); [lia|]. destruct (Z.eqb_spec m 0); lia.
    + destruct (Z.eqb_spec m 1); [lia|]. destruct (Z.eqb_spec m 0); lia.
  - unfold prec_fine, at_least. cbn [q_prec]. destruct (is_octal s && q_alt q && (1 <? m)).
    + destruct (m + 1 =? 1); [exact I|lia].
    + destruct (m =? 1); [exact I|lia].
Qed.

Lemma plainest_u_same s q n : unsigned_conv s = true -> 0 <= n -> prec_fine q -> utext s (plainest_u s q) n = utext s q n.
Proof.
  intros Hs Hn Hp. destruct (plainest_u_digits s q Hs Hp) as (E1 & E2 & Hp'). rewrite !unsigned_core by assumption.
  assert (E3 : prefix s (plainest_u s q) = prefix s q) by (unfold prefix; rewrite E2; reflexivity). rewrite E1, E3. symmetry.
  change (q_width (plainest_u s q)) with (width_above (zero_digits s q) (q_width q)).
  change (q_left (plainest_u s q)) with (q_left q && ((if zero_digits s q =? 0 then prefix_length s q + 1 else zero_digits s q) <? q_width q)).
  pose proof (zero_digits_nonneg s q Hp) as N. pose proof (numeral_nonempty (base s) n ltac:(pose proof (base_fine s); lia) Hn) as L.
  assert (P0 : 0 <= prefix_length s q) by (rewrite <- prefix_len; apply zlen_nonneg).
  apply just_plainest.
  - destruct (n =? 0); [rewrite zeros_len; lia|]. rewrite zlen_app, prefix_len, min_digits_len. lia.
  - destruct (n =? 0); [rewrite zeros_len; destruct (Z.eqb_spec (zero_digits s q) 0); lia|]. right. rewrite zlen_app, prefix_len, min_digits_len. destruct (Z.eqb_spec (zero_digits s q) 0); lia.
Qed.

Lemma zeros_chars n : Forall (fun c => c <> 32 /\ c <> 43) (zeros n).
Proof. apply Forall_forall. intros c H. apply in_rep in H. subst. change (ch "0") with 48. lia. Qed.
Lemma min_digits_chars b m n : 2 <= b <= 36 -> 0 <= n -> Forall (fun c => c <> 32 /\ c <> 43) (min_digits m (numeral b n)).
Proof. intros. apply Forall_app. split; [apply zeros_chars|apply numeral_chars; assumption]. Qed.
Lemma prefix_chars s q : Forall (fun c => c <> 32 /\ c <> 43) (prefix s q).
Proof. unfold prefix. destruct (has_prefix s q), (is_octal s); repeat constructor; lia. Qed.
Lemma nonempty_len {A} (t : list A) : 1 <= zlen t -> t <> [].
Proof. intros H ->. unfold zlen in H. cbn in H. lia. Qed.

Lemma above_unique S w w' : 0 <= S -> 0 <= w -> 0 <= w' -> Z.max w S = Z.max w' S -> width_above S w = width_above S w'.
Proof. intros. unfold width_above. destruct (Z.leb_spec w S), (Z.leb_spec w' S); lia. Qed.

Lemma plainest_u_unique s q q' : unsigned_conv s = true -> prec_fine q -> prec_fine q' -> 0 <= q_width q -> 0 <= q_width q' ->
  (forall n, n = 0 \/ n = 1 \/ n = base s ^ (q_width q + q_width q' + zero_digits s q + zero_digits s q') -> alike (utext s q n) (utext s q' n)) ->
  plainest_u s q = plainest_u s q'.
Proof.
  intros Hs Hp Hp' Hw Hw' H. pose proof (base_fine s) as B.
  pose proof (zero_digits_nonneg s q Hp) as N. pose proof (zero_digits_nonneg s q' Hp') as N'.
  set (k := q_width q + q_width q' + zero_digits s q + zero_digits s q') in *. assert (Hk : 0 <= k) by lia.
  pose proof (H 0 ltac:(auto)) as H0. pose proof (H 1 ltac:(auto)) as H1. pose proof (H (base s ^ k) ltac:(auto)) as Hb. clear H.
  pose proof (Z.pow_pos_nonneg (base s) k ltac:(lia) Hk) as Pk.
  rewrite !unsigned_core in H0, H1, Hb by (try assumption; lia). cbn [Z.eqb] in H0, H1. replace (base s ^ k =? 0) with false in Hb by (symmetry; apply Z.eqb_neq; lia).
  pose proof (numeral_long (base s) k ltac:(lia) Hk) as Lk.
  assert (Pl : prefix_length s q = prefix_length s q').
  { pose proof (al_len _ _ Hb) as E. rewrite !just_len, !zlen_app, !min_digits_len, !prefix_len in E.
    assert (0 <= prefix_length s q) by (rewrite <- prefix_len; apply zlen_nonneg). assert (0 <= prefix_length s q') by (rewrite <- prefix_len; apply zlen_nonneg). lia. }
  assert (Hh : has_prefix s q = has_prefix s q') by (unfold prefix_length in Pl; destruct (has_prefix s q), (has_prefix s q'); try reflexivity; destruct (is_octal s); lia).
  assert (M : zero_digits s q = zero_digits s q').
  { pose proof (al_zeros _ _ H0) as E. rewrite !count_just in E by lia. unfold zeros in E. rewrite !count_rep in E. change (ch "0" =? 48) with true in E. cbv iota in E. lia. }
  assert (W : width_above (zero_digits s q) (q_width q) = width_above (zero_digits s q) (q_width q')).
  { pose proof (al_len _ _ H0) as E. rewrite !just_len, !zeros_len in E. apply above_unique; lia. }
  assert (Oct : is_octal s && q_alt q = is_octal s && q_alt q') by (destruct s; try discriminate; try reflexivity; exact Hh).
  unfold plainest_u. cbv zeta. rewrite <- M, <- Pl, <- Hh, <- Oct, <- W. f_equal.
  set (L := if zero_digits s q =? 0 then prefix_length s q + 1 else zero_digits s q) in *.
  (* the side *)
  assert (Wd : zero_digits s q < q_width q \/ zero_digits s q < q_width q' -> q_width q = q_width q').
  { intros O. unfold width_above in W. destruct (Z.leb_spec (q_width q) (zero_digits s q)), (Z.leb_spec (q_width q') (zero_digits s q)); lia. }
  assert (P0 : 0 <= prefix_length s q) by (rewrite <- prefix_len; apply zlen_nonneg).
  destruct (Z.ltb_spec L (q_width q)) as [A|A].
  2: { rewrite andb_false_r. destruct (Z.ltb_spec L (q_width q')) as [A'|A']; [|rewrite andb_false_r; reflexivity]. rewrite Wd in A; [lia|right]. unfold L in A'. destruct (Z.eqb_spec (zero_digits s q) 0); lia. }
  rewrite <- Wd by (left; unfold L in A; destruct (Z.eqb_spec (zero_digits s q) 0); lia).
  replace (L <? q_width q) with true by (symmetry; apply Z.ltb_lt; exact A). rewrite !andb_true_r.
  assert (Ww : q_width q = q_width q') by (apply Wd; left; unfold L in A; destruct (Z.eqb_spec (zero_digits s q) 0); lia).
  unfold L in A. destruct (Z.eqb_spec (zero_digits s q) 0) as [Z0|Z0].
  - pose proof (al_last _ _ H1) as E. rewrite <- M, Z0 in E. rewrite !min_digits_one in E by lia.
    assert (N1 : zlen (numeral (base s) 1) = 1) by (destruct s; reflexivity).
    assert (C : forall r, Forall (fun c => c <> 32 /\ c <> 43) (prefix s r ++ numeral (base s) 1)) by (intros r; apply Forall_app; split; [apply prefix_chars|apply numeral_chars; lia]).
    rewrite !just_blank_last in E by (solve [apply blank_last_no, C | apply nonempty_len; rewrite zlen_app, prefix_len, N1; lia]).
    rewrite !zlen_app, !prefix_len, N1, <- Pl, <- Ww in E. replace (prefix_length s q + 1 <? q_width q) with true in E by (symmetry; apply Z.ltb_lt; exact A). rewrite !andb_true_r in E. exact E.
  - pose proof (al_last _ _ H0) as E. rewrite <- M in E.
    rewrite !just_blank_last in E by (solve [apply blank_last_no, zeros_chars | apply nonempty_len; rewrite zeros_len; lia]).
    rewrite !zeros_len, <- Ww in E. replace (Z.max 0 (zero_digits s q) <? q_width q) with true in E by (symmetry; apply Z.ltb_lt; lia). rewrite !andb_true_r in E. exact E.
Qed.
