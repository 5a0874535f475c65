(** A reader of decimals, and the doubles whose texts do not come back. *)
From Coq Require Import QArith Qabs Qpower Lqa.
From Verif Require Import Base Digits UtilsM SeqM SeqSpec ContextM CompilerM GrammarSpec IntFormM FormatterM MathM DecimalM FPDecimalM DoubleM BigDecM RoundM TraitsM ImplM
  ReadSpec FmtSpec FmtP DirSpec DecSpec RoundP FloatSpec FPDecP FloatP DoubleP CastP NearP FloatQ HexP FloatArgP IntP PropsInt PropsDouble PropsFloat
  ReadFSpec ReadFP ReadFP2 ReadFP3 PropsRead ScaleSpec ScaleP ExactP AgainCheck AgainP AgainP2 AgainP3 AgainSpec.
Open Scope Z_scope.

(** ** the nearest double, by bisection *)

Definition middle (m : Z) : Q := ((dval m + dval (m + 1)) * (1 # 2))%Q.
(** the number is read as a double after [m] *)
Definition beyond (x : Q) (m : Z) : bool := match (middle m ?= x)%Q with Lt => true | Gt => false | Eq => Z.odd m end.
Fixpoint search (n : nat) (x : Q) (lo hi : Z) : Z :=
  match n with
  | O => lo
  | S n => if lo =? hi then lo else let k := (lo + hi) / 2 in if beyond x k then search n x (k + 1) hi else search n x lo k
  end.
Definition nearest (x : Q) : Z := search 64 x 0 inf_bits.

Lemma rounds_from x b : (0 <= b <= inf_bits)%Z -> (0 <= x)%Q -> (0 < b -> beyond x (b - 1) = true)%Z -> (b < inf_bits -> beyond x b = false)%Z -> rounds_to x b.
Proof.
  intros Hb Hx H1 H2 b' Hb'. unfold beyond, middle in *. replace (b - 1 + 1) with b in H1 by lia.
  assert (E1 : forall u v, ((u + v) / 2 == (u + v) * (1 # 2))%Q) by (intros; reflexivity).
  destruct (Z_lt_ge_dec b' b) as [L|G]; [|destruct (Z.eq_dec b' b) as [->|N]].
  - specialize (H1 ltac:(lia)). clear H2. pose proof (dval_le b' (b - 1) ltac:(lia)) as L3. pose proof (dval_lt b' b ltac:(lia)) as L4. pose proof (dval_lt (b - 1) b ltac:(lia)) as L5.
    destruct (_ ?= x)%Q eqn:C in H1; try discriminate.
    + apply Qeq_alt in C. split; [apply near_below; [exact L4|]; rewrite E1; lra|]. intros _ _. rewrite <- (Z.sub_add 1 b), Z.add_1_r, Z.even_succ. exact H1.
    + apply Qlt_alt in C. split; [apply near_below; [exact L4|]; rewrite E1; lra|]. intros _ T. exfalso. apply tie_mid in T; [|lra]. rewrite E1 in T. lra.
  - split; [apply Qle_refl|]. intros N. contradiction.
  - specialize (H2 ltac:(lia)). clear H1. pose proof (dval_le (b + 1) b' ltac:(lia)) as L3. pose proof (dval_lt b b' ltac:(lia)) as L4. pose proof (dval_lt b (b + 1) ltac:(lia)) as L5.
    destruct (_ ?= x)%Q eqn:C in H2; try discriminate.
    + apply Qeq_alt in C. split; [apply near_above; [exact L4|]; rewrite E1; lra|]. intros _ _. rewrite <- Z.negb_odd, H2. reflexivity.
    + apply Qgt_alt in C. split; [apply near_above; [exact L4|]; rewrite E1; lra|]. intros _ T. exfalso. apply tie_mid in T; [|lra]. rewrite E1 in T. lra.
Qed.
Lemma search_rounds x : (0 <= x)%Q -> forall n lo hi, 0 <= lo <= hi -> hi <= inf_bits -> hi - lo < 2 ^ Z.of_nat n ->
  (0 < lo -> beyond x (lo - 1) = true) -> (hi < inf_bits -> beyond x hi = false) -> 0 <= search n x lo hi <= inf_bits /\ rounds_to x (search n x lo hi).
Proof.
  intros Hx. induction n as [|n IH]; intros lo hi Hl Hh Hn A B.
  - cbn [search]. assert (hi = lo) as -> by (change (2 ^ Z.of_nat 0) with 1 in Hn; lia). split; [lia|]. apply rounds_from; [lia|exact Hx|exact A|exact B].
  - cbn [search]. destruct (Z.eqb_spec lo hi) as [->|Ne]; [split; [lia|]; apply rounds_from; [lia|exact Hx|exact A|exact B]|].
    cbv zeta. rewrite Nat2Z.inj_succ, Z.pow_succ_r in Hn by lia. pose proof (Z.div_mod (lo + hi) 2 ltac:(lia)). pose proof (Z.mod_pos_bound (lo + hi) 2 ltac:(lia)). set (k := (lo + hi) / 2) in *. clearbody k.
    destruct (beyond x k) eqn:E; apply IH; try lia; try assumption; intros; try (replace (k + 1 - 1) with k by lia); assumption.
Qed.
Lemma nearest_rounds x : (0 <= x)%Q -> 0 <= nearest x <= inf_bits /\ rounds_to x (nearest x).
Proof. intros Hx. apply (search_rounds x Hx); [vm_compute; split; discriminate|lia|vm_compute; reflexivity|lia|lia]. Qed.

Definition read_double (t : list Z) : option Z :=
  match read_float 10 (ch "e") t with
  | Some (neg, N, k, y) => Some (if neg then nearest (dec N (y - k)) - 2 ^ 63 else nearest (dec N (y - k)))
  | None => None
  end.
(** the JDK of the examples, with this reader *)
Definition J1 : jdk := mkJdk (j_doubleToString J0) (j_floatToString J0) read_double (j_format J0) (j_atSystemZone J0) (j_instantFrom J0) (j_temporalText J0) (j_bigDecText J0) (j_digit J0).
Lemma digits_nonneg l : forall a, 0 <= a -> Forall (Dig 10) l -> 0 <= fold_left (fun a c => a * 10 + hexval c) l a.
Proof.
  induction l as [|c l IH]; intros a Ha H; [exact Ha|]. inversion_clear H as [|? ? Hc Hl]. cbn [fold_left]. apply IH; [|exact Hl].
  assert (0 <= hexval c); [|lia]. unfold Dig, is_digit in Hc. cbn [Z.eqb andb] in Hc. unfold hexval. destruct (Z.leb_spec 48 c); destruct (Z.leb_spec c 57); cbn in *; try discriminate; lia.
Qed.
Lemma J1_reads : reads_numerals J1.
Proof.
  intros t neg x (N & k & y & E & V). cbn [J1 j_parseDouble]. unfold read_double. rewrite E.
  assert (HN : 0 <= N).
  { unfold read_float in E. destruct (read_sign _) as [n0 t0]. destruct (read_prefix _ _) as [t4|]; [|discriminate].
    pose proof (run_digits 10 t4) as D1. destruct (digits_run 10 t4) as [i0 t1]. pose proof (fraction_digits 10 t1) as D2. destruct (read_fraction 10 t1) as [f0 t2]. cbn [fst] in D1, D2.
    destruct i0; [discriminate|]. destruct (read_exponent _ _) as [[x0 t3]|]; [|discriminate]. destruct (skip_blanks t3); [|discriminate]. injection E as _ <- _ _.
    apply digits_nonneg; [lia|]. apply (Forall_app (Dig 10) (_ :: _)). split; assumption. }
  assert (Hx : (0 <= dec N (y - k))%Q) by (apply dec_nonneg; exact HN).
  destruct (nearest_rounds _ Hx) as [R Rd]. set (m := nearest (dec N (y - k))) in *. clearbody m. assert (I0 : inf_bits < 2 ^ 63) by reflexivity.
  assert (Rx : rounds_to x m) by (apply (rounds_eq (dec N (y - k))); [symmetry; exact V|exact Rd]).
  exists (if neg then m - 2 ^ 63 else m). split; [reflexivity|]. destruct neg.
  - rewrite mag_neg by lia. split; [split; lia|]. split; [apply Z.ltb_lt; lia|]. split; [lia|exact Rx].
  - rewrite mag_pos by lia. split; [split; lia|]. split; [apply Z.ltb_ge; lia|]. split; [lia|exact Rx].
Qed.

(** ** texts that do not come back *)

Lemma some_text J src s q v b r f e : directive src s q -> decimal_spec s -> is_double J v b -> its_decimal b f e -> exists t, prints J src [traitsOf J v r] t.
Proof.
  intros Hd Hs Hv Hi. pose proof (prec_nonneg _ _ _ Hd) as Hp. pose proof (its_nonneg _ _ _ Hi) as Hf.
  assert (FF : s = Sf \/ s = SF -> exists t, prints J src [traitsOf J v r] t).
  { intros Hs'. eexists. apply (C28_fixed_notation J src s q v b r f e (hup f (- (e + prec_or 6 q))) Hd Hs' Hv Hi). apply hup_half_up. exact Hf. }
  assert (EE : s = Se \/ s = SE -> exists t, prints J src [traitsOf J v r] t).
  { intros Hs'. destruct Hi as [[Z0 F0]|[R D]]; [eexists; apply (C30_scientific_zero J src s q v b r Hd Hs' Hv Z0)|]. pose proof (proj1 D) as F0.
    destruct (FloatSpec.sig f e (prec_or 6 q + 1)) as [S X] eqn:E. eexists. apply (C30_scientific_notation J src s q v b r f e S X Hd Hs' Hv (or_intror (conj R D)) ltac:(lia)).
    apply sig_right; [lia|lia|exact E]. }
  assert (GG : s = Sg \/ s = SG -> exists t, prints J src [traitsOf J v r] t).
  { intros Hs'. destruct (its_printed b f e Hi) as (f0 & e0 & Pr & _). eexists. apply (g_of_digits J src s q v b r f0 e0 Hd Hs' Hv Pr). }
  unfold decimal_spec in Hs. destruct Hs as [->|[->|[->|[->|[->| ->]]]]]; auto.
Qed.

(** a number next to a double that the conversion rounds to another number *)
Lemma moved J src s q v b r f e x m' f' e' x' : directive src s q -> decimal_spec s -> reads_numerals J -> is_double J v b -> its_decimal b f e ->
  rounded s q (dec f e) x -> 0 < m' < inf_bits -> rounds_to x m' -> right_decimal m' f' e' -> rounded s q (dec f' e') x' -> ~ (x == x')%Q ->
  exists t t', prints J src [traitsOf J v r] t /\ (forall w r', chars J w t -> prints J src [traitsOf J w r'] t') /\ t <> t'.
Proof.
  intros Hd Hs HJ Hv Hi Hx Hm' Hr' Rt' Hx' Ne. destruct (some_text J src s q v b r f e Hd Hs Hv Hi) as (t & Ht).
  pose proof (C55_text_is_the_rounded_number J src s q v b r f e x t Hd Hs Hv Hi Hx Ht) as Rd.
  destruct (HJ t _ x Rd) as (b' & Eb & Rb & Sb & Lb & Nb).
  assert (Em : magnitude b' = m') by (apply (rounds_unique x); [unfold magnitude; pose proof (Z.mod_pos_bound b' (2 ^ 63) ltac:(lia)); unfold magnitude in Lb; lia|lia|exact Nb|exact Hr']).
  assert (Hi' : its_decimal b' f' e') by (right; rewrite Em; split; assumption).
  assert (Hw : forall w, chars J w t -> is_double J w b') by (intros w C; apply (id_chars J w t b' C Eb Rb)).
  destruct (some_text J src s q (VStr t) b' r f' e' Hd Hs (Hw _ (cs_str J t)) Hi') as (t' & Ht').
  exists t, t'. split; [exact Ht|]. pose proof (C55_text_is_the_rounded_number J src s q (VStr t) b' r f' e' x' t' Hd Hs (Hw _ (cs_str J t)) Hi' Hx' Ht') as Rd'. split.
  - intros w r' C. apply (same_text J src s q (VStr t) b' r f' e' w b' r' f' e' x' t'); try assumption; try reflexivity; [left; reflexivity|apply Hw; constructor|apply Hw; exact C].
  - intros <-. apply Ne. apply (reads_as_unique _ _ _ _ _ Rd Rd').
Qed.

(** the six, and the one with two digits: the number with [P] significant digits is nearer to [m'], which has other digits *)
Definition inside_of (x : Q) (m : Z) : bool :=
  negb (Qle_bool x ((dval m + dval (m - 1)) * (1 # 2))) && negb (Qle_bool ((dval m + dval (m + 1)) * (1 # 2)) x).
Definition digits_turn (m m' P : Z) : bool :=
  match shortest m, shortest m' with
  | Some (f, e), Some (f', e') =>
      let (S, X) := FloatSpec.sig f e P in let (S', X') := FloatSpec.sig f' e' P in
      inside_of (dec S (X - P + 1)) m' && negb (Qeq_bool (dec S (X - P + 1)) (dec S' (X' - P + 1)))
  | _, _ => false
  end.
Definition places_turn (m m' p : Z) : bool :=
  match shortest m, shortest m' with
  | Some (f, e), Some (f', e') =>
      let N := hup f (- (e + p)) in let N' := hup f' (- (e' + p)) in
      inside_of (dec N (- p)) m' && negb (Qeq_bool (dec N (- p)) (dec N' (- p)))
  | _, _ => false
  end.
Lemma six_turn : forallb (fun m => digits_turn m (m + 1) 16) six && digits_turn 21 20 2
  && places_turn (169 * 2 ^ 52 - 1) (169 * 2 ^ 52) 273 && places_turn (468 * 2 ^ 52 - 1) (468 * 2 ^ 52) 183 = true.
Proof. vm_compute. reflexivity. Qed.

Lemma shortest_its m f e : 0 < m < inf_bits -> shortest m = Some (f, e) -> right_decimal m f e.
Proof.
  intros Hm E. destruct (decimal_of_exists m Hm) as (f0 & e0 & D). unfold shortest in E. rewrite (do_dec _ _ _ D) in E. injection E as <- <-. apply (do_right _ _ _ D).
Qed.
Lemma inside_rounds x m : 0 < m < inf_bits -> inside_of x m = true -> rounds_to x m.
Proof.
  intros Hm H. unfold inside_of in H. apply andb_prop in H as [H1 H2]. apply rounds_inside; [exact Hm|].
  split; apply Qnot_le_lt; intros L; apply Qle_bool_iff in L; [rewrite L in H1|rewrite L in H2]; discriminate.
Qed.
Lemma not_equal x y : negb (Qeq_bool x y) = true -> ~ (x == y)%Q.
Proof. intros H E. apply Qeq_bool_iff in E. rewrite E in H. discriminate. Qed.

Lemma unstable_magnitude s q m : decimal_spec s -> unstable s q m ->
  exists m', 0 < m < inf_bits /\ 0 < m' < inf_bits /\
    match s with
    | Sf | SF => places_turn m m' (prec_or 6 q) = true
    | Se | SE => digits_turn m m' (prec_or 6 q + 1) = true
    | _ => digits_turn m m' (g_prec q) = true
    end.
Proof.
  intros Hs Hu. pose proof six_turn as T. apply andb_prop in T as [T T4]. apply andb_prop in T as [T T3]. apply andb_prop in T as [T1 T2].
  assert (D : forall P, unstable_digits m P -> exists m', 0 < m < inf_bits /\ 0 < m' < inf_bits /\ digits_turn m m' P = true).
  { clear - T1 T2. intros P [[-> H]|[-> ->]].
    - exists (m + 1). rewrite forallb_forall in T1. specialize (T1 m H). assert (R : 0 < m < 1614 * 2 ^ 52) by (unfold six in H; cbn [In] in H; lia).
      unfold inf_bits. split; [lia|]. split; [lia|exact T1].
    - exists 20. split; [vm_compute; split; reflexivity|]. split; [vm_compute; split; reflexivity|exact T2]. }
  assert (F : prec_or 6 q = 273 /\ m = 169 * 2 ^ 52 - 1 \/ prec_or 6 q = 183 /\ m = 468 * 2 ^ 52 - 1 -> exists m', 0 < m < inf_bits /\ 0 < m' < inf_bits /\ places_turn m m' (prec_or 6 q) = true).
  { clear - T3 T4. intros [[-> ->]|[-> ->]]; eexists; (split; [unfold inf_bits; lia|]); (split; [|eassumption]); unfold inf_bits; lia. }
  unfold decimal_spec in Hs. destruct Hs as [->|[->|[->|[->|[->| ->]]]]]; cbn [unstable] in Hu; auto.
Qed.

Lemma unstable_moved J src s q v b r : directive src s q -> decimal_spec s -> reads_numerals J -> is_double J v b -> unstable s q (magnitude b) ->
  exists t t', prints J src [traitsOf J v r] t /\ (forall w r', chars J w t -> prints J src [traitsOf J w r'] t') /\ t <> t'.
Proof.
  intros Hd Hs HJ Hv Hu. pose proof (prec_nonneg _ _ _ Hd) as Hp. pose proof (g_prec_pos _ _ _ Hd) as HP. destruct (unstable_magnitude s q _ Hs Hu) as (m' & Hm & Hm' & T).
  assert (DD : forall P, 1 <= P -> (forall y x, sig_rounded y P x -> rounded s q y x) -> digits_turn (magnitude b) m' P = true ->
    exists t t', prints J src [traitsOf J v r] t /\ (forall w r', chars J w t -> prints J src [traitsOf J w r'] t') /\ t <> t').
  { clear T. intros P HP1 Rd T. unfold digits_turn in T. destruct (shortest (magnitude b)) as [[f e]|] eqn:E; [|discriminate]. destruct (shortest m') as [[f' e']|] eqn:E'; [|discriminate].
    pose proof (shortest_its _ _ _ Hm E) as R. pose proof (shortest_its _ _ _ Hm' E') as R'. destruct (FloatSpec.sig f e P) as [S X] eqn:G. destruct (FloatSpec.sig f' e' P) as [S' X'] eqn:G'.
    apply andb_prop in T as [T1 T2]. apply inside_rounds in T1; [|exact Hm']. apply not_equal in T2.
    apply (moved J src s q v b r f e (dec S (X - P + 1)) m' f' e' (dec S' (X' - P + 1))); try assumption; [right; split; assumption| |].
    - apply Rd. right. exists S, X. split; [|reflexivity]. apply sig_right; [apply R|exact HP1|exact G].
    - apply Rd. right. exists S', X'. split; [|reflexivity]. apply sig_right; [apply R'|exact HP1|exact G']. }
  assert (FF : (forall y x, (exists N, half_up_at y (prec_or 6 q) N /\ (x == dec N (- prec_or 6 q))%Q) -> rounded s q y x) -> places_turn (magnitude b) m' (prec_or 6 q) = true ->
    exists t t', prints J src [traitsOf J v r] t /\ (forall w r', chars J w t -> prints J src [traitsOf J w r'] t') /\ t <> t').
  { clear T. intros Rd T. unfold places_turn in T. destruct (shortest (magnitude b)) as [[f e]|] eqn:E; [|discriminate]. destruct (shortest m') as [[f' e']|] eqn:E'; [|discriminate].
    pose proof (shortest_its _ _ _ Hm E) as R. pose proof (shortest_its _ _ _ Hm' E') as R'. cbv zeta in T.
    apply andb_prop in T as [T1 T2]. apply inside_rounds in T1; [|exact Hm']. apply not_equal in T2. pose proof (proj1 R). pose proof (proj1 R').
    apply (moved J src s q v b r f e (dec (hup f (- (e + prec_or 6 q))) (- prec_or 6 q)) m' f' e' (dec (hup f' (- (e' + prec_or 6 q))) (- prec_or 6 q))); try assumption; [right; split; assumption| |].
    - apply Rd. eexists. split; [apply hup_half_up; lia|reflexivity].
    - apply Rd. eexists. split; [apply hup_half_up; lia|reflexivity]. }
  unfold decimal_spec in Hs. destruct Hs as [->|[->|[->|[->|[->| ->]]]]]; [apply FF|apply FF|apply (DD (prec_or 6 q + 1))|apply (DD (prec_or 6 q + 1))|apply (DD (g_prec q))|apply (DD (g_prec q))]; try exact T; try lia; intros; assumption.
Qed.
