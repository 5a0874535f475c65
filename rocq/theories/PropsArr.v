(** C94: arrays as arguments. *)
From Verif Require Import Base Digits UtilsM SeqM SeqSpec SeqP ContextM CompilerM CompilerP2 GrammarSpec IntFormM FormatterM BigDecM TraitsM ImplM
  FmtSpec DirSpec LoopSpec ExactSpec ValueSpec WholeSpec WholeP IntP PropsInt PropsValue PropsWhole ArrM ArrSpec.

(** ** Base64 *)

Lemma triples (P : list Z -> Prop) : P [] -> (forall a, P [a]) -> (forall a b, P [a; b]) -> (forall a b c r, P r -> P (a :: b :: c :: r)) -> forall l, P l.
Proof.
  intros H0 H1 H2 H3 l. assert (G : forall n l, (length l <= n)%nat -> P l).
  { induction n as [|n IH]; intros m Hm; [destruct m; [exact H0|cbn in Hm; lia]|].
    destruct m as [|a [|b [|c r]]]; [exact H0|apply H1|apply H2|]. apply H3, IH. cbn in Hm. lia. }
  apply (G (length l)). lia.
Qed.

Lemma f2_length {A B} (R : A -> B -> Prop) l m : Forall2 R l m -> length l = length m.
Proof. intros H. induction H; cbn; congruence. Qed.
Lemma letter_ok n : 0 <= n < 64 -> znth alphabet n = Some (letter64 n).
Proof.
  intros H. destruct (znth_some alphabet n) as [c E]; [change (zlen alphabet) with 64; lia|]. rewrite E. f_equal.
  unfold znth in E. replace (n <? 0) with false in E by lia. unfold letter64. change toBase64 with alphabet. symmetry. apply nth_error_nth. exact E.
Qed.

Lemma split_four x : 0 <= x < 256 -> x = 4 * (x / 4) + x mod 4 /\ 0 <= x / 4 < 64 /\ 0 <= x mod 4 < 4.
Proof. intros H. pose proof (Z.div_mod x 4). pose proof (Z.mod_pos_bound x 4). lia. Qed.
Lemma split_sixteen x : 0 <= x < 256 -> x = 16 * (x / 16) + x mod 16 /\ 0 <= x / 16 < 16 /\ 0 <= x mod 16 < 16.
Proof. intros H. pose proof (Z.div_mod x 16). pose proof (Z.mod_pos_bound x 16). lia. Qed.
Lemma split_64 x : 0 <= x < 256 -> x = 64 * (x / 64) + x mod 64 /\ 0 <= x / 64 < 4 /\ 0 <= x mod 64 < 64.
Proof. intros H. pose proof (Z.div_mod x 64). pose proof (Z.mod_pos_bound x 64). lia. Qed.

Lemma encode64_ok l : base64_of l (encode64 l).
Proof.
  induction l as [|x|x y|x y z r IH] using triples.
  - exists 0, 0%nat, [], []. split; [lia|]. split; [reflexivity|]. split; [constructor|]. split; [reflexivity|]. split; reflexivity.
  - cbn [encode64]. pose proof (Z.mod_pos_bound x 256 ltac:(lia)) as B. cbn [map]. set (a := x mod 256) in *. destruct (split_four a B) as (E & B1 & B2).
    exists 1, 2%nat, [letter64 (a / 4); letter64 (a mod 4 * 16)], [a / 4; a mod 4 * 16]. split; [lia|]. split; [reflexivity|].
    split; [repeat constructor; apply letter_ok; lia|]. split; [reflexivity|]. split; [reflexivity|]. cbn [repeat app map]. unfold of_digits. cbn [fold_left]. lia.
  - cbn [encode64]. pose proof (Z.mod_pos_bound x 256 ltac:(lia)) as B. pose proof (Z.mod_pos_bound y 256 ltac:(lia)) as B'. cbn [map]. set (a := x mod 256) in *. set (b := y mod 256) in *.
    destruct (split_four a B) as (E & B1 & B2). destruct (split_sixteen b B') as (E' & B3 & B4).
    exists 1, 1%nat, [letter64 (a / 4); letter64 (a mod 4 * 16 + b / 16); letter64 (b mod 16 * 4)], [a / 4; a mod 4 * 16 + b / 16; b mod 16 * 4]. split; [lia|]. split; [reflexivity|].
    split; [repeat constructor; apply letter_ok; lia|]. split; [reflexivity|]. split; [reflexivity|]. cbn [repeat app map]. fold a b. unfold of_digits. cbn [fold_left]. lia.
  - destruct IH as (g & n & le & sx & Hn & Et & Hf & Hl & Ht & Hv). cbn [encode64 map].
    pose proof (Z.mod_pos_bound x 256 ltac:(lia)) as B. pose proof (Z.mod_pos_bound y 256 ltac:(lia)) as B'. pose proof (Z.mod_pos_bound z 256 ltac:(lia)) as B''.
    set (a := x mod 256) in *. set (b := y mod 256) in *. set (c := z mod 256) in *.
    destruct (split_four a B) as (E & B1 & B2). destruct (split_sixteen b B') as (E' & B3 & B4). destruct (split_64 c B'') as (E'' & B5 & B6).
    exists (g + 1), n, (letter64 (a / 4) :: letter64 (a mod 4 * 16 + b / 16) :: letter64 (b mod 16 * 4 + c / 64) :: letter64 (c mod 64) :: le),
      (a / 4 :: a mod 4 * 16 + b / 16 :: b mod 16 * 4 + c / 64 :: c mod 64 :: sx).
    split; [exact Hn|]. split; [rewrite Et; reflexivity|]. split; [repeat (constructor; [apply letter_ok; lia|]); exact Hf|].
    split; [rewrite !zlen_cons; lia|]. split; [rewrite !zlen_cons; lia|].
    change ((a / 4 :: a mod 4 * 16 + b / 16 :: b mod 16 * 4 + c / 64 :: c mod 64 :: sx) ++ repeat 0 n) with
      ([a / 4; a mod 4 * 16 + b / 16; b mod 16 * 4 + c / 64; c mod 64] ++ (sx ++ repeat 0 n)).
    match goal with |- _ = of_digits 256 ?u => change u with ([a; b; c] ++ (map (fun b => b mod 256) r ++ repeat 0 n)) end.
    rewrite of_digits_app, (of_digits_app 256 [a; b; c]), Hv. f_equal.
    assert (L1 : zlen (sx ++ repeat 0 n) = 4 * g).
    { assert (Q : zlen le = zlen sx) by (unfold zlen; f_equal; apply (f2_length _ _ _ Hf)). rewrite Et in Ht. rewrite zlen_app in *. unfold zlen in *. rewrite repeat_length in *. lia. }
    assert (L2 : zlen (map (fun b => b mod 256) r ++ repeat 0 n) = 3 * g) by (rewrite zlen_app; unfold zlen in *; rewrite map_length, repeat_length; lia).
    rewrite L1, L2. assert (0 <= g) by (unfold zlen in *; lia).
    assert (P : 64 ^ (4 * g) = 256 ^ (3 * g)) by (change 64 with (2 ^ 6); change 256 with (2 ^ 8); rewrite <- !Z.pow_mul_r by lia; f_equal; lia).
    rewrite P. f_equal. unfold of_digits. cbn [fold_left]. lia.
Qed.

(** the bytes determine the letters and the letters the bytes *)
Lemma alphabet_inj n m c : znth alphabet n = Some c -> znth alphabet m = Some c -> n = m.
Proof.
  intros H1 H2. pose proof (znth_range _ _ _ H1) as R1. pose proof (znth_range _ _ _ H2) as R2. change (zlen alphabet) with 64 in *.
  unfold znth in *. replace (n <? 0) with false in H1 by lia. replace (m <? 0) with false in H2 by lia.
  assert (ND : NoDup alphabet). { apply NoDup_nth_error. intros i j Hi E. change (length alphabet) with 64%nat in Hi.
    assert (F : forallb (fun i => forallb (fun j => (i =? j)%nat || negb (match nth_error alphabet i, nth_error alphabet j with Some a, Some b => a =? b | None, None => true | _, _ => false end))
      (List.seq 0 65)) (List.seq 0 64) = true) by (vm_compute; reflexivity).
    rewrite forallb_forall in F. specialize (F i (proj2 (in_seq 64 0 i) ltac:(lia))). rewrite forallb_forall in F.
    destruct (Nat.lt_ge_cases j 65) as [L|L].
    - specialize (F j (proj2 (in_seq 65 0 j) ltac:(lia))). rewrite E in F. destruct (Nat.eqb_spec i j); [assumption|]. cbn [orb] in F.
      destruct (nth_error alphabet j); [rewrite Z.eqb_refl in F|]; discriminate F.
    - rewrite (proj2 (nth_error_None alphabet j)) in E by (change (length alphabet) with 64%nat; lia). apply nth_error_None in E. change (length alphabet) with 64%nat in E. lia. }
  apply Z2Nat.inj; try lia. apply (proj1 (NoDup_nth_error alphabet) ND); [change (length alphabet) with 64%nat; lia|]. rewrite H1, H2. reflexivity.
Qed.

Lemma letters_sextets l m : Forall2 (fun c n => znth alphabet n = Some c) l m -> digits_ok 64 m /\ ~ In (ch "=") l.
Proof.
  intros H. induction H as [|c n l m H0 _ [I1 I2]]; [split; [constructor|intros []]|]. split.
  - constructor; [|exact I1]. apply znth_range in H0. change (zlen alphabet) with 64 in H0. exact H0.
  - intros [E|E]; [|exact (I2 E)]. subst c. unfold znth in H0. destruct (n <? 0); [discriminate|]. apply nth_error_In in H0. vm_compute in H0. intuition discriminate.
Qed.
Lemma letters_inj l m1 m2 : Forall2 (fun c n => znth alphabet n = Some c) l m1 -> Forall2 (fun c n => znth alphabet n = Some c) l m2 -> m1 = m2.
Proof.
  intros H. revert m2. induction H as [|c n l m H0 _ IH]; intros m2 H2; inversion H2; subst; [reflexivity|]. f_equal; [eapply alphabet_inj; eassumption|apply IH; assumption].
Qed.
Lemma sextets_inj l1 l2 m : Forall2 (fun c n => znth alphabet n = Some c) l1 m -> Forall2 (fun c n => znth alphabet n = Some c) l2 m -> l1 = l2.
Proof.
  intros H. revert l2. induction H as [|c n l m H0 _ IH]; intros l2 H2; inversion H2; subst; [reflexivity|]. f_equal; [congruence|apply IH; assumption].
Qed.
Lemma fill_zero b xs n : of_digits b (xs ++ repeat 0 n) = of_digits b xs * b ^ Z.of_nat n.
Proof.
  rewrite of_digits_app. replace (repeat 0 n) with (rep 0 (Z.of_nat n)) by (unfold rep; rewrite Nat2Z.id; reflexivity). rewrite of_digits_zeros.
  replace (zlen (rep 0 (Z.of_nat n))) with (Z.of_nat n) by (unfold rep, zlen; rewrite repeat_length; lia). lia.
Qed.
Lemma no_equals l n m k : ~ In (ch "=") l -> ~ In (ch "=") k -> l ++ repeat (ch "=") n = k ++ repeat (ch "=") m -> l = k /\ n = m.
Proof.
  revert k. induction l as [|x l IH]; intros k Hl Hk E.
  - destruct k as [|y k]; [split; [reflexivity|]; cbn in E; apply (f_equal (@length Z)) in E; rewrite !repeat_length in E; exact E|].
    exfalso. destruct n; cbn in E; [discriminate|]. injection E as E _. apply Hk. left. symmetry. exact E.
  - destruct k as [|y k].
    + exfalso. destruct m; cbn in E; [discriminate|]. injection E as E _. apply Hl. left. exact E.
    + cbn [app] in E. injection E as -> E. destruct (IH k) as [-> ->]; [intros X; apply Hl; right; exact X|intros X; apply Hk; right; exact X|exact E|]. split; reflexivity.
Qed.

Lemma bytes_inj l m : Forall (in_range 8) l -> Forall (in_range 8) m -> map (fun b => b mod 256) l = map (fun b => b mod 256) m -> l = m.
Proof.
  intros H. revert m. induction H as [|x l Hx _ IH]; intros m Hm E; destruct Hm as [|y m Hy Hm]; try discriminate E; [reflexivity|].
  cbn [map] in E. injection E as E1 E2. f_equal; [|apply IH; assumption]. unfold in_range in *. change (2 ^ (8 - 1)) with 128 in *.
  pose proof (Z.div_mod x 256). pose proof (Z.div_mod y 256). pose proof (Z.mod_pos_bound x 256). lia.
Qed.
Lemma bytes_ok l : digits_ok 256 (map (fun b => b mod 256) l).
Proof. unfold digits_ok. apply Forall_map. apply Forall_forall. intros x _. apply Z.mod_pos_bound. lia. Qed.

Theorem C94_base64_decodes : forall l m t, Forall (in_range 8) l -> Forall (in_range 8) m -> base64_of l t -> base64_of m t -> l = m.
Proof.
  intros l m t Hl Hm (g & n & le & sx & Hn & Et & Hf & HL & Ht & Hv) (g' & n' & le' & sx' & Hn' & Et' & Hf' & HL' & Ht' & Hv').
  destruct (letters_sextets _ _ Hf) as [D N]. destruct (letters_sextets _ _ Hf') as [D' N'].
  rewrite Et in Et'. destruct (no_equals _ _ _ _ N N' Et') as [<- <-]. pose proof (letters_inj _ _ _ Hf Hf') as <-.
  apply bytes_inj; [exact Hl|exact Hm|]. assert (g = g') by lia. subst g'.
  apply (of_digits_inj 256); [lia|apply bytes_ok|apply bytes_ok|unfold zlen in *; rewrite !map_length; lia|].
  rewrite Hv, !fill_zero in Hv'. assert (0 < 256 ^ Z.of_nat n) by (apply Z.pow_pos_nonneg; lia). nia.
Qed.
Print Assumptions C94_base64_decodes.
Theorem C94_base64_unique : forall l t u, base64_of l t -> base64_of l u -> t = u.
Proof.
  intros l t u (g & n & le & sx & Hn & Et & Hf & HL & Ht & Hv) (g' & n' & le' & sx' & Hn' & Et' & Hf' & HL' & Ht' & Hv').
  destruct (letters_sextets _ _ Hf) as [D N]. destruct (letters_sextets _ _ Hf') as [D' N'].
  assert (n = n' /\ g = g') as [<- <-] by lia. subst t u. f_equal. apply f2_length in Hf as L. apply f2_length in Hf' as L'.
  assert (E : sx = sx').
  { apply (of_digits_inj 64); [lia|exact D|exact D'| |].
    - rewrite zlen_app in Ht, Ht'. unfold zlen in *. lia.
    - rewrite <- Hv, !fill_zero in Hv'. assert (0 < 64 ^ Z.of_nat n) by (apply Z.pow_pos_nonneg; lia). nia. }
  subst sx'. exact (sextets_inj _ _ _ Hf Hf').
Qed.
Print Assumptions C94_base64_unique.

(** ** the texts *)

Lemma arraysLoop_ok l : l <> [] -> forall b, arraysLoop l b = b ++ commas l ++ txt "]".
Proof.
  induction l as [|t l IH]; intros N b; [congruence|]. destruct l as [|u l]; [cbn [arraysLoop commas]; rewrite <- app_assoc; reflexivity|].
  change (arraysLoop (t :: u :: l) b) with (arraysLoop (u :: l) ((b ++ t) ++ txt ", ")). rewrite IH by discriminate.
  change (commas (t :: u :: l)) with (t ++ txt ", " ++ commas (u :: l)). rewrite <- !app_assoc. reflexivity.
Qed.
Lemma arrays_listed l : arraysToString l = listed l.
Proof. destruct l as [|t l]; [reflexivity|]. unfold arraysToString. rewrite arraysLoop_ok by discriminate. reflexivity. Qed.
Lemma commas_loop sep l : sep = txt ", " -> forall b t, joinArray_loop sep l (b ++ t) = b ++ commas (t :: l).
Proof.
  intros ->. induction l as [|u l IH]; intros b t; [reflexivity|]. cbn [joinArray_loop]. rewrite app_assoc. rewrite IH.
  change (commas (t :: u :: l)) with (t ++ txt ", " ++ commas (u :: l)). rewrite <- !app_assoc. reflexivity.
Qed.
Lemma join_listed l : l <> [] -> joinArray (txt "[") (txt ", ") l ++ txt "]" = listed l.
Proof. destruct l as [|t l]; [congruence|]. intros _. cbn [joinArray]. rewrite (commas_loop (txt ", ") l eq_refl). unfold listed. rewrite <- app_assoc. reflexivity. Qed.

(** the model with elements refines the model with texts *)
Lemma array_object J a : objText (objOfArray J a) = Ok (arrayToString J a).
Proof.
  destruct a as [l|l|l|l|l|l|l|l|l]; try reflexivity; destruct l as [|x l]; try reflexivity; cbn [objOfArray objText arrayToString];
    (cbn [map]; rewrite join_listed by discriminate; rewrite ?arrays_listed; reflexivity).
Qed.

Lemma item_lenient J o t : item_text J o t -> lenientItem J o = t.
Proof.
  intros H. destruct H as [|v other t No Ns H|q other t H|o other t N H|o other e H|o other N]; cbn [lenientItem].
  - reflexivity.
  - destruct H; try reflexivity; exfalso; [eapply Ns; reflexivity|eapply No; reflexivity].
  - cbn [ownString]. rewrite (s_toString_wden _ _ H). reflexivity.
  - destruct o; cbn in N, H |- *; try tauto; rewrite H; reflexivity.
  - destruct o; cbn in H |- *; try discriminate; rewrite H; reflexivity.
  - destruct o; cbn in N |- *; try tauto; reflexivity.
Qed.
Lemma items_lenient J l ts : Forall2 (item_text J) l ts -> map (lenientItem J) l = ts.
Proof. intros H. induction H as [|o t l ts H _ IH]; [reflexivity|]. cbn [map]. rewrite (item_lenient _ _ _ H), IH. reflexivity. Qed.

Lemma array_text_object J a t : array_text J a t -> object_text (objOfArray J a) = Ok t.
Proof.
  intros H. destruct H as [l t H|l|l|l|l|l|l|l|l ts H]; cbn [objOfArray object_text]; try reflexivity.
  - f_equal. exact (C94_base64_unique _ _ _ (encode64_ok l) H).
  - rewrite (items_lenient _ _ _ H). reflexivity.
Qed.
Lemma objText_spec o : objText o = object_text o.
Proof. destruct o as [?|?|?|?|?|l|l|?]; try reflexivity; destruct l; try reflexivity; cbn [objText object_text]; rewrite join_listed by discriminate; reflexivity. Qed.

(** %s of an array is %s of its text, in every field and with every precision *)
Theorem C94_array_text : forall J a t src q r, array_text J a t -> zlen t <= int_max ->
  arrayToString J a = t /\
  (directive src Ss q -> prints J src [traitsOf J (VObj (objOfArray J a)) r] (c_s q t)) /\
  (directive src SS q -> prints J src [traitsOf J (VObj (objOfArray J a)) r] (upper (c_s q t))).
Proof.
  intros J a t src q r Ha Hl. pose proof (array_text_object J a t Ha) as E. split.
  - assert (E1 : Ok (arrayToString J a) = Ok t) by (rewrite <- E, <- objText_spec; symmetry; apply array_object). injection E1 as E1. exact E1.
  - exact (C12_string_conversion_partial J (VObj (objOfArray J a)) t r src q (it_obj J _ t E) Hl).
Qed.
Print Assumptions C94_array_text.

(** every array has such a text, and only one *)
Theorem C94_texts_exist : forall J a, array_ok a -> (match a with AObjects l => Forall (fun o => match o with Some (v, _) => java_value v | None => True end) l | _ => True end) ->
  exists t, array_text J a t /\ forall u, array_text J a u -> u = t.
Proof.
  intros J a Ha Hv. assert (E : exists t, array_text J a t).
  { destruct a as [l|l|l|l|l|l|l|l|l]; try solve [eexists; constructor].
    - exists (encode64 l). constructor. apply encode64_ok.
    - assert (G : exists ts, Forall2 (item_text J) l ts).
      { induction Hv as [|o l Ho _ IH]; [exists []; constructor|]. destruct IH as [ts IH]; [exact I|].
        assert (X : exists t, item_text J o t).
        { destruct o as [[v other]|]; [|eexists; apply im_null].
          destruct v as [b|z|z|z|z|z|b|b|z|d|s|s|s|t|x];
            try (eexists; apply im_text; [discriminate|discriminate|constructor; exact Ho || idtac]).
          all: try (destruct Ho as [t Ho]; exists t; apply im_seq; apply den_wden; exact Ho).
          destruct x; try (eexists; apply im_array; exact I).
          all: match goal with |- context [item_text _ (Some (VObj ?o, _)) _] => destruct (object_text o) as [t|e] eqn:E; [exists t; apply im_object; [intros []|exact E]|eexists; eapply im_no_text; exact E] end. }
        destruct X as [t X]. exists (t :: ts). constructor; assumption. }
      destruct G as [ts G]. exists (listed ts). constructor. exact G. }
  destruct E as [t H]. exists t. split; [exact H|]. intros u Hu. apply array_text_object in H, Hu. congruence.
Qed.
Print Assumptions C94_texts_exist.

(** ** an array prints like its elements *)

Definition sdir : appender := Default Ss (mkCtx noFlags UNSET UNSET None).
Definition q0 : fspec := asked noFlags false 0 None.
Lemma c_s_q0 t : c_s q0 t = t.
Proof. unfold c_s, justify, q0. cbn [asked q_prec q_left q_width]. pose proof (zlen_nonneg t). cbn [f_left noFlags]. unfold spaces, rep. replace (Z.to_nat (0 - zlen t)) with 0%nat by lia. reflexivity. Qed.

Fixpoint rest_dirs (n : nat) : list appender :=
  match n with O => [] | S O => [sdir; Fixed (txt "]")] | S m => sdir :: Fixed (txt ", ") :: rest_dirs m end.
Lemma rest_format dtf n : GrammarSpec.format dtf (commas (repeat (txt "%s") (S n)) ++ txt "]") (rest_dirs (S n)).
Proof.
  assert (D : forall r ds, hd_error r <> Some (ch "{") -> GrammarSpec.format dtf r ds -> GrammarSpec.format dtf (txt "%s" ++ r) (sdir :: ds)).
  { intros r ds _ H. change (txt "%s" ++ r) with (pct :: [] ++ [] ++ [] ++ ch "s" :: [] ++ r). unfold sdir.
    apply (fmt_dir dtf [] noFlags [] UNSET [] UNSET (ch "s") Ss [] None r ds); [split; [constructor|split; [intros x []|reflexivity]]|constructor|constructor|exact (conv_self Ss)|constructor; discriminate|intros _; discriminate|exact H]. }
  assert (L : forall t r ds, t <> [] -> ~ In pct t -> (r = [] \/ hd_error r = Some pct) -> GrammarSpec.format dtf r ds -> GrammarSpec.format dtf (t ++ r) (Fixed t :: ds)) by (intros; apply fmt_lit; assumption).
  induction n as [|n IH].
  - apply D; [discriminate|]. apply (L (txt "]") []); [discriminate|vm_compute; intuition discriminate|left; reflexivity|constructor].
  - change (repeat (txt "%s") (S (S n))) with (txt "%s" :: repeat (txt "%s") (S n)). change (commas (txt "%s" :: repeat (txt "%s") (S n))) with (txt "%s" ++ txt ", " ++ commas (repeat (txt "%s") (S n))).
    rewrite <- !app_assoc. apply D; [discriminate|]. apply L; [discriminate|vm_compute; intuition discriminate| |exact IH].
    right. destruct n; reflexivity.
Qed.

Lemma rest_says J xs ts : Forall2 (fun x t => shown J Ss None q0 x (Ok t)) xs ts -> xs <> [] -> forall rest, says J (rest_dirs (length xs)) (xs ++ rest) (commas ts ++ txt "]") None.
Proof.
  assert (P : forall x t rest, shown J Ss None q0 x (Ok t) -> piece J sdir (x :: rest) (Ok (t, rest))).
  { intros x t rest H. unfold sdir. eapply pc_shown; [apply wi_none|apply pi_none|exact H]. }
  intros H. induction H as [|x t xs ts H H' IH]; intros N rest; [congruence|]. destruct H' as [|y u xs ts Hy H'].
  - cbn [length rest_dirs app commas]. eapply sy_piece; [apply P; exact H|]. change (txt "]") with (txt "]" ++ []) at 2. eapply sy_piece; [apply pc_literal|constructor].
  - change (rest_dirs (length (x :: y :: xs))) with (sdir :: Fixed (txt ", ") :: rest_dirs (length (y :: xs))). cbn [app].
    change (commas (t :: u :: ts)) with (t ++ txt ", " ++ commas (u :: ts)). rewrite <- !app_assoc.
    eapply sy_piece; [apply P; exact H|]. eapply sy_piece; [apply pc_literal|]. apply (IH ltac:(discriminate) rest).
Qed.
Lemma each_prints J xs ts rest : jdk_ok J -> Forall2 (fun x t => shown J Ss None q0 x (Ok t)) xs ts -> prints J (each (length xs)) (xs ++ rest) (listed ts).
Proof.
  intros HJ H dtf. set (ds := match xs with [] => [Fixed (txt "[]")] | _ => Fixed (txt "[") :: rest_dirs (length xs) end). exists ds.
  assert (F : GrammarSpec.format dtf (each (length xs)) ds).
  { unfold ds, each, listed. destruct H as [|x t xs ts H H']; [change (txt "[" ++ commas (repeat (txt "%s") (length (@nil traits))) ++ txt "]") with (txt "[]" ++ []); apply fmt_lit; [discriminate|vm_compute; intuition discriminate|left; reflexivity|constructor]|].
    apply fmt_lit; [discriminate|vm_compute; intuition discriminate| |apply rest_format]. right. cbn [length]. destruct (length xs); reflexivity. }
  assert (S : says J ds (xs ++ rest) (listed ts) None).
  { unfold ds, listed. destruct H as [|x t xs ts H H']; [change (txt "[" ++ commas [] ++ txt "]") with (txt "[]" ++ []); eapply sy_piece; [apply pc_literal|constructor]|].
    eapply sy_piece; [apply pc_literal|]. apply rest_says; [constructor; assumption|discriminate]. }
  exact (C74_calls_follow_the_reference J dtf _ ds _ _ None HJ F S).
Qed.

Lemma commas_bound t ts : In t ts -> zlen t <= zlen (commas ts).
Proof.
  induction ts as [|u ts IH]; [intros []|]. destruct ts as [|w ts]; [intros [-> |[]]; cbn [commas]; lia|].
  change (commas (u :: w :: ts)) with (u ++ txt ", " ++ commas (w :: ts)). rewrite !zlen_app. pose proof (zlen_nonneg (commas (w :: ts))) as Z1. pose proof (zlen_nonneg u) as Z2. change (zlen (txt ", ")) with 2.
  intros [-> |H]; [lia|]. specialize (IH H). lia.
Qed.

Lemma text_shown J v t r : (forall u, v <> VSeq u) -> is_text J v t -> zlen t <= int_max -> shown J Ss None q0 (traitsOf J v r) (Ok t).
Proof. intros N H L. rewrite <- (c_s_q0 t). change (c_s q0 t) with (in_case Ss (c_s q0 t)). apply sh_text; [reflexivity|exact N|exact H|exact L]. Qed.
Lemma item_shown J o t : plain_item o -> item_text J o t -> zlen t <= int_max -> shown J Ss None q0 (item_arg J o) (Ok t).
Proof.
  intros P H L. destruct H as [|v other t No Ns H|q other t H|o other t N H|o other e H|o other N]; cbn [item_arg].
  - change (txt "null") with (in_case Ss (c_s q0 (txt "null"))). apply sh_null_text. reflexivity.
  - apply text_shown; assumption.
  - destruct P as [u P]. assert (E : t = u) by (apply s_toString_wden in H; apply den_wden, s_toString_wden in P; congruence). subst u.
    destruct (wden_leaves _ _ H) as (ts & Hl & _).
    assert (E : in_case Ss (seq_text q0 t ts) = t) by (exact (c_s_q0 t)). rewrite <- E. apply sh_seq; [reflexivity|exact P|exact Hl].
  - apply text_shown; [discriminate|constructor; exact H|exact L].
  - destruct P as (_ & t & P & _). congruence.
  - destruct P as (P & _). tauto.
Qed.

Lemma map_shown {A} J (f : A -> value) (g : A -> list Z) l : (forall x, In x l -> is_text J (f x) (g x)) -> (forall x u, f x <> VSeq u) -> zlen (commas (map g l)) <= int_max ->
  Forall2 (fun x t => shown J Ss None q0 x (Ok t)) (map (fun x => traitsOf J (f x) (RObj [] 0)) l) (map g l).
Proof.
  intros H N L. assert (B : forall t, In t (map g l) -> zlen t <= int_max) by (intros t Ht; pose proof (commas_bound t _ Ht); lia). clear L.
  induction l as [|x l IH]; [constructor|]. cbn [map]. constructor.
  - apply text_shown; [apply N|apply H; left; reflexivity|apply B; left; reflexivity].
  - apply IH; [intros y Hy; apply H; right; exact Hy|intros t Ht; apply B; right; exact Ht].
Qed.
Lemma array_listed J a t : is_listed a -> array_ok a -> plain_elements a -> array_text J a t -> zlen t <= int_max ->
  exists ts, t = listed ts /\ Forall2 (fun x t => shown J Ss None q0 x (Ok t)) (elements J a) ts.
Proof.
  intros Hi Ha Hp H L. assert (LB : forall ts, zlen (listed ts) <= int_max -> zlen (commas ts) <= int_max) by (intros ts Hz; unfold listed in Hz; rewrite !zlen_app in Hz; change (zlen (txt "[")) with 1 in Hz; change (zlen (txt "]")) with 1 in Hz; lia).
  destruct H as [l t H|l|l|l|l|l|l|l|l ts H]; try destruct Hi; cbn [array_ok plain_elements elements] in *; eexists; (split; [reflexivity|]).
  - apply (map_shown J VBool); [intros; constructor|discriminate|apply LB, L].
  - apply (map_shown J VShort); [intros x Hx; constructor; exact (proj1 (Forall_forall _ _) Ha x Hx)|discriminate|apply LB, L].
  - apply (map_shown J VInt); [intros x Hx; constructor; exact (proj1 (Forall_forall _ _) Ha x Hx)|discriminate|apply LB, L].
  - apply (map_shown J VLong); [intros x Hx; constructor; exact (proj1 (Forall_forall _ _) Ha x Hx)|discriminate|apply LB, L].
  - apply (map_shown J VFloat); [intros; constructor|discriminate|apply LB, L].
  - apply (map_shown J VDouble); [intros; constructor|discriminate|apply LB, L].
  - assert (B : forall t, In t ts -> zlen t <= int_max) by (intros t Ht; pose proof (commas_bound t _ Ht); specialize (LB ts L); lia). clear L LB.
    induction H as [|o t l ts H _ IH]; [constructor|]. inversion Hp; subst. cbn [map]. constructor; [apply item_shown; [assumption|exact H|apply B; left; reflexivity]|].
    apply IH; [assumption|]. intros u Hu. apply B. right. exact Hu.
Qed.

(** an array of anything but bytes and characters prints as the format "[%s, %s, ..., %s]" prints its elements *)
Theorem C94_prints_like_its_elements_partial : forall J a t r, jdk_ok J -> is_listed a -> array_ok a -> plain_elements a -> array_text J a t -> zlen t <= int_max ->
  prints J (txt "%s") [traitsOf J (VObj (objOfArray J a)) r] t /\ prints J (each (length (elements J a))) (elements J a) t.
Proof.
  intros J a t r HJ Hi Ha Hp H L. split.
  - rewrite <- (c_s_q0 t). apply (C94_array_text J a t (txt "%s") q0 r H L).
    change (txt "%s") with (pct :: [] ++ [] ++ [] ++ [ch "s"]). is_dir (dir_text [] noFlags [] UNSET [] UNSET).
  - destruct (array_listed J a t Hi Ha Hp H L) as (ts & -> & F). pose proof (each_prints J _ _ [] HJ F) as P. rewrite app_nil_r in P. exact P.
Qed.
Print Assumptions C94_prints_like_its_elements_partial.

(** in particular int[] prints as its elements print with %d *)
Theorem C94_ints : forall J l r, Forall (in_range 32) l -> zlen (listed (map dec_text l)) <= int_max ->
  prints J (txt "%s") [traitsOf J (VObj (objOfArray J (AInts l))) r] (listed (map dec_text l)).
Proof.
  intros J l r Hl Hz. rewrite <- (c_s_q0 (listed _)). apply (C94_array_text J (AInts l) _ (txt "%s") q0 r (ar_ints J l) Hz).
  change (txt "%s") with (pct :: [] ++ [] ++ [] ++ [ch "s"]). is_dir (dir_text [] noFlags [] UNSET [] UNSET).
Qed.
Print Assumptions C94_ints.

(** ** what is not so *)

(** an array inside an array prints its identity, not its elements *)
Theorem C94_nested_arrays_refuted : forall J id r, jdk_ok J -> zlen id <= int_max - 2 ->
  prints J (txt "%s") [traitsOf J (VObj (objOfArray J (AObjects [Some (VObj (objOfArray J (AInts [1; 2])), id)]))) r] (txt "[" ++ id ++ txt "]") /\
  prints J (txt "[%s]") [traitsOf J (VObj (objOfArray J (AInts [1; 2]))) r] (txt "[[1, 2]]").
Proof.
  intros J id r HJ L. split.
  - rewrite <- (c_s_q0 (txt "[" ++ _)). refine (proj1 (proj2 (C94_array_text J (AObjects [_]) _ (txt "%s") q0 r _ _)) _).
    + apply (ar_objects J _ [id]). constructor; [apply im_array; exact I|constructor].
    + rewrite !zlen_app. change (zlen (txt "[")) with 1. change (zlen (txt "]")) with 1. lia.
    + change (txt "%s") with (pct :: [] ++ [] ++ [] ++ [ch "s"]). is_dir (dir_text [] noFlags [] UNSET [] UNSET).
  - refine (each_prints J [traitsOf J (VObj (objOfArray J (AInts [1; 2]))) r] [txt "[1, 2]"] [] HJ _).
    constructor; [|constructor]. apply text_shown; [discriminate|constructor; reflexivity|vm_compute; discriminate].
Qed.
Print Assumptions C94_nested_arrays_refuted.

(** %S makes the Base64 text of a byte array unreadable: different arrays print the same *)
Theorem C94_upper_case_base64_refuted : exists l m, Forall (in_range 8) l /\ Forall (in_range 8) m /\ l <> m /\
  forall J r, exists t, prints J (txt "%S") [traitsOf J (VObj (objOfArray J (ABytes l))) r] t /\ prints J (txt "%S") [traitsOf J (VObj (objOfArray J (ABytes m))) r] t.
Proof.
  exists [0; 0; 0], [104; 0; 0]. split; [repeat constructor; vm_compute; discriminate || reflexivity|]. split; [repeat constructor; vm_compute; discriminate || reflexivity|]. split; [discriminate|].
  intros J r. exists (txt "AAAA").
  assert (D : directive (txt "%S") SS q0) by (change (txt "%S") with (pct :: [] ++ [] ++ [] ++ [ch "S"]); is_dir (dir_text [] noFlags [] UNSET [] UNSET)).
  split.
  - exact (proj2 (proj2 (C94_array_text J (ABytes [0; 0; 0]) (txt "AAAA") (txt "%S") q0 r (ar_bytes J _ _ (encode64_ok [0; 0; 0])) ltac:(vm_compute; discriminate))) D).
  - exact (proj2 (proj2 (C94_array_text J (ABytes [104; 0; 0]) (txt "aAAA") (txt "%S") q0 r (ar_bytes J _ _ (encode64_ok [104; 0; 0])) ltac:(vm_compute; discriminate))) D).
Qed.
Print Assumptions C94_upper_case_base64_refuted.

Example C94_example : forall J r,
  array_text J (AInts [1; -20; 300]) (txt "[1, -20, 300]") /\ base64_of (txt "fast-printf") (txt "ZmFzdC1wcmludGY=") /\
  prints J (txt "%.4s") [traitsOf J (VObj (objOfArray J (ABools [true; false]))) r] (txt "[tru") /\
  prints J (txt "%8s") [traitsOf J (VObj (objOfArray J (AObjects [None]))) r] (txt "  [null]") /\
  each 3 = txt "[%s, %s, %s]".
Proof.
  intros J r. split; [exact (ar_ints J [1; -20; 300])|]. split; [exact (encode64_ok (txt "fast-printf"))|]. split; [|split; [|reflexivity]].
  - refine (proj1 (proj2 (C94_array_text J (ABools [true; false]) (txt "[true, false]") (txt "%.4s") (asked noFlags false 0 (Some 4)) r (ar_bools J _) ltac:(vm_compute; discriminate))) _).
    change (txt "%.4s") with (pct :: [] ++ [] ++ txt ".4" ++ [ch "s"]). is_dir (dir_text [] noFlags [] UNSET (txt ".4") 4).
  - refine (proj1 (proj2 (C94_array_text J (AObjects [None]) (txt "[null]") (txt "%8s") (asked noFlags false 8 None) r (ar_objects J _ [txt "null"] _) ltac:(vm_compute; discriminate))) _).
    + constructor; [constructor|constructor].
    + change (txt "%8s") with (pct :: [] ++ txt "8" ++ [] ++ [ch "s"]). is_dir (dir_text [] noFlags (txt "8") 8 [] UNSET).
Qed.
