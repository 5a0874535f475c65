(** C85: sequences that are views of an array. *)
From Verif Require Import Base Digits UtilsM SeqM SeqSpec SeqP ContextM CompilerM TraitsM ImplM FmtSpec DirSpec PropsInt MiscM MiscSpec MiscP ViewM ViewSpec ViewP.

(** whatever a client does with arrays, views, slices and upper-case versions of them, it sees what ViewSpec.v says *)
Theorem C85_histories_exact : forall l, Forall op_ok l -> runs l nothing = s_runs l empty_world.
Proof. intros l H. exact (runs_match l nothing empty_world start_match H). Qed.
Print Assumptions C85_histories_exact.

(** a view and its slices show what the array holds when they are asked, unless a slice has one character *)
Theorem C85_slices_follow_partial : forall a st n i j p c, zlen a <= int_max -> 0 <= st -> 0 <= n -> st + n <= zlen a ->
  0 <= i <= j -> j <= n -> j <> i + 1 -> 0 <= p < zlen a ->
  let a' := firstn (Z.to_nat p) a ++ c :: skipn (S (Z.to_nat p)) a in
  runs [NewArray a; Wrap 0 st n; Slice 0 i j; Upper 0; Write 0 p c; Text 0; Text 1; Text 2] nothing =
  [Done; Done; Done; Done; Done; Chars (slice a' st (st + n)); Chars (slice a' (st + i) (st + j)); Chars (map ascii_upper (slice a' st (st + n)))].
Proof.
  intros a st n i j p c Hm Hs Hn Hl Hi Hj Hne Hp a'.
  assert (La : zlen a' = zlen a).
  { unfold a', zlen. unfold zlen in Hp. rewrite <- set_nth_parts by lia. rewrite set_nth_len. reflexivity. }
  rewrite C85_histories_exact.
  2:{ repeat constructor; cbn [op_ok]; auto; unfold is_int, int_min in *; lia. }
  cbn [s_runs s_step empty_world w_arrays w_objs w_held app nth_error]. rewrite (proj2 (Z.leb_le 0 st) Hs), (proj2 (Z.leb_le 0 n) Hn), (proj2 (Z.leb_le _ _) Hl).
  cbn [andb gives w_arrays w_objs w_held app List.length found nth_error so_cells so_follows so_upper].
  rewrite places_cells, vcells_len by exact Hn. rewrite range_true by lia. rewrite (proj2 (Z.eqb_neq j (i + 1)) Hne).
  cbn [gives w_arrays w_objs w_held app List.length found nth_error so_cells so_follows so_upper andb].
  rewrite (proj2 (Z.leb_le 0 p)), (proj2 (Z.ltb_lt p (zlen a))) by lia. cbn [andb set_nth w_arrays w_objs w_held found nth_error so_cells].
  fold a'. rewrite slice_cells, upper_cells by lia.
  rewrite !(content_cells [a'] 0 _ _ _ a' eq_refl) by lia. unfold shown, array. cbn [nth]. replace (st + i + (j - i)) with (st + j) by lia. reflexivity.
Qed.
Print Assumptions C85_slices_follow_partial.

(** a slice of one character keeps the character it was cut with *)
Theorem C85_single_character_refuted : exists a i c,
  runs [NewArray a; Wrap 0 0 3; Slice 0 i (i + 1); Slice 0 i (i + 2); Write 0 i c; Text 0; Text 1; Text 2] nothing =
  [Done; Done; Done; Done; Done; Chars (txt "xbc"); Chars (txt "a"); Chars (txt "xb")].
Proof. exists (txt "abc"), 0, (ch "x"). reflexivity. Qed.
Print Assumptions C85_single_character_refuted.

(** the hash code is kept after the first time: two sequences with the same text, hence equal, have different hash codes *)
Theorem C85_hash_refuted : exists l t x y, Forall op_ok l /\ x <> y /\
  skipn 6 (runs l nothing) = [Chars t; Chars t; Number x; Number y] /\ ca_equals (AArr t 0 2 false) (AArr t 0 2 false) = Ok true.
Proof.
  exists [NewArray (txt "ab"); Wrap 0 0 2; Hash 0; Write 0 0 (ch "b"); NewArray (txt "bb"); Wrap 1 0 2; Text 0; Text 1; Hash 0; Hash 1],
    (txt "bb"), 3105, 3136.
  split; [repeat constructor; vm_compute; intuition congruence|]. split; [discriminate|]. split; reflexivity.
Qed.
Print Assumptions C85_hash_refuted.

(** without a write in between the hash code is that of the text (C41) *)
Theorem C85_hash_partial : forall a st n, zlen a <= int_max -> 0 <= st -> 0 <= n -> st + n <= zlen a ->
  runs [NewArray a; Wrap 0 st n; Hash 0; Hash 0] nothing =
  [Done; Done; Number (string_hash (slice a st (st + n))); Number (string_hash (slice a st (st + n)))].
Proof.
  intros a st n Hm Hs Hn Hl. rewrite C85_histories_exact.
  2:{ repeat constructor; cbn [op_ok]; auto; unfold is_int, int_min in *; lia. }
  cbn [s_runs s_step empty_world w_arrays w_objs w_held app nth_error]. rewrite (proj2 (Z.leb_le 0 st) Hs), (proj2 (Z.leb_le 0 n) Hn), (proj2 (Z.leb_le _ _) Hl).
  cbn [andb gives w_arrays w_objs w_held app List.length found nth_error so_cells so_follows so_upper so_asked set_nth].
  rewrite places_cells, (content_cells [a] 0 st n false a eq_refl) by assumption. unfold shown, array. cbn [nth].
  set (t := slice a st (st + n)). cbn [first_hash]. destruct (string_hash t =? 0) eqn:E; [|reflexivity]. apply Z.eqb_eq in E. rewrite E. reflexivity.
Qed.
Print Assumptions C85_hash_partial.

(** a view given as an argument prints what the array holds at the time of the call *)
Theorem C85_printed_as_it_is : forall J src q h r st n up g a rf, directive src Ss q ->
  nth_error h r = Some a -> zlen a <= int_max -> 0 <= st -> 0 <= n -> st + n <= zlen a ->
  prints J src [traitsOf J (VSeq (Leaf (as_atom h (View r st n up g)))) rf]
    (c_s q (if up then map ascii_upper (slice a st (st + n)) else slice a st (st + n))).
Proof.
  intros J src q h r st n up g a rf Hd Ha Hm Hs Hn Hl. pose proof (shown_den h r st n up a Ha Hm Hs Hn Hl) as D.
  assert (Er : array h r = a) by (apply nth_error_nth with (d := []) in Ha; exact Ha). unfold shown in D. rewrite Er in D.
  cbn [as_atom]. rewrite Er. apply C12_string_conversion_partial; [apply it_leaf; exact D|exact (proj1 D)|exact Hd].
Qed.
Print Assumptions C85_printed_as_it_is.

Example C85_example :
  runs [NewArray (txt "abcd"); Wrap 0 1 3; Upper 0; Slice 1 0 2; Write 0 1 (ch "z"); Text 0; Text 2; Slice 0 2 5; Upper 2; Text 3; Wrap 0 3 2] nothing =
  [Done; Done; Done; Done; Done; Chars (txt "zcd"); Chars (txt "ZC"); Fails; Done; Chars (txt "ZC"); Fails].
Proof. reflexivity. Qed.
