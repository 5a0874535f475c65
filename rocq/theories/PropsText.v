(** C53-C54: the text of a double, and joining texts. *)
From Coq Require Import QArith.
From Verif Require Import Base Digits UtilsM MathM DecimalM TextM DecSpec FloatSpec TextSpec TextP.
Open Scope Z_scope.

(** ** C53 *)

(** toString of a finite non-zero double: a '-' if it is negative, then the text that the rules of Double.toString lay down for the
    decimal that those rules choose *)
Theorem C53_double_to_string : forall bits, is_long bits -> 0 < magnitude bits < inf_bits ->
  exists f e t, right_decimal (magnitude bits) f e /\ double_text (dec f e) t /\
    d2d_toString bits = Ok ((if bits <? 0 then txt "-" else []) ++ t).
Proof. exact toString_finite. Qed.
Print Assumptions C53_double_to_string.

Theorem C53_special_values : forall bits, is_long bits ->
  (magnitude bits = 0 -> d2d_toString bits = Ok (if bits <? 0 then txt "-0.0" else txt "0.0")) /\
  (magnitude bits = inf_bits -> d2d_toString bits = Ok (if bits <? 0 then txt "-Infinity" else txt "Infinity")) /\
  (inf_bits < magnitude bits -> d2d_toString bits = Ok (txt "NaN")).
Proof. exact toString_special. Qed.
Print Assumptions C53_special_values.

(** the rules determine the text, and the text the number *)
Theorem C53_text_is_determined : forall v t t', (0 < v)%Q -> double_text v t -> double_text v t' -> t = t'.
Proof. exact double_text_unique. Qed.
Print Assumptions C53_text_is_determined.

Theorem C53_text_determines_number : forall v v' t, double_text v t -> double_text v' t -> (v == v')%Q.
Proof. exact double_text_value. Qed.
Print Assumptions C53_text_determines_number.

(** two doubles other than NaN with the same text are the same, 0.0 and -0.0 being told apart *)
Theorem C53_injective : forall b b' t, is_long b -> is_long b' -> magnitude b <= inf_bits -> magnitude b' <= inf_bits ->
  d2d_toString b = Ok t -> d2d_toString b' = Ok t -> b = b'.
Proof. exact toString_injective. Qed.
Print Assumptions C53_injective.

(** appendTo appends that text, to a StringBuilder or StringBuffer and to any other Appendable *)
Theorem C53_append_to : forall bits sb app, d2d_appendTo bits sb app = let* t := d2d_toString bits in Ok (app ++ t).
Proof. exact appendTo_toString. Qed.
Print Assumptions C53_append_to.

(** 2^-9, 2^53, -123.5, 100, the smallest and the largest double *)
Example C53_ex1 : d2d_toString (0x3f60000000000000) = Ok (txt "0.001953125"). Proof. vm_compute. reflexivity. Qed.
Example C53_ex2 : d2d_toString (0x4340000000000000) = Ok (txt "9.007199254740992E15"). Proof. vm_compute. reflexivity. Qed.
Example C53_ex3 : d2d_toString (0x405ee00000000000 - 2 ^ 63) = Ok (txt "-123.5"). Proof. vm_compute. reflexivity. Qed.
Example C53_ex4 : d2d_toString 0x4059000000000000 = Ok (txt "100.0"). Proof. vm_compute. reflexivity. Qed.
Example C53_ex5 : d2d_toString 1 = Ok (txt "4.9E-324"). Proof. vm_compute. reflexivity. Qed.
Example C53_ex6 : d2d_toString 0x7fefffffffffffff = Ok (txt "1.7976931348623157E308"). Proof. vm_compute. reflexivity. Qed.
Example C53_ex7 : d2d_appendTo 1 false (txt "x = ") = Ok (txt "x = 4.9E-324"). Proof. vm_compute. reflexivity. Qed.

(** ** C54 *)

(** the texts with the separator between them *)
Fixpoint separated (sep : list Z) (l : list (list Z)) : list Z :=
  match l with [] => [] | [t] => t | t :: r => t ++ sep ++ separated sep r end.

(** what an element is shown as: "null", its text, or, if it has none because its toString throws, the replacement *)
Definition shown (o : element) (t : list Z) : Prop :=
  match o with ENull => t = txt "null" | EText s => t = s | EThrows _ s => t = s end.

Lemma separated_concat sep t l : separated sep (t :: l) = t ++ concat (map (fun t => sep ++ t) l).
Proof.
  revert t. induction l as [|u l IH]; intros t; [cbn; rewrite app_nil_r; reflexivity|].
  change (separated sep (t :: u :: l)) with (t ++ sep ++ separated sep (u :: l)). rewrite IH. cbn [map concat]. rewrite <- app_assoc. reflexivity.
Qed.

Lemma shown_map l ts : Forall2 shown l ts -> map lenientToString l = ts.
Proof. intros H. induction H as [|o t l ts H1 _ IH]; cbn; [reflexivity|]. f_equal; [|exact IH]. destruct o; cbn in *; congruence. Qed.

(** an array is joined without failing, whatever its elements do *)
Theorem C54_join_array : forall sb sep l ts, Forall2 shown l ts -> join sb sep (JoinArray l) = Ok (sb ++ separated sep ts).
Proof.
  intros sb sep l ts H. cbn [join]. apply shown_map in H. rewrite H. destruct ts as [|t ts]; cbn [joinArray].
  - rewrite app_nil_r. reflexivity.
  - rewrite joinArray_loop_ok, separated_concat, <- app_assoc. reflexivity.
Qed.
Print Assumptions C54_join_array.

(** an Iterable is joined in the same way if the toString of its first element does not throw *)
Theorem C54_join_iterable_partial : forall sb sep l ts, Forall2 shown l ts -> (forall x s r, l <> EThrows x s :: r) ->
  join sb sep (JoinIter l) = Ok (sb ++ separated sep ts).
Proof.
  intros sb sep l ts H N. cbn [join]. destruct H as [|o t l ts H0 H]; cbn [joinIterator]; [cbn; rewrite app_nil_r; reflexivity|].
  assert (E : appendObject sb o = Ok (sb ++ t)) by (destruct o; cbn in *; try (rewrite H0; reflexivity); exfalso; eapply N; reflexivity).
  rewrite E. cbn [bind]. rewrite joinIterator_loop_ok, joinArray_loop_ok. apply shown_map in H. rewrite H, separated_concat, <- app_assoc. reflexivity.
Qed.
Print Assumptions C54_join_iterable_partial.

(** but not otherwise: a first element that throws makes the call fail, a later one does not, and neither does one of an array *)
Theorem C54_join_iterable_refuted : exists sep x s o, join [] sep (JoinIter [EThrows x s; o]) = Err x /\
  join [] sep (JoinIter [o; EThrows x s]) = Ok (separated sep [lenientToString o; s]) /\
  join [] sep (JoinArray [EThrows x s; o]) = Ok (separated sep [s; lenientToString o]).
Proof. exists (txt ", "), IllegalState, (txt "<A@1 threw E>"), (EText (txt "b")). repeat split. Qed.
Print Assumptions C54_join_iterable_refuted.

(** null adds nothing; a single object is added by its text, or its exception gets through; [join] without a builder starts from nothing *)
Theorem C54_join_others : forall sb sep,
  join sb sep JoinNull = Ok sb /\
  (forall o t, shown o t -> (forall x s, o <> EThrows x s) -> join sb sep (JoinOther o) = Ok (sb ++ t)) /\
  (forall x s, join sb sep (JoinOther (EThrows x s)) = Err x) /\
  (forall a, joinString sep a = join [] sep a).
Proof.
  intros sb sep. split; [reflexivity|]. split; [|split; reflexivity].
  intros o t H N. destruct o; cbn in *; try (rewrite H; reflexivity). exfalso. eapply N. reflexivity.
Qed.
Print Assumptions C54_join_others.

Example C54_ex : Forall2 shown [EText (txt "a"); ENull; EThrows NullPtr (txt "<X>")] [txt "a"; txt "null"; txt "<X>"] /\
  join (txt "[") (txt ", ") (JoinIter [EText (txt "a"); ENull; EThrows NullPtr (txt "<X>")]) = Ok (txt "[a, null, <X>").
Proof. split; [repeat constructor|reflexivity]. Qed.
