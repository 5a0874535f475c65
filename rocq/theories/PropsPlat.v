(** C79: the output does not depend on the version of the JDK. *)
From Verif Require Import Base UtilsM SeqM SeqSpec SeqP MathM DecimalM GTable PlatM PropsDouble.
Open Scope Z_scope.

(** ** Proofs *)

Lemma wrap64_long x : is_long (wrap64 x).
Proof.
  unfold wrap64, wrapN, is_long, long_min, long_max. pose proof (Z.mod_pos_bound (x + 2 ^ (64 - 1)) (2 ^ 64) ltac:(lia)). lia.
Qed.
Lemma lshl_long x n : is_long (lshl x n). Proof. apply wrap64_long. Qed.

Lemma table_long : forallb (fun x => (long_min <=? x) && (x <=? long_max)) g_table = true.
Proof. vm_compute. reflexivity. Qed.
Lemma aget_long i x : aget g_table i = Ok x -> is_long x.
Proof.
  unfold aget, znth. destruct (i <? 0); [discriminate|]. destruct (nth_error g_table (Z.to_nat i)) as [y|] eqn:E; [|discriminate].
  intros H. injection H as <-. apply nth_error_In in E. pose proof table_long as T. rewrite forallb_forall in T. apply T, andb_prop in E as [A B].
  apply Z.leb_le in A, B. split; assumption.
Qed.

Lemma lor_bit_long x b : is_long x -> b = 0 \/ b = 1 -> is_long (Z.lor x b).
Proof.
  intros H [-> | ->]; [rewrite Z.lor_0_r; exact H|]. unfold is_long, long_min, long_max in *.
  destruct (Z.even x) eqn:E.
  - assert (Z.lor x 1 = x + 1) as ->.
    { apply Zeven_bool_iff, Zeven_ex in E as [k ->].
      assert (L : Z.land (2 * k) 1 = 0).
      { apply Z.bits_inj'. intros n Hn. rewrite Z.land_spec, Z.bits_0. destruct (Z.eq_dec n 0) as [->|]; [rewrite Z.testbit_even_0; reflexivity|].
        replace 1 with (2 ^ 0) by reflexivity. rewrite (Z.pow2_bits_false 0 n) by lia. apply andb_false_r. }
      rewrite (Z.add_nocarry_lxor _ _ L), (Z.lxor_lor _ _ L). reflexivity. }
    apply Zeven_bool_iff, Zeven_ex in E as [k ->]. lia.
  - assert (Z.lor x 1 = x) as ->; [|exact H]. assert (O : Z.testbit x 0 = true) by (rewrite Z.bit0_odd, <- Z.negb_even, E; reflexivity).
    apply Z.bits_inj'. intros n Hn. rewrite Z.lor_spec. destruct (Z.eq_dec n 0) as [->|]; [rewrite O; reflexivity|].
    replace 1 with (2 ^ 0) by reflexivity. rewrite (Z.pow2_bits_false 0 n) by lia. apply orb_false_r.
Qed.
Lemma top_bit x : lushr (wrap64 x) 63 = 0 \/ lushr (wrap64 x) 63 = 1.
Proof.
  unfold lushr. change (63 mod 64) with 63. set (y := wrap64 x mod 2 ^ 64). assert (H : 0 <= y < 2 ^ 64) by (apply Z.mod_pos_bound; lia).
  assert (A : 0 <= y / 2 ^ 63 < 2) by (split; [apply Z.div_pos; lia|apply Z.div_lt_upper_bound; lia]).
  assert (B : y / 2 ^ 63 = 0 \/ y / 2 ^ 63 = 1) by lia. destruct B as [-> | ->]; [left|right]; reflexivity.
Qed.
Lemma rop_long a b c : is_long (rop a b c).
Proof. unfold rop. cbv zeta. apply lor_bit_long; [apply wrap64_long|apply top_bit]. Qed.
Lemma lshr_long x n : is_long x -> is_long (lshr x n).
Proof.
  intros H. unfold lshr, is_long, long_min, long_max in *. assert (P : 1 <= 2 ^ (n mod 64)) by (pose proof (Z.mod_pos_bound n 64 ltac:(lia)); apply (Z.pow_le_mono_r 2 0); lia).
  split; [apply Z.div_le_lower_bound; nia|]. destruct (Z_le_gt_dec 0 x) as [G|G].
  - apply Z.le_trans with x; [|lia]. apply Z.div_le_upper_bound; nia.
  - assert (x / 2 ^ (n mod 64) < 0) by (apply Z.div_lt_upper_bound; lia). lia.
Qed.

Section Same.
  Variable P : platform.
  Hypothesis HP : forall x y, is_long x -> is_long y -> p_high P x y = multiplyHigh x y.

  Lemma rop_same a b c : is_long a -> is_long b -> is_long c -> rop_on P a b c = rop a b c.
  Proof. intros A B C. unfold rop_on, rop. rewrite !HP by assumption. reflexivity. Qed.
  Lemma toDecimal4_same q c dk : toDecimal4_on P q c dk = toDecimal4 q c dk.
  Proof.
    unfold toDecimal4_on, toDecimal4. cbv zeta. destruct (if negb (c =? C_MIN) || (q =? Q_MIN) then _ else _) as [cbl k].
    destruct (g1 k) as [a|e] eqn:E1; [|reflexivity]. destruct (g0 k) as [b|e] eqn:E0; [|reflexivity]. cbn [bind].
    pose proof (aget_long _ _ E1) as La. pose proof (aget_long _ _ E0) as Lb. rewrite !rop_same by (assumption || apply lshl_long).
    rewrite HP; [reflexivity| |apply lshl_long]. apply lshr_long, rop_long.
  Qed.
  Lemma toDecimal_same bits : toDecimal_on P bits = toDecimal bits.
  Proof. unfold toDecimal_on, toDecimal. cbv zeta. rewrite !toDecimal4_same. reflexivity. Qed.
  Lemma yOf_same a : yOf_on P a = yOf a.
  Proof. unfold yOf_on, yOf. rewrite HP; [reflexivity|apply lshl_long|]. unfold is_long, long_min, long_max. lia. Qed.
  Lemma append8_same m bs : append8Digits_on P m bs = append8Digits m bs.
  Proof. unfold append8Digits_on, append8Digits. rewrite yOf_same. reflexivity. Qed.
  Lemma low_same l bs : lowDigits_on P l bs = lowDigits l bs.
  Proof. unfold lowDigits_on, lowDigits. rewrite append8_same. reflexivity. Qed.
  Lemma bind_ext {A B} (r : res A) (f g : A -> res B) : (forall a, f a = g a) -> bind r f = bind r g.
  Proof. intros H. destruct r; [apply H|reflexivity]. Qed.
  Lemma toChars1_same h m l e bs : toChars1_on P h m l e bs = toChars1 h m l e bs.
  Proof.
    unfold toChars1_on, toChars1. apply bind_ext. intros b1. rewrite yOf_same. apply bind_ext. intros [y b2]. apply bind_ext. intros b3. apply bind_ext.
    intros [z b4]. apply low_same.
  Qed.
  Lemma toChars2_same h m l e bs : toChars2_on P h m l e bs = toChars2 h m l e bs.
  Proof.
    unfold toChars2_on, toChars2. do 4 (apply bind_ext; intros ?). rewrite append8_same. apply bind_ext. intros b. apply low_same.
  Qed.
  Lemma toChars3_same h m l e bs : toChars3_on P h m l e bs = toChars3 h m l e bs.
  Proof.
    unfold toChars3_on, toChars3. do 2 (apply bind_ext; intros ?). rewrite append8_same. apply bind_ext. intros b. rewrite low_same. reflexivity.
  Qed.
  Lemma toCharsText_same f e bs : toCharsText_on P f e bs = toCharsText f e bs.
  Proof.
    unfold toCharsText_on, toCharsText. apply bind_ext. intros len. apply bind_ext. intros p. cbv zeta.
    rewrite HP; [|apply wrap64_long|unfold is_long, long_min, long_max; lia]. rewrite toChars1_same, toChars2_same, toChars3_same. reflexivity.
  Qed.
  Lemma toString_same bits : d2d_toString_on P bits = d2d_toString bits.
  Proof.
    unfold d2d_toString_on, d2d_toString. rewrite toDecimal_same. apply bind_ext. intros [neg f e| | | | |]; try reflexivity.
    apply bind_ext. intros b. apply toCharsText_same.
  Qed.
End Same.

(** ** C79 *)

(** a platform is one of the three the code distinguishes *)
Definition a_jdk (P : platform) : Prop := P = jdk8 \/ P = jdk9 \/ P = jdk21.

Lemma jdk_high P : a_jdk P -> forall x y, is_long x -> is_long y -> p_high P x y = multiplyHigh x y.
Proof. intros [-> |[-> | ->]] x y Hx Hy; [exact (C27_slow_multiply_high x y Hx Hy)|reflexivity|reflexivity]. Qed.

(** the decimal of a double, and its text, are the same on all of them *)
Theorem C79_doubles : forall P bits, a_jdk P -> toDecimal_on P bits = toDecimal bits /\ d2d_toString_on P bits = d2d_toString bits.
Proof. intros P bits H. split; [apply toDecimal_same|apply toString_same]; exact (jdk_high P H). Qed.
Print Assumptions C79_doubles.

(** the sizes for which the two ways of appending agree: all that are not negative *)
Theorem C79_repeat : forall c n sb, 0 <= n -> appendRepeated c n sb = Ok (sb ++ rep c n) /\ sb_repeat c n sb = Ok (sb ++ rep c n).
Proof.
  intros c n sb N. split; [|unfold sb_repeat; destruct (Z.ltb_spec n 0); [lia|reflexivity]].
  unfold appendRepeated. destruct (Z.eqb_spec n 0) as [->|Z0]; [cbn; rewrite app_nil_r; reflexivity|]. destruct (n <? THRESHOLD); [|reflexivity].
  apply appendLoop_rep; exact N.
Qed.
Print Assumptions C79_repeat.

(** so is the text of every sequence the library can make *)
Theorem C79_repeated_characters : forall P a t sb, a_jdk P -> den_atom a t -> a_toSB_on P a sb = Ok (sb ++ t).
Proof.
  intros P a t sb H D. pose proof (a_toSB_den a t sb D) as A. destruct a as [|c n|s st n up|s st n up|act n]; try exact A.
  destruct D as [_ [N ->]]. cbn [a_toSB_on]. destruct H as [-> |[-> | ->]]; cbn [p_repeat jdk8 jdk9 jdk21]; [apply C79_repeat; exact N..].
Qed.
Print Assumptions C79_repeated_characters.


(** a negative count, which no sequence has, is where they differ: the loop writes nothing and [repeat] refuses *)
Theorem C79_negative_counts_differ : exists c n sb, appendRepeated c n sb <> sb_repeat c n sb.
Proof. exists 32, (-1), []. vm_compute. discriminate. Qed.
Print Assumptions C79_negative_counts_differ.

Example C79_example :
  d2d_toString_on jdk8 4608083138725491507 = Ok (txt "1.2") /\ a_toSB_on jdk21 (ARep 120 3) (txt "a") = Ok (txt "axxx") /\
  a_toSB_on jdk8 (ARep 120 3) (txt "a") = Ok (txt "axxx").
Proof. vm_compute. auto. Qed.
