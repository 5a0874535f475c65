(** Model: arguments whose class implements CharSequence outside the JDK and outside the library.
    traits/CharSequenceTraits.java:8-76, Seq.java:206-217; JDK AbstractStringBuilder.append(CharSequence). *)
From Verif Require Import Base UtilsM SeqM ContextM IntFormM FormatterM MathM DecimalM FPDecimalM DoubleM BigDecM RoundM TraitsM.

(** What the three methods the library calls answer; an [Err] is what the method throws. [cs_toString] answers [None] for null.
    Simplification: the answers do not change during a call and the methods have no effects. *)
Record cs := mkCs {
  cs_length : res Z;
  cs_charAt : Z -> res Z;
  cs_toString : res (option (list Z)) }.

(** JDK AbstractStringBuilder.append(CharSequence s) for an s that is neither a String nor a StringBuilder or StringBuffer:
    append(s, 0, s.length()), an IndexOutOfBoundsException for a negative length, then charAt(0), charAt(1), ...
    Simplification: what was appended before an exception is not recorded. *)
Fixpoint readChars (at_ : Z -> res Z) (i : Z) (n : nat) : res (list Z) :=
  match n with
  | O => Ok []
  | S n => let* c := at_ i in let* r := readChars at_ (i + 1) n in Ok (c :: r)
  end.
Definition appendCs (o : cs) (sb : list Z) : res (list Z) :=
  let* n := cs_length o in
  if n <? 0 then Err IndexOOB else let* t := readChars (cs_charAt o) 0 (Z.to_nat n) in Ok (sb ++ t).

Section WithJdk.
  Variable J : jdk.

  (** Integer.parseInt(null) and Long.parseLong(null) throw NumberFormatException, which CharSequenceTraits.java:26, 45 turn
      into PrintfException; Double.parseDouble(null) throws NullPointerException *)
  Definition csInt (bits : Z) (o : cs) : res Z :=
    let* t := cs_toString o in
    match t with None => conv | Some t => text_of_res (parseJava (j_digit J) bits t) end.
  Definition csDouble (o : cs) : res Z :=
    let* t := cs_toString o in
    match t with None => Err NullPtr | Some t => text_of_res (j_parseDouble J t) end.

  (** CharSequenceTraits.java:32-37 *)
  Definition csChar (o : cs) : res Z :=
    let* n := cs_length o in if 1 <=? n then cs_charAt o 0 else conv.

  (** CharSequenceTraits.java:63-75 for an object that is neither a String nor a Seq *)
  Definition csSeq (o : cs) : res seq :=
    let* n := cs_length o in let* a := s_lazy (appendCs o) n in Ok (Leaf a).

  (** CharSequenceTraits.java:19-75. Nothing calls asString of these traits. *)
  Definition csTraits (o : cs) (r : refslot) : traits :=
    mkTraits
      (let* v := csInt 64 o in Ok (longForm v))
      (let* v := csDouble o in Ok (doubleForm v))
      (let* t := cs_toString o in match t with None => Err NullPtr | Some t => Ok t end)
      (csInt 32 o) conv (csChar o) r (csSeq o).
End WithJdk.
