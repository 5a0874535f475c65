(** Model of FastPrintfImpl.format(T, Args) (FastPrintfImpl.java:94-119) when the target is also an argument: a StringBuilder, or
    another Appendable that is a CharSequence, such as a StringBuffer. Its CharSequenceTraits read it anew for every directive. *)
From Verif Require Import Base Digits UtilsM SeqM ContextM CompilerM IntFormM FormatterM MathM DecimalM FPDecimalM DoubleM
  BigDecM RoundM TraitsM ImplM.

(** an argument: any other object, or the target *)
Inductive targ := Other (x : traits) | Itself (r : refslot).

Section WithJdk.
  Variable J : jdk.

  (** the trait object while the target holds [sb]; the conversions of CharSequenceTraits.java:24-61 read it at once, asSeq
      (CharSequenceTraits.java:68-76) only takes its length and, for two or more characters, leaves the rest to a LazySeq *)
  Definition now (sb : list Z) (x : targ) : traits :=
    match x with Other t => t | Itself r => traitsOf J (VChars sb) r end.

  (** appendTo of an atom of a Seq made by %s of the target. LazySeq.java:155-159 runs the action on the target, which
      appends the target to itself (CharSequenceTraits.java:63-65); for another Appendable, LazySeq.java:143-145 builds the text first
      and compares it with the announced length. *)
  Definition a_toItself (isStringBuilder : bool) (a : atom) (sb : list Z) : res (list Z) :=
    match a with
    | ALazy _ n => if isStringBuilder then Ok (sb ++ sb)
                   else if n =? zlen sb then Ok (sb ++ sb) else Err IllegalState
    | _ => if isStringBuilder then a_toSB a sb else a_toApp a sb
    end.

  (** %S has read the text before anything is written (LazySeq.java:98-100), so have all other conversions *)
  Definition defers (a : appender) (last : option targ) : bool :=
    match a, last with Default Ss _, Some (Itself _) => true | _, _ => false end.

  (** the loops of FastPrintfImpl.java:102-104, 115-117 *)
  Fixpoint runAliased (isStringBuilder : bool) (apps : list appender) (it : list targ) (sb : list Z) : outcome :=
    match apps with
    | [] => (sb, None)
    | a :: rest =>
        match appendOne J a (map (now sb) it) with
        | Err e => (sb, Some e)
        | Ok (s, rem) =>
            let used := (List.length it - List.length rem)%nat in
            let emit := if defers a (nth_error it (used - 1)) then emitWith (a_toItself isStringBuilder)
                        else if isStringBuilder then emitSB else emitApp in
            match emit s sb with
            | (sb', None) => runAliased isStringBuilder rest (skipn used it) sb'
            | o => o
            end
        end
    end.
End WithJdk.
