(** The action of a LazySeq may throw when it has written a part of its text (LazySeq.java:154-159, 74-82). ImplM.v treats it as
    having written nothing; here [left act sb] is what a StringBuilder with content [sb] holds after [act] has thrown on it. It is
    visible only when the action runs on the builder of the caller: LazySeq.appendTo(StringBuilder); everything else runs it on a
    builder of its own, which is lost. *)
From Verif Require Import Base Digits UtilsM SeqM ContextM CompilerM IntFormM FormatterM MathM DecimalM FPDecimalM DoubleM
  BigDecM RoundM TraitsM ImplM.

Section Left.
  Variable left : (list Z -> res (list Z)) -> list Z -> list Z.

  Definition leftBy (a : atom) (sb : list Z) : list Z := match a with ALazy act _ => left act sb | _ => sb end.

  (** AtomicSeqIterable.java:97-102 *)
  Fixpoint emitAtomsL (atoms : list atom) (sb : list Z) : outcome :=
    match atoms with
    | [] => (sb, None)
    | a :: rest => match a_toSB a sb with
                   | Ok sb' => emitAtomsL rest sb'
                   | Err e => (leftBy a sb, Some e)
                   end
    end.
  Definition emitL (s : seq) (sb : list Z) : outcome :=
    match s with
    | Leaf a => emitAtomsL [a] sb
    | _ => match s_iter s with
           | Ok atoms => emitAtomsL atoms sb
           | Err e => (sb, Some e)
           end
    end.
  (** FastPrintfImpl.java:94-119 *)
  Definition formatIntoL (J : jdk) (isStringBuilder : bool) (apps : list appender) (it : list traits) (target : list Z) : outcome :=
    run J (if isStringBuilder then emitL else emitApp) apps it target.
End Left.
