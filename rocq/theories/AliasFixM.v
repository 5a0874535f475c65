(** A repaired %s of the target of a call for finding 35 of DESIGN.md, in the manner of RepairM.v. Change: CharSequenceTraits.asSeq (CharSequenceTraits.java:68-76) copies the
    text at once, Seq.wrap(value.toString()), instead of handing out a LazySeq that reads it when it is written. *)
From Verif Require Import Base Digits UtilsM SeqM ContextM CompilerM IntFormM FormatterM MathM DecimalM BigDecM TraitsM ImplM AliasM.

Section WithJdk.
  Variable J : jdk.

  (** the trait object of a CharSequence other than String and Seq that holds [s] *)
  Definition copyingTraits (s : list Z) (r : refslot) : traits := charSeqTraits J (Ok s) (zlen s) (seqOfString (Ok s)) r.

  (** as [now] of AliasM.v *)
  Definition nowC (sb : list Z) (x : targ) : traits := match x with Other t => t | Itself r => copyingTraits sb r end.

  (** FastPrintfImpl.java:102-104, 115-117; no directive reads the target while it is written *)
  Fixpoint runAliasedC (isStringBuilder : bool) (apps : list appender) (it : list targ) (sb : list Z) : outcome :=
    match apps with
    | [] => (sb, None)
    | a :: rest =>
        match appendOne J a (map (nowC sb) it) with
        | Err e => (sb, Some e)
        | Ok (s, rem) =>
            match (if isStringBuilder then emitSB else emitApp) s sb with
            | (sb', None) => runAliasedC isStringBuilder rest (skipn (List.length it - List.length rem) it) sb'
            | o => o
            end
        end
    end.
End WithJdk.
