(** A repaired percent sign for finding 23 of DESIGN.md, in the manner of RepairM.v. Change: DefaultAppender.append does not fetch an argument for the conversion '%',
    only those of its '*', and the sign of line 85 is justified as %c does a character. *)
From Verif Require Import Base Digits UtilsM SeqM ContextM CompilerM IntFormM FormatterM MathM DecimalM BigDecM TraitsM ImplM.

Section WithJdk.
  Variable J : jdk.

  (** appender/DefaultAppender.java:98-122 *)
  Definition appendOneP (a : appender) (it : list traits) : res (seq * list traits) :=
    match a with
    | Default Spct c => let* (c, it) := resolveCtx c it in let* s := spaceJustify c (chS (ch "%")) in Ok (s, it)
    | _ => appendOne J a it
    end.

  (** FastPrintfImpl.java:87-89, 102-104, 115-117 *)
  Fixpoint runP (emit : seq -> list Z -> outcome) (apps : list appender) (it : list traits) (sb : list Z) : outcome :=
    match apps with
    | [] => (sb, None)
    | a :: rest =>
        match appendOneP a it with
        | Err e => (sb, Some e)
        | Ok (s, it') => match emit s sb with (sb', None) => runP emit rest it' sb' | o => o end
        end
    end.

  (** FastPrintfImpl.java:80-91, 94-119 *)
  Definition formatP (apps : list appender) (it : list traits) : res (list Z) :=
    match runP emitSB apps it [] with (sb, None) => Ok sb | (_, Some e) => Err e end.
  Definition formatIntoP (isStringBuilder : bool) (apps : list appender) (it : list traits) (target : list Z) : outcome :=
    runP (if isStringBuilder then emitSB else emitApp) apps it target.
End WithJdk.
