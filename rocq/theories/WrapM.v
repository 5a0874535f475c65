(** A repaired DefaultAppender for findings 8 and 19 of DESIGN.md, in the manner of RepairM.v. Change: DefaultAppender.append (DefaultAppender.java:98-122) catches every RuntimeException of the
    conversion of an argument that is not a PrintfException and throws a PrintfException with it as the cause. *)
From Verif Require Import Base Digits UtilsM SeqM ContextM CompilerM FormatterM TraitsM ImplM.

Definition asPrintf (e : exn) : exn := match e with Printf _ | Syntax _ _ => e | _ => Printf BadConversion end.

Section WithJdk.
  Variable J : jdk.
  Definition appendOneW (a : appender) (it : list traits) : res (seq * list traits) :=
    match appendOne J a it with Ok x => Ok x | Err e => Err (asPrintf e) end.
  (** FastPrintfImpl.java:94-119 *)
  Fixpoint runW (emit : seq -> list Z -> outcome) (apps : list appender) (it : list traits) (sb : list Z) : outcome :=
    match apps with
    | [] => (sb, None)
    | a :: rest =>
        match appendOneW a it with
        | Err e => (sb, Some e)
        | Ok (s, it') =>
            match emit s sb with
            | (sb', None) => runW emit rest it' sb'
            | o => o
            end
        end
    end.
  Definition formatIntoW (isStringBuilder : bool) (apps : list appender) (it : list traits) (target : list Z) : outcome :=
    runW (if isStringBuilder then emitSB else emitApp) apps it target.
  Definition formatW (apps : list appender) (it : list traits) : res (list Z) :=
    match runW emitSB apps it [] with (sb, None) => Ok sb | (_, Some e) => Err e end.
End WithJdk.
