(** A repaired serial form of FormatContext for finding 43 of DESIGN.md, in the manner of RepairM.v. Change: FormatContext (FormatContext.java:8, 16-20) writes the pattern its
    DateTimeFormatter was made from instead of the formatter, and readResolve passes what was read to [create], which checks it, and the pattern to DateTimeFormatter.ofPattern, which
    rejects some patterns with an IllegalArgumentException. A formatter that was made in another way has no pattern; such contexts, which the library does not create, are not modelled. *)
From Verif Require Import Base Digits UtilsM ContextM CtxM SerM.

Inductive itemS := JInt (n : Z) | JNull | JSet (l : list flag) | JText (t : list Z).

Definition writeCtxS (c : ctx) : list itemS :=
  [JInt (c_prec c); JInt (c_width c); match c_dtf c with None => JNull | Some p => JText p end; JSet (elements (c_flags c))].

Section WithPatterns.
  Variable valid : list Z -> bool.
  Definition patternOf (i : itemS) : res (option (list Z)) :=
    match i with JNull => Ok None | JText p => if valid p then Ok (Some p) else Err IllegalArg | _ => Err InvalidStream end.
  Definition readCtxS (l : list itemS) : res ctx :=
    match l with
    | [JInt p; JInt w; d; JSet fs] => let* d := patternOf d in ctx_create (setOf fs) w p d
    | _ => Err InvalidStream
    end.
End WithPatterns.
