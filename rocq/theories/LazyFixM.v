(** A repaired LazySeq for findings 17 and 45 of DESIGN.md, in the manner of RepairM.v. Change: LazySeq.appendTo(StringBuilder) (LazySeq.java:155-159) appends the cached
    string, whose length has been compared with the announced one, as appendTo(Appendable) does, instead of handing the builder to the action. *)
From Verif Require Import Base Digits UtilsM SeqM ContextM CompilerM IntFormM FormatterM MathM DecimalM BigDecM TraitsM ImplM.

Definition a_toSBZ (a : atom) (sb : list Z) : res (list Z) :=
  match a with
  | ALazy act n => let* v := getCachedString act n in Ok (sb ++ v)
  | _ => a_toSB a sb
  end.
Definition emitSBZ := emitWith a_toSBZ.

(** FastPrintfImpl.java:80-91, 94-119 *)
Definition formatIntoZ (J : jdk) (isStringBuilder : bool) (apps : list appender) (it : list traits) (target : list Z) : outcome :=
  run J (if isStringBuilder then emitSBZ else emitApp) apps it target.
Definition formatZ (J : jdk) (apps : list appender) (it : list traits) : res (list Z) :=
  match run J emitSBZ apps it [] with (sb, None) => Ok sb | (_, Some e) => Err e end.
