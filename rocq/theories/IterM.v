(** The format loop over the iterator of any implementation of [Args] (Args.java:53, a public interface). The iterator is an
    object of the caller's: hasNext() and next() may throw, may change its state, and next() may return null.

    Simplification: a null from next() fails as soon as it is taken. Both uses call a method on it first thing
    (DefaultAppender.java:95, and 117-118 with SeqFormatter.java:340-402 for the specifiers the compiler produces). *)
From Verif Require Import Base Digits UtilsM SeqM ContextM CompilerM IntFormM FormatterM MathM DecimalM FPDecimalM DoubleM
  BigDecM RoundM TraitsM ImplM.

Record source (St : Type) := mkSource {
  i_hasNext : St -> res bool * St;
  i_next : St -> res (option traits) * St }.
Arguments i_hasNext {St}. Arguments i_next {St}.

Section Iterator.
  Context {St : Type}.
  Variable I : source St.
  Variable J : jdk.

  (** DefaultAppender.java:92-95, 117-121 *)
  Definition i_take (st : St) : res traits * St :=
    match i_hasNext I st with
    | (Err e, st) => (Err e, st)
    | (Ok false, st) => (Err (Printf MissingArg), st)
    | (Ok true, st) =>
        match i_next I st with
        | (Err e, st) => (Err e, st)
        | (Ok None, st) => (Err NullPtr, st)
        | (Ok (Some x), st) => (Ok x, st)
        end
    end.

  (** DefaultAppender.java:91-96 *)
  Definition i_nextInt (st : St) : res Z * St :=
    match i_take st with
    | (Err e, st) => (Err e, st)
    | (Ok x, st) => (t_asInt x, st)
    end.

  (** DefaultAppender.java:100-112 *)
  Definition i_width (c : ctx) (st : St) : res ctx * St :=
    if isPrecedingWidth c then
      match i_nextInt st with
      | (Err e, st) => (Err e, st)
      | (Ok w, st) => ((if 0 <=? w then setWidth c w else setWidth (addFlag c LEFT_JUSTIFY) (wrap32 (- w))), st)
      end
    else (Ok c, st).
  Definition i_precision (c : ctx) (st : St) : res ctx * St :=
    if isPrecedingPrecision c then
      match i_nextInt st with
      | (Err e, st) => (Err e, st)
      | (Ok p, st) => (setPrecision c (if 0 <=? p then p else UNSET), st)
      end
    else (Ok c, st).

  (** DefaultAppender.java:98-122 and FixedStringAppender.java:16-22 *)
  Definition i_appendOne (a : appender) (st : St) : res seq * St :=
    match a with
    | Fixed t => (Ok (wrapS t), st)
    | Default sp c =>
        match i_width c st with
        | (Err e, st) => (Err e, st)
        | (Ok c, st) =>
            match i_precision c st with
            | (Err e, st) => (Err e, st)
            | (Ok c, st) =>
                match i_take st with
                | (Err e, st) => (Err e, st)
                | (Ok x, st) => (formatterFor J sp c x, st)
                end
            end
        end
    end.

  (** FastPrintfImpl.java:80-119: the outcome, and the iterator afterwards *)
  Fixpoint i_run (isStringBuilder : bool) (apps : list appender) (st : St) (sb : list Z) : outcome * St :=
    match apps with
    | [] => (sb, None, st)
    | a :: rest =>
        match i_appendOne a st with
        | (Err e, st) => (sb, Some e, st)
        | (Ok s, st) =>
            match (if isStringBuilder then emitSB else emitApp) s sb with
            | (sb', None) => i_run isStringBuilder rest st sb'
            | o => (o, st)
            end
        end
    end.

  (** FastPrintfImpl.java:80-119 with the call of iterator() *)
  Definition i_format (isStringBuilder : bool) (apps : list appender) (iterator : res St) (sb : list Z) : outcome :=
    match iterator with
    | Err e => (sb, Some e)
    | Ok st => fst (i_run isStringBuilder apps st sb)
    end.
End Iterator.
