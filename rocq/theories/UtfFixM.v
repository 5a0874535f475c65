(** A repair of %s, %S and %c of appender/SeqFormatter.java that never separates the two halves of a surrogate pair. Not code of the repository. *)
From Verif Require Import Base Digits UtilsM SeqM ContextM CompilerM IntFormM FormatterM MathM DecimalM FPDecimalM DoubleM
  BigDecM RoundM TraitsM ImplM.

(** Character.isHighSurrogate, isLowSurrogate, isSurrogate *)
Definition isHigh (c : Z) : bool := (55296 <=? c) && (c <=? 56319).
Definition isLow (c : Z) : bool := (56320 <=? c) && (c <=? 57343).
Definition isSurrogate (c : Z) : bool := (55296 <=? c) && (c <=? 57343).

(** where to cut instead of at [p], which is less than the length: one character earlier inside a pair *)
Definition cutAt (s : seq) (p : Z) : res Z :=
  if 0 <? p then
    let* a := s_charAt s (p - 1) in
    let* b := s_charAt s p in
    Ok (if isHigh a && isLow b then p - 1 else p)
  else Ok p.

(** SeqFormatter.java:344-351 with the other cut *)
Definition u_s (c : ctx) (s : seq) : res seq :=
  let* s := (if isPrecisionSet c && (c_prec c <? s_len s) then let* p := cutAt s (c_prec c) in s_sub s 0 p else Ok s) in
  spaceJustify c s.

(** what %c shows of a surrogate [v]: the pair the text of the argument starts with, or U+FFFD. In Java this is for a CharSequence, whose asSeq does not
    throw; any failure here means no pair. *)
Definition wholeChar (v : Z) (s : res seq) : list Z :=
  match s with
  | Ok s => if 2 <=? s_len s then
              match s_charAt s 0, s_charAt s 1 with
              | Ok a, Ok b => if (a =? v) && (isHigh a && isLow b) then [a; b] else [65533]
              | _, _ => [65533]
              end
            else [65533]
  | Err _ => [65533]
  end.

(** SeqFormatter.java:340-342 *)
Definition u_c (c : ctx) (x : traits) : res seq :=
  let* v := t_asChar x in
  if isSurrogate v then spaceJustify c (wrapS (wholeChar v (t_asSeq x))) else fmt_c c v.

Section WithJdk.
  Variable J : jdk.

  (** TraitsM.formatterFor with these *)
  Definition formatterForU (sp : spec) (c : ctx) (x : traits) : res seq :=
    match sp with
    | Ss => let* s := t_asSeq x in u_s c s
    | SS => upperOf (let* s := t_asSeq x in u_s c s)
    | Sc => u_c c x
    | _ => formatterFor J sp c x
    end.

  (** ImplM.appendOne, run, format and formatInto with this *)
  Definition appendOneU (a : appender) (it : list traits) : res (seq * list traits) :=
    match a with
    | Fixed t => Ok (wrapS t, it)
    | Default sp c =>
        let* (c, it) := resolveCtx c it in
        match it with
        | [] => Err (Printf MissingArg)
        | x :: rest => let* s := formatterForU sp c x in Ok (s, rest)
        end
    end.
  Fixpoint runU (emit : seq -> list Z -> outcome) (apps : list appender) (it : list traits) (sb : list Z) : outcome :=
    match apps with
    | [] => (sb, None)
    | a :: rest =>
        match appendOneU a it with
        | Err e => (sb, Some e)
        | Ok (s, it') =>
            match emit s sb with
            | (sb', None) => runU emit rest it' sb'
            | o => o
            end
        end
    end.
  Definition formatU (apps : list appender) (it : list traits) : res (list Z) :=
    match runU emitSB apps it [] with
    | (sb, None) => Ok sb
    | (_, Some e) => Err e
    end.
  Definition formatIntoU (isStringBuilder : bool) (apps : list appender) (it : list traits) (target : list Z) : outcome :=
    runU (if isStringBuilder then emitSB else emitApp) apps it target.
End WithJdk.
