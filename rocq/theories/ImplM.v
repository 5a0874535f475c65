(** Model of appender/DefaultAppender.java (append), appender/FixedStringAppender.java and the format loops of
    FastPrintfImpl.java. The Args iterator is the list of the remaining trait objects. *)
From Verif Require Import Base Digits UtilsM SeqM ContextM CompilerM IntFormM FormatterM MathM DecimalM FPDecimalM DoubleM
  BigDecM RoundM TraitsM.

Section WithJdk.
  Variable J : jdk.

  (** DefaultAppender.java:91-96 *)
  Definition nextInt (it : list traits) : res (Z * list traits) :=
    match it with
    | [] => Err (Printf MissingArg)
    | x :: rest => let* v := t_asInt x in Ok (v, rest)
    end.

  (** DefaultAppender.java:100-112: the context with '*' replaced; [-w] is an int negation *)
  Definition resolveCtx (c : ctx) (it : list traits) : res (ctx * list traits) :=
    let* (c, it) :=
      (if isPrecedingWidth c then
         let* (w, it) := nextInt it in
         let* c := (if 0 <=? w then setWidth c w else setWidth (addFlag c LEFT_JUSTIFY) (wrap32 (- w))) in
         Ok (c, it)
       else Ok (c, it)) in
    if isPrecedingPrecision c then
      let* (p, it) := nextInt it in
      let* c := setPrecision c (if 0 <=? p then p else UNSET) in
      Ok (c, it)
    else Ok (c, it).

  (** DefaultAppender.java:98-122 and FixedStringAppender.java:16-22: the Seq handed to [collect], and what is
      left of the iterator *)
  Definition appendOne (a : appender) (it : list traits) : res (seq * list traits) :=
    match a with
    | Fixed t => Ok (wrapS t, it)
    | Default sp c =>
        let* (c, it) := resolveCtx c it in
        match it with
        | [] => Err (Printf MissingArg)
        | x :: rest => let* s := formatterFor J sp c x in Ok (s, rest)
        end
    end.

  (** An output target after an operation: its content, and the exception that stopped it, if any *)
  Definition outcome := (list Z * option exn)%type.

  (** A for-each over atoms stops at the first one that fails; the content is then what the atoms before it
      wrote. Simplification: a LazySeq action that throws has written nothing itself. *)
  Fixpoint emitAtoms (f : atom -> list Z -> res (list Z)) (atoms : list atom) (sb : list Z) : outcome :=
    match atoms with
    | [] => (sb, None)
    | a :: rest => match f a sb with
                   | Ok sb' => emitAtoms f rest sb'
                   | Err e => (sb, Some e)
                   end
    end.

  (** seq.appendTo(builder) with the content after a failure; agrees with s_toSB and s_toApp on success *)
  Definition emitWith (f : atom -> list Z -> res (list Z)) (s : seq) (sb : list Z) : outcome :=
    match s with
    | Leaf a => emitAtoms f [a] sb
    | _ => match s_iter s with
           | Ok atoms => emitAtoms f atoms sb
           | Err e => (sb, Some e)
           end
    end.
  Definition emitSB := emitWith a_toSB.
  Definition emitApp := emitWith a_toApp.

  (** the loop [for (Appender appender : appenders) appender.append(consumer, iterator)] of
      FastPrintfImpl.java:87-89, 102-104, 115-117 *)
  Fixpoint run (emit : seq -> list Z -> outcome) (apps : list appender) (it : list traits) (sb : list Z) : outcome :=
    match apps with
    | [] => (sb, None)
    | a :: rest =>
        match appendOne a it with
        | Err e => (sb, Some e)
        | Ok (s, it') =>
            match emit s sb with
            | (sb', None) => run emit rest it' sb'
            | o => o
            end
        end
    end.

  (** FastPrintfImpl.java:80-91 without cache *)
  Definition format (apps : list appender) (it : list traits) : res (list Z) :=
    match run emitSB apps it [] with
    | (sb, None) => Ok sb
    | (_, Some e) => Err e
    end.

  (** FastPrintfImpl.java:94-119. The Appendable other than a StringBuilder is one that accepts all it is given. *)
  Definition formatInto (isStringBuilder : bool) (apps : list appender) (it : list traits) (target : list Z) : outcome :=
    run (if isStringBuilder then emitSB else emitApp) apps it target.
End WithJdk.

(** FastPrintfImpl.java:19-24 *)
Record impl := mkImpl { im_apps : list appender; im_cap : Z; im_cached : bool }.

(** FastPrintfImpl.java:68-77; Math.addExact *)
Definition impl_compile (dtf_valid : list Z -> bool) (f : list Z) : res impl :=
  let* apps := compile dtf_valid f in
  let n := Z.max (zlen f) 11 in
  let cap := n + n / 2 in
  if cap <=? int_max then Ok (mkImpl apps cap false) else Err (OtherExn 1).

(** FastPrintfImpl.java:122-128 *)
Definition enableThreadLocalCache (i : impl) : impl :=
  if im_cached i then i else mkImpl (im_apps i) (im_cap i) true.

(** FastPrintfImpl.java:131-138 *)
Definition setStringBuilderInitialCapacity (i : impl) (capacity : Z) : res impl :=
  if 0 <? capacity then
    Ok (if im_cap i =? capacity then i else mkImpl (im_apps i) capacity (im_cached i))
  else Err IllegalArg.
