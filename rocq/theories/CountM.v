(** The capacities that composite sequences pass to the collections they fill. [new ArrayList(n)] throws an
    IllegalArgumentException and [new StringBuilder(n)] a NegativeArraySizeException when n is negative; the length and the
    number of leaves a [Concat] records are ints that wrap around. SeqM.v and the files built on it leave these two checks out;
    this file adds them. *)
From Verif Require Import Base Digits UtilsM SeqM ContextM CompilerM IntFormM FormatterM MathM DecimalM FPDecimalM DoubleM
  BigDecM RoundM TraitsM ImplM.

(** NegativeArraySizeException *)
Definition NegSize : exn := OtherExn 2.

(** AtomicSeqIterable.java:130-136; SeqArray.java:51-57 and the atomic sequences need no capacity *)
Definition c_upper (s : seq) : res seq :=
  match s with
  | Cat _ _ _ k => let* _ := checkArgument (0 <=? k) in s_upper s
  | _ => s_upper s
  end.

(** Concat.java:86-90, SeqArray.java:70-75 *)
Definition c_toString (s : seq) : res (list Z) :=
  match s with
  | Leaf _ => s_toString s
  | Cat _ _ n _ => if n <? 0 then Err NegSize else s_toString s
  | Arr _ n => if n <? 0 then Err NegSize else s_toString s
  end.

Section WithJdk.
  Variable J : jdk.

  (** CharSequenceTraits.java: all conversions of a Seq but asSeq, asChar and asObject start with toString *)
  Definition c_traitsOf (v : value) (r : refslot) : traits :=
    match v with
    | VSeq q => charSeqTraits J (c_toString q) (s_len q) (Ok q) r
    | _ => traitsOf J v r
    end.

  (** DefaultAppender.java:26-89: the conversions in capitals are upperCase() of the others *)
  Definition lower (sp : spec) : option spec :=
    match sp with
    | SX => Some Sx | SF => Some Sf | SE => Some Se | SG => Some Sg | SA => Some Sa | SS => Some Ss | ST => Some St
    | _ => None
    end.
  Definition c_formatterFor (sp : spec) (c : ctx) (x : traits) : res seq :=
    match lower sp with
    | Some l => let* s := formatterFor J l c x in c_upper s
    | None => formatterFor J sp c x
    end.

  (** DefaultAppender.java:98-122, FixedStringAppender.java:16-22 *)
  Definition c_appendOne (a : appender) (it : list traits) : res (seq * list traits) :=
    match a with
    | Fixed t => Ok (wrapS t, it)
    | Default sp c =>
        let* (c, it) := resolveCtx c it in
        match it with
        | [] => Err (Printf MissingArg)
        | x :: rest => let* s := c_formatterFor sp c x in Ok (s, rest)
        end
    end.

  (** FastPrintfImpl.java:94-119 *)
  Fixpoint c_run (emit : seq -> list Z -> outcome) (apps : list appender) (it : list traits) (sb : list Z) : outcome :=
    match apps with
    | [] => (sb, None)
    | a :: rest =>
        match c_appendOne a it with
        | Err e => (sb, Some e)
        | Ok (s, it') =>
            match emit s sb with
            | (sb', None) => c_run emit rest it' sb'
            | o => o
            end
        end
    end.
  Definition c_formatInto (isStringBuilder : bool) (apps : list appender) (it : list traits) (target : list Z) : outcome :=
    c_run (if isStringBuilder then emitSB else emitApp) apps it target.
End WithJdk.
