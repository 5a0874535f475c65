(** Composite sequences of classes outside the library. [AtomicSeqIterable] is a public interface; its default methods do the
    work with the help of length(), iterator() and unfold(). This file models the formatter and the output loop for arguments of
    a class that has these three methods, elementCount() and toString(), and overrides no default method.

    Simplifications: the leaves are atomic sequences of the library; the methods do not change the state of the object; its
    iterator does not throw. [unfold] may do anything to the stack it is given, and may throw. The trampoline of the library
    (Concat:162-167) runs as long as unfold returns composites: fuel. *)
From Verif Require Import Base Digits UtilsM SeqM ContextM CompilerM IntFormM FormatterM MathM DecimalM FPDecimalM DoubleM
  BigDecM RoundM TraitsM ImplM.

(** a sequence of the library, an object of the class, or a [Concat] with such an object below it *)
Inductive cseq (S : Type) := CLib (s : seq) | COwn (u : S) | CCat (l r : cseq S) (len cnt : Z).
Arguments CLib {S}. Arguments COwn {S}. Arguments CCat {S}.

Record comp (S : Type) := mkComp {
  k_length : S -> Z;
  k_iter : S -> list atom;                                              (* what iterator() visits *)
  k_unfold : S -> list (cseq S) -> res (cseq S * list (cseq S));        (* unfold(stack), the stack with its top first *)
  k_count : S -> Z;                                                     (* elementCount() *)
  k_str : S -> res (list Z) }.                                          (* toString() *)
Arguments k_length {S}. Arguments k_iter {S}. Arguments k_unfold {S}. Arguments k_count {S}. Arguments k_str {S}.

Section Class.
  Context {S : Type}.
  Variable K : comp S.
  Notation cseq := (cseq S).

  (** Concat:81-83, 129-131 *)
  Definition k_len (g : cseq) : Z := match g with CLib s => s_len s | COwn u => k_length K u | CCat _ _ n _ => n end.
  Definition k_elements (g : cseq) : Z := match g with CLib s => elementCount s | COwn u => k_count K u | CCat _ _ _ k => k end.

  (** AtomicSeqIterable.java:66-75 *)
  Definition k_charAt (u : S) (i : Z) : res Z :=
    let* _ := checkPositionIndex i (k_length K u) in charAt_loop (k_iter K u) i.

  (** AtomicSeqIterable.java:32-57 *)
  Definition k_sub (u : S) (start end_ : Z) : res cseq :=
    let n := k_length K u in
    let* _ := checkPositionIndexes start end_ n in
    if start =? end_ then Ok (CLib (Leaf AEmpty))
    else if (start =? 0) && (end_ =? n) then Ok (COwn u)
    else
      let* (buf, start', end') := sub_loop (k_iter K u) start end_ [] in
      match buf with
      | [x] => Ok (CLib (Leaf x))
      | _ => Ok (CLib (Arr buf (wrap32 (end' - start'))))
      end.

  (** Concat:75-78; Seq.java:275-289 calls [concat] (Concat:65-73), here with an object of the class or an atom on the left,
      which is no Concat *)
  Definition k_concat0 (l r : cseq) : cseq :=
    CCat l r (wrap32 (k_len l + k_len r)) (wrap32 (k_elements l + k_elements r)).
  Definition k_prepend (s x : cseq) : cseq := if k_len x =? 0 then s else k_concat0 x s.
  Definition k_append (s x : cseq) : cseq := if k_len x =? 0 then s else k_concat0 s x.

  (** Concat:157-172, with the loop of lines 164-166 *)
  Fixpoint k_descend (fuel : nat) (node : cseq) (stack : list cseq) : res (atom * list cseq) :=
    match fuel with
    | O => Err OutOfFuel
    | Datatypes.S f =>
        match node with
        | CLib (Leaf a) => Ok (a, stack)
        | CLib (Cat l r _ _) => k_descend f (CLib l) (CLib r :: stack)
        | CLib (Arr ps _) => match ps with [] => Err IndexOOB | p :: rest => Ok (p, map (fun a => CLib (Leaf a)) rest ++ stack) end
        | COwn u => let* (x, st) := k_unfold K u stack in k_descend f x st
        | CCat l r _ _ => k_descend f l (r :: stack)
        end
    end.

  (** AtomicSeqIterable.java:84-102 over ConcatIterator: the next leaf, then what it appends *)
  Fixpoint k_each (fuel : nat) (f : atom -> list Z -> res (list Z)) (stack : list cseq) (sb : list Z) : outcome :=
    match stack with
    | [] => (sb, None)
    | n :: st =>
        match fuel with
        | O => (sb, Some OutOfFuel)
        | Datatypes.S g =>
            match k_descend fuel n st with
            | Err e => (sb, Some e)
            | Ok (a, st') => match f a sb with Ok sb' => k_each g f st' sb' | Err e => (sb, Some e) end
            end
        end
    end.
  Definition k_emit (fuel : nat) (f : atom -> list Z -> res (list Z)) (g : cseq) (sb : list Z) : outcome :=
    match g with
    | CLib s => emitWith f s sb
    | COwn u => emitAtoms f (k_iter K u) sb
    | CCat _ _ _ _ => k_each fuel f [g] sb
    end.

  (** AtomicSeqIterable.java:130-136; [new ArrayList(n)] throws IllegalArgumentException for a negative n *)
  Fixpoint k_ups (fuel : nat) (stack : list cseq) : res (list atom) :=
    match stack with
    | [] => Ok []
    | n :: st =>
        match fuel with
        | O => Err OutOfFuel
        | Datatypes.S g =>
            let* (a, st') := k_descend fuel n st in
            let* b := a_upper a in
            let* bs := k_ups g st' in Ok (b :: bs)
        end
    end.
  Definition k_upper (fuel : nat) (g : cseq) : res cseq :=
    match g with
    | CLib s => let* s := s_upper s in Ok (CLib s)
    | COwn u =>
        let* _ := checkArgument (0 <=? k_count K u) in
        let* ups := mapM a_upper (k_iter K u) in Ok (CLib (Arr ups (k_length K u)))
    | CCat _ _ n k =>
        let* _ := checkArgument (0 <=? k) in
        let* ups := k_ups fuel [g] in Ok (CLib (Arr ups n))
    end.

  (** SeqFormatter.java:32-44 *)
  Definition k_spaceJustify (c : ctx) (v0 : cseq) : res cseq :=
    match v0 with
    | CLib s => let* s := spaceJustify c s in Ok (CLib s)
    | _ =>
        let w := width c in
        let len := k_len v0 in
        if len <? w then
          let* pad := repeated (ch " ") (wrap32 (w - len)) in
          Ok (if hasFlag c LEFT_JUSTIFY then k_append v0 (CLib pad) else k_prepend v0 (CLib pad))
        else Ok v0
    end.

  (** SeqFormatter.java:344-351 *)
  Definition k_fmt_s (c : ctx) (u : S) : res cseq :=
    let* x := (if isPrecisionSet c && (c_prec c <? k_length K u) then k_sub u 0 (c_prec c) else Ok (COwn u)) in
    k_spaceJustify c x.

  (** ** The format loop with such arguments *)
  Variable J : jdk.

  Inductive karg := KLib (x : traits) | KOwn (u : S) (r : refslot).

  (** CharSequenceTraits.java:18-63; [asSeq] is only used by the conversions 's' and 'S', which [k_formatterFor] handles *)
  Definition k_traits (u : S) (r : refslot) : traits :=
    let x := charSeqTraits J (k_str K u) 0 (Err OutOfFuel) r in
    mkTraits (t_asIntForm x) (t_asFloatForm x) (t_asString x) (t_asInt x) (t_asTemporal x)
      (if 1 <=? k_length K u then k_charAt u 0 else conv) r (t_asSeq x).
  Definition k_plain (x : karg) : traits := match x with KLib x => x | KOwn u r => k_traits u r end.

  Definition k_formatterFor (fuel : nat) (sp : spec) (c : ctx) (x : karg) : res cseq :=
    match x, sp with
    | KOwn u r, Ss => k_fmt_s c u
    | KOwn u r, SS => let* g := k_fmt_s c u in k_upper fuel g
    | _, _ => let* s := formatterFor J sp c (k_plain x) in Ok (CLib s)
    end.

  (** DefaultAppender.java:91-112, as ImplM.resolveCtx *)
  Definition k_nextInt (it : list karg) : res (Z * list karg) :=
    match it with
    | [] => Err (Printf MissingArg)
    | x :: rest => let* v := t_asInt (k_plain x) in Ok (v, rest)
    end.
  Definition k_resolveCtx (c : ctx) (it : list karg) : res (ctx * list karg) :=
    let* (c, it) :=
      (if isPrecedingWidth c then
         let* (w, it) := k_nextInt it in
         let* c := (if 0 <=? w then setWidth c w else setWidth (addFlag c LEFT_JUSTIFY) (wrap32 (- w))) in
         Ok (c, it)
       else Ok (c, it)) in
    if isPrecedingPrecision c then
      let* (p, it) := k_nextInt it in
      let* c := setPrecision c (if 0 <=? p then p else UNSET) in
      Ok (c, it)
    else Ok (c, it).

  (** DefaultAppender.java:98-122 and FixedStringAppender.java:16-22 *)
  Definition k_appendOne (fuel : nat) (a : appender) (it : list karg) : res (cseq * list karg) :=
    match a with
    | Fixed t => Ok (CLib (wrapS t), it)
    | Default sp c =>
        let* (c, it) := k_resolveCtx c it in
        match it with
        | [] => Err (Printf MissingArg)
        | x :: rest => let* s := k_formatterFor fuel sp c x in Ok (s, rest)
        end
    end.

  (** FastPrintfImpl.java:80-119 *)
  Fixpoint k_run (fuel : nat) (isStringBuilder : bool) (apps : list appender) (it : list karg) (sb : list Z) : outcome :=
    match apps with
    | [] => (sb, None)
    | a :: rest =>
        match k_appendOne fuel a it with
        | Err e => (sb, Some e)
        | Ok (s, it') =>
            match k_emit fuel (if isStringBuilder then a_toSB else a_toApp) s sb with
            | (sb', None) => k_run fuel isStringBuilder rest it' sb'
            | o => o
            end
        end
    end.
End Class.
Arguments KLib {S}. Arguments KOwn {S}.
