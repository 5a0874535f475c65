(** Sequences of classes outside the library. [Seq], [AtomicSeq] and [AtomicSeqIterable] are public interfaces, and
    [CharSequenceTraits.asSeq] (CharSequenceTraits.java:66-75) hands an argument that implements [Seq] to the formatter as it
    is. This file models the formatter and the output loop for such arguments.

    A class of such sequences is a type [S] of object states with the methods of [Seq]; several classes are one type with
    several constructors. Simplifications: the methods do not change the state of the object; [prepend] and [append] are not
    overridden (Seq.java:275-289); the class does not implement [AtomicSeqIterable]; a method that throws while it appends
    has appended nothing. *)
From Verif Require Import Base Digits UtilsM SeqM ContextM CompilerM IntFormM FormatterM MathM DecimalM FPDecimalM DoubleM
  BigDecM RoundM TraitsM ImplM.

(** ClassCastException *)
Definition ClassCast : exn := OtherExn 7.

(** a sequence that is not composite: one of the library's, or one of the class *)
Inductive node (S : Type) := Lib (a : atom) | Own (u : S).
Arguments Lib {S}. Arguments Own {S}.

Record cls (S : Type) := mkCls {
  u_atomic : S -> bool;                         (* the object implements AtomicSeq *)
  u_len : S -> Z;
  u_at : S -> Z -> res Z;
  u_sub : S -> Z -> Z -> res (node S);
  u_up : S -> res (node S);
  u_sb : S -> list Z -> res (list Z);           (* appendTo(StringBuilder) *)
  u_app : S -> list Z -> res (list Z);          (* appendTo(Appendable) *)
  u_count : S -> Z;                             (* elementCount *)
  u_str : S -> res (list Z) }.                  (* toString *)
Arguments u_atomic {S}. Arguments u_len {S}. Arguments u_at {S}. Arguments u_sub {S}. Arguments u_up {S}.
Arguments u_sb {S}. Arguments u_app {S}. Arguments u_count {S}. Arguments u_str {S}.

(** ** The default methods of [Seq] in terms of length() and charAt() *)
Section Defaults.
  Variable n : Z.
  Variable at_ : Z -> res Z.

  (** Seq.java:303-309 and Seq.java:319-325; the Appendable accepts everything it is given *)
  Definition d_append (sb : list Z) : res (list Z) :=
    if n =? 0 then Ok sb else appendLoop (Z.to_nat n) at_ 0 n sb.
  (** Seq.java:359-361 *)
  Definition d_isEmpty : bool := n =? 0.
  (** Seq.java:369-377 *)
  Definition d_indexOf (c : Z) : res Z := indexLoop (Z.to_nat n) at_ 0 n c.
  (** Seq.java:385-387 *)
  Definition d_startsWith (c : Z) : res bool :=
    if 0 <? n then let* x := at_ 0 in Ok (x =? c) else Ok false.
End Defaults.

Section Class.
  Context {S : Type}.
  Variable K : cls S.

  Inductive gseq :=
  | GLeaf (x : node S)
  | GCat (l r : gseq) (len cnt : Z)
  | GArr (parts : list (node S)) (len : Z).

  Definition n_len (x : node S) : Z := match x with Lib a => a_len a | Own u => u_len K u end.
  Definition n_sub (x : node S) (i j : Z) : res (node S) :=
    match x with Lib a => let* b := a_sub a i j in Ok (Lib b) | Own u => u_sub K u i j end.
  Definition n_up (x : node S) : res (node S) :=
    match x with Lib a => let* b := a_upper a in Ok (Lib b) | Own u => u_up K u end.
  Definition n_sb (x : node S) (sb : list Z) : res (list Z) :=
    match x with Lib a => a_toSB a sb | Own u => u_sb K u sb end.
  Definition n_app (x : node S) (sb : list Z) : res (list Z) :=
    match x with Lib a => a_toApp a sb | Own u => u_app K u sb end.

  (** Concat:81-83, SeqArray:40-42 *)
  Definition g_len (g : gseq) : Z := match g with GLeaf x => n_len x | GCat _ _ n _ => n | GArr _ n => n end.
  (** AtomicSeq:12-14, Concat:129-131, SeqArray:95-97 *)
  Definition g_count (g : gseq) : Z :=
    match g with
    | GLeaf (Lib _) => 1
    | GLeaf (Own u) => u_count K u
    | GCat _ _ _ k => k
    | GArr ps _ => zlen ps
    end.

  (** Concat:75-78 *)
  Definition g_concat0 (l r : gseq) : gseq :=
    GCat l r (wrap32 (g_len l + g_len r)) (wrap32 (g_count l + g_count r)).
  (** Concat:65-73 *)
  Definition g_concat (l r : gseq) : gseq :=
    match l with
    | GCat ll lr _ _ => g_concat0 ll (g_concat0 lr r)
    | _ => g_concat0 l r
    end.
  (** Seq.java:275-278, EmptySeq:12-14 *)
  Definition g_prepend (s x : gseq) : gseq :=
    match s with
    | GLeaf (Lib AEmpty) => x
    | _ => if g_len x =? 0 then s else g_concat x s
    end.
  (** Seq.java:286-289, EmptySeq:17-19 *)
  Definition g_append (s x : gseq) : gseq :=
    match s with
    | GLeaf (Lib AEmpty) => x
    | _ => if g_len x =? 0 then s else g_concat s x
    end.

  (** what [ConcatIterator.next] returns for the next leaf: the cast of Concat:171 *)
  Definition as_atomic (x : node S) : res (node S) :=
    match x with
    | Lib a => Ok (Lib a)
    | Own u => if u_atomic K u then Ok (Own u) else Err ClassCast
    end.

  (** the leaves in the order of the traversal of Concat:157-172 (SeqM.descend, SeqM.drain, proved to be left to right in
      SeqP.v) *)
  Fixpoint g_leaves (g : gseq) : list (node S) :=
    match g with
    | GLeaf x => [x]
    | GCat l r _ _ => g_leaves l ++ g_leaves r
    | GArr ps _ => ps
    end.

  (** AtomicSeqIterable.java:84-102: a for-each over the leaves, each cast before it is used; a SeqArray holds AtomicSeqs *)
  Fixpoint g_each (f : node S -> list Z -> res (list Z)) (cast : bool) (xs : list (node S)) (sb : list Z) : outcome :=
    match xs with
    | [] => (sb, None)
    | x :: rest =>
        match (if cast then as_atomic x else Ok x) with
        | Err e => (sb, Some e)
        | Ok y => match f y sb with
                  | Ok sb' => g_each f cast rest sb'
                  | Err e => (sb, Some e)
                  end
        end
    end.
  Definition g_emit (f : node S -> list Z -> res (list Z)) (g : gseq) (sb : list Z) : outcome :=
    match g with
    | GLeaf x => g_each f false [x] sb
    | _ => g_each f true (g_leaves g) sb
    end.

  (** AtomicSeqIterable.java:130-136, SeqArray:51-57; [upperCase] of an AtomicSeq is an AtomicSeq; [new ArrayList(n)] throws
      IllegalArgumentException for a negative n *)
  Fixpoint up_all (xs : list (node S)) : res (list (node S)) :=
    match xs with
    | [] => Ok []
    | x :: rest => let* y := as_atomic x in let* z := n_up y in let* zs := up_all rest in Ok (z :: zs)
    end.
  Definition g_upper (g : gseq) : res gseq :=
    match g with
    | GLeaf x => let* y := n_up x in Ok (GLeaf y)
    | GCat _ _ n k =>
        let* _ := checkArgument (0 <=? k) in
        let* ys := up_all (g_leaves g) in Ok (GArr ys n)
    | GArr ps n => let* ys := up_all ps in Ok (GArr ys n)
    end.

  (** SeqFormatter.java:32-44 *)
  Definition g_spaceJustify (c : ctx) (v0 : gseq) : res gseq :=
    let w := width c in
    let len := g_len v0 in
    if len <? w then
      let* pad := s_repeated (ch " ") (wrap32 (w - len)) in
      Ok (if hasFlag c LEFT_JUSTIFY then g_append v0 (GLeaf (Lib pad)) else g_prepend v0 (GLeaf (Lib pad)))
    else Ok v0.

  (** SeqFormatter.java:344-351 *)
  Definition g_fmt_s (c : ctx) (x : node S) : res gseq :=
    let* x := (if isPrecisionSet c && (c_prec c <? n_len x) then n_sub x 0 (c_prec c) else Ok x) in
    g_spaceJustify c (GLeaf x).

  (** ** The format loop with such arguments *)
  Variable J : jdk.

  (** an argument: one the library's own classes represent, or a sequence of the class, with its reference slot *)
  Inductive uarg := Lib1 (x : traits) | Own1 (u : S) (r : refslot).

  (** CharSequenceTraits.java:18-63; [asSeq] is only used by the conversions 's' and 'S', which [u_formatterFor] handles *)
  Definition u_traits (u : S) (r : refslot) : traits :=
    let x := charSeqTraits J (u_str K u) 0 (Err OutOfFuel) r in
    mkTraits (t_asIntForm x) (t_asFloatForm x) (t_asString x) (t_asInt x) (t_asTemporal x)
      (if 1 <=? u_len K u then u_at K u 0 else conv) r (t_asSeq x).
  Definition plain (x : uarg) : traits := match x with Lib1 x => x | Own1 u r => u_traits u r end.

  (** what a directive hands to [collect] *)
  Inductive piece := PLib (s : seq) | POwn (g : gseq).

  Definition u_formatterFor (sp : spec) (c : ctx) (x : uarg) : res piece :=
    match x, sp with
    | Own1 u r, Ss => let* g := g_fmt_s c (Own u) in Ok (POwn g)
    | Own1 u r, SS => let* g := g_fmt_s c (Own u) in let* g := g_upper g in Ok (POwn g)
    | _, _ => let* s := formatterFor J sp c (plain x) in Ok (PLib s)
    end.

  (** DefaultAppender.java:91-112, as ImplM.resolveCtx *)
  Definition u_nextInt (it : list uarg) : res (Z * list uarg) :=
    match it with
    | [] => Err (Printf MissingArg)
    | x :: rest => let* v := t_asInt (plain x) in Ok (v, rest)
    end.
  Definition u_resolveCtx (c : ctx) (it : list uarg) : res (ctx * list uarg) :=
    let* (c, it) :=
      (if isPrecedingWidth c then
         let* (w, it) := u_nextInt it in
         let* c := (if 0 <=? w then setWidth c w else setWidth (addFlag c LEFT_JUSTIFY) (wrap32 (- w))) in
         Ok (c, it)
       else Ok (c, it)) in
    if isPrecedingPrecision c then
      let* (p, it) := u_nextInt it in
      let* c := setPrecision c (if 0 <=? p then p else UNSET) in
      Ok (c, it)
    else Ok (c, it).

  (** DefaultAppender.java:98-122 and FixedStringAppender.java:16-22 *)
  Definition u_appendOne (a : appender) (it : list uarg) : res (piece * list uarg) :=
    match a with
    | Fixed t => Ok (PLib (wrapS t), it)
    | Default sp c =>
        let* (c, it) := u_resolveCtx c it in
        match it with
        | [] => Err (Printf MissingArg)
        | x :: rest => let* s := u_formatterFor sp c x in Ok (s, rest)
        end
    end.

  (** seq.appendTo(builder), for a StringBuilder or another Appendable *)
  Definition u_emit (isStringBuilder : bool) (p : piece) (sb : list Z) : outcome :=
    match p with
    | PLib s => (if isStringBuilder then emitSB else emitApp) s sb
    | POwn g => g_emit (if isStringBuilder then n_sb else n_app) g sb
    end.

  (** FastPrintfImpl.java:80-119 *)
  Fixpoint u_run (isStringBuilder : bool) (apps : list appender) (it : list uarg) (sb : list Z) : outcome :=
    match apps with
    | [] => (sb, None)
    | a :: rest =>
        match u_appendOne a it with
        | Err e => (sb, Some e)
        | Ok (s, it') =>
            match u_emit isStringBuilder s sb with
            | (sb', None) => u_run isStringBuilder rest it' sb'
            | o => o
            end
        end
    end.
End Class.
Arguments GLeaf {S}. Arguments GCat {S}. Arguments GArr {S}.
Arguments Lib1 {S}. Arguments Own1 {S}.
