(** The methods of the package seq and the parameter checks of the library again, with the messages of the exceptions they throw. *)
From Verif Require Import Base Digits UtilsM SeqM ContextM CompilerM IntFormM FormatterM TraitsM ImplM ArgsM.

(** what getMessage() of an exception gives: a text of the library, null, or a text the JDK has chosen *)
Inductive note := Says (t : list Z) | Null | JdkText.

Inductive out (A : Type) :=
| Val (a : A)
| Throw (e : exn) (m : note).
Arguments Val {A} a.
Arguments Throw {A} e m.

Definition mbind {A B} (r : out A) (f : A -> out B) : out B := match r with Val a => f a | Throw e m => Throw e m end.
Notation "'let?' x := r 'in' k" := (mbind r (fun x => k)) (at level 200, x pattern, r at level 100, k at level 200, right associativity).

(** without the message *)
Definition forget {A} (r : out A) : res A := match r with Val a => Ok a | Throw e _ => Err e end.
(** a result whose exception, if any, is the JDK's or an action's *)
Definition jdk_text {A} (r : res A) : out A := match r with Ok a => Val a | Err e => Throw e JdkText end.

(** Preconditions.java:16-20; [args] by their texts *)
Definition m_checkArgument (b : bool) (tmpl : list Z) (args : list (list Z)) : out unit :=
  if b then Val tt else Throw IllegalArg (Says (lenientFormat tmpl args)).
(** Preconditions.java:39-43 *)
Definition m_checkLongArgument (b : bool) (tmpl : list Z) (value : Z) : out unit :=
  if b then Val tt else Throw IllegalArg (Says (lenientFormat tmpl [dec_text value])).
(** Preconditions.java:45-49 *)
Definition m_checkPositionIndex (index size : Z) : out unit :=
  if (index <? 0) || (size <=? index) then Throw IndexOOB (Says (lenientFormat (txt "index: %s, size: %s") [dec_text index; dec_text size])) else Val tt.
(** Preconditions.java:51-56 *)
Definition m_checkPositionIndexes (start end_ size : Z) : out unit :=
  if (start <? 0) || (end_ <? start) || (size <? end_)
  then Throw IndexOOB (Says (lenientFormat (txt "start: %s, end: %s, size: %s") [dec_text start; dec_text end_; dec_text size])) else Val tt.

(** String.charAt, array access *)
Definition m_jcharAt (s : list Z) (i : Z) : out Z := jdk_text (jcharAt s i).

(** LazySeq.java:74-82; an exception of the action passes *)
Definition m_buildEagerly (act : list Z -> res (list Z)) (len : Z) : out (list Z) :=
  let? sb := jdk_text (act []) in
  if len =? zlen sb then Val sb else Throw IllegalState (Says (txt "Length mismatch: expected " ++ dec_text len ++ txt " but got " ++ dec_text (zlen sb))).

(** charAt: EmptySeq.java:27-29, Repeated.java:90-93, StrView.java:44-48, CharArray.java:83-87, LazySeq.java:119-123 *)
Definition ma_charAt (a : atom) (i : Z) : out Z :=
  match a with
  | AEmpty => Throw IndexOOB (Says (dec_text i))
  | ARep c n => let? _ := m_checkPositionIndex i n in Val c
  | AStr s st n up | AArr s st n up => let? _ := m_checkPositionIndex i n in let? c := m_jcharAt s (st + i) in Val (upIf up c)
  | ALazy act n => let? _ := m_checkPositionIndex i n in let? v := m_buildEagerly act n in m_jcharAt v i
  end.

(** Seq.java:102-106 *)
Definition m_repeated (c n : Z) : out atom :=
  let? _ := m_checkArgument (1 <=? n) (txt "count < 1") [] in
  if n =? 1 then Val (s_ch c) else Val (ARep c n).
(** Seq.java:145-152 *)
Definition m_wrap3 (s : list Z) (start end_ : Z) : out atom :=
  let? _ := m_checkPositionIndexes start end_ (zlen s) in
  if start =? end_ then Val AEmpty
  else if end_ =? start + 1 then let? c := m_jcharAt s start in Val (s_ch c)
  else Val (AStr s start (end_ - start) false).
(** Seq.java:133-135 *)
Definition m_wrap2 (s : list Z) (start : Z) : out atom := m_wrap3 s start (zlen s).
(** Seq.java:164-168 *)
Definition m_forArray3 (s : list Z) (start n : Z) : out atom :=
  let? _ := m_checkPositionIndexes start (wrap32 (start + n)) (zlen s) in
  Val (AArr s start n false).
(** Seq.java:206-217 *)
Definition m_lazy (act : list Z -> res (list Z)) (n : Z) : out atom :=
  let? _ := m_checkArgument (0 <=? n) (txt "length < 0") [] in
  if n =? 0 then Val AEmpty
  else if n =? 1 then
    let? sb := m_buildEagerly act n in
    let? c := m_jcharAt sb 0 in Val (s_ch c)
  else Val (ALazy act n).

(** subSequence: EmptySeq.java:37-40, Repeated.java:96-100, StrView.java:26-36, CharArray.java:90-100, LazySeq.java:91-95 *)
Definition ma_sub (a : atom) (start end_ : Z) : out atom :=
  match a with
  | AEmpty => if (start =? 0) && (end_ =? 0) then Val AEmpty else Throw IllegalArg Null
  | ARep c n =>
      let? _ := m_checkPositionIndexes start end_ n in
      if start =? end_ then Val AEmpty else Val (ARep c (end_ - start))
  | AStr s st n up =>
      let? _ := m_checkPositionIndexes start end_ n in
      if start =? end_ then Val AEmpty
      else if end_ =? start + 1 then let? c := m_jcharAt s (st + start) in Val (s_ch (upIf up c))
      else Val (AStr s (st + start) (end_ - start) up)
  | AArr s st n up =>
      let? _ := m_checkPositionIndexes start end_ n in
      if start =? end_ then Val AEmpty
      else if end_ =? start + 1 then let? c := m_jcharAt s (st + start) in Val (s_ch (upIf up c))
      else Val (AArr s (st + start) (end_ - start) up)
  | ALazy act n =>
      let? _ := m_checkPositionIndexes start end_ n in
      let? v := m_buildEagerly act n in m_wrap3 v start end_
  end.

(** AtomicSeqIterable.java:38-51 *)
Fixpoint m_sub_loop (atoms : list atom) (start end_ : Z) (buf : list atom) : out (list atom * Z * Z) :=
  match atoms with
  | [] => Val (buf, start, end_)
  | a :: rest =>
      let sl := a_len a in
      if start <? sl then
        if end_ <=? sl then
          let? x := ma_sub a start end_ in Val (buf ++ [x], start, end_)
        else
          let? x := ma_sub a start sl in m_sub_loop rest 0 (end_ - sl) (buf ++ [x])
      else m_sub_loop rest (start - sl) (end_ - sl) buf
  end.

(** AtomicSeqIterable.java:32-57 *)
Definition m_sub (s : seq) (start end_ : Z) : out seq :=
  match s with
  | Leaf a => let? x := ma_sub a start end_ in Val (Leaf x)
  | _ =>
      let n := s_len s in
      let? _ := m_checkPositionIndexes start end_ n in
      if start =? end_ then Val (Leaf AEmpty)
      else if (start =? 0) && (end_ =? n) then Val s
      else
        let? atoms := jdk_text (s_iter s) in
        let? (buf, start', end') := m_sub_loop atoms start end_ [] in
        match buf with
        | [x] => Val (Leaf x)
        | _ => Val (Arr buf (wrap32 (end' - start')))
        end
  end.

(** AtomicSeqIterable.java:68-74 *)
Fixpoint m_charAt_loop (atoms : list atom) (i : Z) : out Z :=
  match atoms with
  | [] => Throw (OtherExn 0) (Says (txt "Unreachable"))
  | a :: rest => if i <? a_len a then ma_charAt a i else m_charAt_loop rest (i - a_len a)
  end.
(** AtomicSeqIterable.java:66-75 *)
Definition m_charAt (s : seq) (i : Z) : out Z :=
  match s with
  | Leaf a => ma_charAt a i
  | _ => let? _ := m_checkPositionIndex i (s_len s) in
         let? atoms := jdk_text (s_iter s) in m_charAt_loop atoms i
  end.

(** FastPrintfImpl.java:131-138 *)
Definition m_setCapacity (i : impl) (capacity : Z) : out impl :=
  let? _ := m_checkArgument (0 <? capacity) (txt "capacity must be positive") [] in
  Val (if im_cap i =? capacity then i else mkImpl (im_apps i) capacity (im_cached i)).
(** Args.java:134-137 *)
Definition m_createWithExpectedSize (n : Z) : out (list arg) :=
  let? _ := m_checkArgument (0 <=? n) (txt "expectedSize must be non-negative") [] in Val [].
(** Utils.java:126-131 *)
Definition m_longToInstant (v : Z) : out instant :=
  let? _ := m_checkLongArgument (0 <=? v) (txt "The value must not be negative, but was: %s") v in
  Val (if v <=? 4294967295 then ofEpochSecond v else ofEpochMilli v).
