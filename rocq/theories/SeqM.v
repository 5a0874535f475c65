(** Model of the package seq: character sequences as ropes.

    Simplifications: [StringBuilder.ensureCapacity] calls have no observable effect and are omitted;
    a [char[]] or [String] backing a view is its (immutable) content; the [Repeated] single-character
    cache (Repeated.java:13-20,53-58) is object identity only and omitted; the field [str] caching the
    text of a [LazySeq] is modelled separately in ConcM.v (here the action is simply run). *)
From Verif Require Import Base Digits UtilsM.

(** AtomicSeq implementations.
    EmptySeq.java; Repeated.java:22-28; StrView.java:9-23; CharArray.java:10-22; LazySeq.java:43-63.
    The action of a [LazySeq] transforms the content of the StringBuilder it is given, or throws. *)
Inductive atom :=
| AEmpty
| ARep (c count : Z)
| AStr (s : list Z) (start len : Z) (up : bool)
| AArr (a : list Z) (start len : Z) (up : bool)
| ALazy (act : list Z -> res (list Z)) (len : Z).

(** Seq implementations: atoms, Concat.java:41-51, SeqArray.java:25-37. *)
Inductive seq :=
| Leaf (a : atom)
| Cat (l r : seq) (len cnt : Z)
| Arr (parts : list atom) (len : Z).

(** Seq.java:29 *)
Definition NOT_FOUND : Z := -1.
(** Seq.java:83 *)
Definition THRESHOLD : Z := 16.

(** String.charAt / array access *)
Definition jcharAt (s : list Z) (i : Z) : res Z :=
  match znth s i with Some c => Ok c | None => Err IndexOOB end.

Definition upIf (up : bool) (c : Z) : Z := if up then toUpperCase c else c.

(** length(): EmptySeq:22, Repeated:80, StrView:39, CharArray:78, LazySeq:109 *)
Definition a_len (a : atom) : Z :=
  match a with
  | AEmpty => 0
  | ARep _ n => n
  | AStr _ _ n _ => n
  | AArr _ _ n _ => n
  | ALazy _ n => n
  end.

(** Seq.java:359-361; overridden consistently in EmptySeq:54, Repeated:85, CharArray:177 *)
Definition a_isEmpty (a : atom) : bool := a_len a =? 0.

(** LazySeq.java:74-82 *)
Definition buildEagerly (act : list Z -> res (list Z)) (len : Z) : res (list Z) :=
  let* sb := act [] in
  if len =? zlen sb then Ok sb else Err IllegalState.

(** LazySeq.java:167-174, see the header *)
Definition getCachedString (act : list Z -> res (list Z)) (len : Z) : res (list Z) :=
  buildEagerly act len.

(** EmptySeq:27-29, Repeated:90-93, StrView:44-48, CharArray:83-87, LazySeq:119-123 *)
Definition a_charAt (a : atom) (i : Z) : res Z :=
  match a with
  | AEmpty => Err IndexOOB
  | ARep c n => let* _ := checkPositionIndex i n in Ok c
  | AStr s st n up =>
      let* _ := checkPositionIndex i n in
      let* c := jcharAt s (st + i) in Ok (upIf up c)
  | AArr s st n up =>
      let* _ := checkPositionIndex i n in
      let* c := jcharAt s (st + i) in Ok (upIf up c)
  | ALazy act n =>
      let* _ := checkPositionIndex i n in
      let* v := getCachedString act n in jcharAt v i
  end.

(** Seq.java:91-93, Repeated.java:53-58 *)
Definition s_ch (c : Z) : atom := ARep c 1.

(** Seq.java:102-106 *)
Definition s_repeated (c n : Z) : res atom :=
  let* _ := checkArgument (1 <=? n) in
  if n =? 1 then Ok (s_ch c) else Ok (ARep c n).

(** Seq.java:116-124 *)
Definition s_wrap (s : list Z) : atom :=
  let n := zlen s in
  if 0 <? n then
    match s with
    | [c] => s_ch c
    | _ => AStr s 0 n false
    end
  else AEmpty.

(** Seq.java:145-152 *)
Definition s_wrap3 (s : list Z) (start end_ : Z) : res atom :=
  let* _ := checkPositionIndexes start end_ (zlen s) in
  if start =? end_ then Ok AEmpty
  else if end_ =? start + 1 then let* c := jcharAt s start in Ok (s_ch c)
  else Ok (AStr s start (end_ - start) false).

(** Seq.java:133-135 *)
Definition s_wrap2 (s : list Z) (start : Z) : res atom := s_wrap3 s start (zlen s).

(** Seq.java:164-168 ([start + length] is an int addition), CharArray.java:36-38 *)
Definition s_forArray3 (s : list Z) (start n : Z) : res atom :=
  let* _ := checkPositionIndexes start (wrap32 (start + n)) (zlen s) in
  Ok (AArr s start n false).

(** Seq.java:178-181 *)
Definition s_forArray (s : list Z) : atom := AArr s 0 (zlen s) false.

(** Seq.java:206-217 *)
Definition s_lazy (act : list Z -> res (list Z)) (n : Z) : res atom :=
  let* _ := checkArgument (0 <=? n) in
  if n =? 0 then Ok AEmpty
  else if n =? 1 then
    let* sb := buildEagerly act n in
    let* c := jcharAt sb 0 in Ok (s_ch c)
  else Ok (ALazy act n).

(** EmptySeq:37-40, Repeated:96-100, StrView:26-36, CharArray:90-100, LazySeq:91-95 *)
Definition a_sub (a : atom) (start end_ : Z) : res atom :=
  match a with
  | AEmpty => if (start =? 0) && (end_ =? 0) then Ok AEmpty else Err IllegalArg
  | ARep c n =>
      let* _ := checkPositionIndexes start end_ n in
      if start =? end_ then Ok AEmpty else Ok (ARep c (end_ - start))
  | AStr s st n up =>
      let* _ := checkPositionIndexes start end_ n in
      if start =? end_ then Ok AEmpty
      else if end_ =? start + 1 then
        let* c := jcharAt s (st + start) in Ok (s_ch (upIf up c))
      else Ok (AStr s (st + start) (end_ - start) up)
  | AArr s st n up =>
      let* _ := checkPositionIndexes start end_ n in
      if start =? end_ then Ok AEmpty
      else if end_ =? start + 1 then
        let* c := jcharAt s (st + start) in Ok (s_ch (upIf up c))
      else Ok (AArr s (st + start) (end_ - start) up)
  | ALazy act n =>
      let* _ := checkPositionIndexes start end_ n in
      let* v := getCachedString act n in s_wrap3 v start end_
  end.

(** upperCase() of non-lazy atoms: EmptySeq:43, Repeated:120-127, StrView:131-136, CharArray:168-174 *)
Definition a_upper0 (a : atom) : atom :=
  match a with
  | AEmpty => AEmpty
  | ARep c n => if isLowerCase c then ARep (toUpperCase c) n else a
  | AStr s st n up => if up then a else AStr s st n true
  | AArr s st n up => if up then a else AArr s st n true
  | ALazy _ _ => a
  end.

(** upperCase(); LazySeq:104-106 *)
Definition a_upper (a : atom) : res atom :=
  match a with
  | ALazy act n => let* v := getCachedString act n in Ok (a_upper0 (s_wrap v))
  | _ => Ok (a_upper0 a)
  end.

(** first position of [c] in [s] (String.indexOf on a suffix, and the explicit loops) *)
Fixpoint find (c : Z) (s : list Z) : option Z :=
  match s with
  | [] => None
  | x :: r => if x =? c then Some 0 else option_map Z.succ (find c r)
  end.

(** StrView.java:60-66: String.indexOf(c, start) scans to the end of the backing string. *)
Definition fastIndexOf (s : list Z) (start n c : Z) : Z :=
  match find c (skipn (Z.to_nat start) s) with
  | None => NOT_FOUND
  | Some k => let index := start + k in
              if start + n <=? index then NOT_FOUND else index - start
  end.

(** index loops of StrView.java:76-82, CharArray.java:189-200, Seq.java:371-376 *)
Fixpoint indexLoop (fuel : nat) (at_ : Z -> res Z) (i n c : Z) : res Z :=
  match fuel with
  | O => Ok NOT_FOUND
  | S f => if i <? n then
             let* x := at_ i in
             if x =? c then Ok i else indexLoop f at_ (i + 1) n c
           else Ok NOT_FOUND
  end.

(** EmptySeq:59, Repeated:142-144, StrView:69-86, CharArray:182-202, LazySeq: Seq.java:369-377 *)
Definition a_indexOf (a : atom) (c : Z) : res Z :=
  match a with
  | AEmpty => Ok NOT_FOUND
  | ARep d n => Ok (if (d =? c) && (0 <? n) then 0 else NOT_FOUND)
  | AStr s st n up =>
      if up then
        if isLowerCase c then Ok NOT_FOUND
        else if negb (isUpperCase c) then Ok (fastIndexOf s st n c)
        else indexLoop (Z.to_nat n)
               (fun i => let* x := jcharAt s (st + i) in Ok (toUpperCase x)) 0 n c
      else Ok (fastIndexOf s st n c)
  | AArr s st n up =>
      if up then
        if isLowerCase c then Ok NOT_FOUND
        else indexLoop (Z.to_nat n)
               (fun i => let* x := jcharAt s (st + i) in Ok (toUpperCase x)) 0 n c
      else indexLoop (Z.to_nat n) (fun i => jcharAt s (st + i)) 0 n c
  | ALazy _ n => indexLoop (Z.to_nat n) (a_charAt a) 0 n c
  end.

(** character-by-character append loops: Repeated:71-73,131-133; StrView:91-93,110-112;
    CharArray:105-107,148-154 *)
Fixpoint appendLoop (fuel : nat) (at_ : Z -> res Z) (i e : Z) (sb : list Z) : res (list Z) :=
  match fuel with
  | O => Ok sb
  | S f => if i <? e then
             let* x := at_ i in appendLoop f at_ (i + 1) e (sb ++ [x])
           else Ok sb
  end.

(** appendTo(StringBuilder): EmptySeq:51, Repeated:61-77,137-139, StrView:106-128,
    CharArray:102-113,159-165, LazySeq:156-159.
    Repeated: the JDK 21 StringBuilder.repeat path and the fallback both append [count] copies;
    the fallback is the one written out here. *)
Definition a_toSB (a : atom) (sb : list Z) : res (list Z) :=
  match a with
  | AEmpty => Ok sb
  | ARep c n =>
      if n =? 0 then Ok sb
      else if n <? THRESHOLD then appendLoop (Z.to_nat n) (fun _ => Ok c) 0 n sb
      else Ok (sb ++ rep c n)
  | AStr s st n up =>
      if up then
        if n <? THRESHOLD then
          appendLoop (Z.to_nat n)
            (fun i => let* x := jcharAt s i in Ok (toUpperCase x)) st (st + n) sb
        else Ok (sb ++ toUpperCaseArr (slice s st (st + n)))
      else if (st =? 0) && (n =? zlen s) then Ok (sb ++ s)
      else Ok (sb ++ slice s st (st + n))
  | AArr s st n up =>
      if up then
        if n <? THRESHOLD then
          appendLoop (Z.to_nat n)
            (fun i => let* x := jcharAt s i in Ok (toUpperCase x)) st (st + n) sb
        else Ok (sb ++ toUpperCaseArr (slice s st (st + n)))
      else Ok (sb ++ slice s st (st + n))
  | ALazy act _ => act sb
  end.

(** appendTo(Appendable), for an Appendable that accepts everything it is given; [sb] is what it has
    received so far. EmptySeq:48, Repeated:130-134, StrView:89-97, CharArray:146-156, LazySeq:143-145 *)
Definition a_toApp (a : atom) (sb : list Z) : res (list Z) :=
  match a with
  | AEmpty => Ok sb
  | ARep c n => appendLoop (Z.to_nat n) (fun _ => Ok c) 0 n sb
  | AStr s st n up =>
      if up then
        appendLoop (Z.to_nat n)
          (fun i => let* x := jcharAt s i in Ok (toUpperCase x)) st (st + n) sb
      else Ok (sb ++ slice s st (st + n))
  | AArr s st n up =>
      if up then
        appendLoop (Z.to_nat n)
          (fun i => let* x := jcharAt s i in Ok (toUpperCase x)) st (st + n) sb
      else appendLoop (Z.to_nat n) (fun i => jcharAt s i) st (st + n) sb
  | ALazy act n => let* v := getCachedString act n in Ok (sb ++ v)
  end.

(** toString(): EmptySeq:32, Repeated:103-111, StrView:51-58, CharArray:116-123, LazySeq:132-134 *)
Definition a_toString (a : atom) : res (list Z) :=
  match a with
  | AEmpty => Ok []
  | ARep c n => Ok (rep c n)
  | AStr s st n up =>
      Ok (if up then toUpperCaseArr (slice s st (st + n)) else slice s st (st + n))
  | AArr s st n up =>
      if up then a_toSB a [] else Ok (slice s st (st + n))
  | ALazy act n => getCachedString act n
  end.

(** ** Composite sequences *)

(** Concat:81-83, SeqArray:40-42 *)
Definition s_len (s : seq) : Z :=
  match s with
  | Leaf a => a_len a
  | Cat _ _ n _ => n
  | Arr _ n => n
  end.

(** AtomicSeq:12-14, Concat:129-131, SeqArray:95-97 *)
Definition elementCount (s : seq) : Z :=
  match s with
  | Leaf _ => 1
  | Cat _ _ _ k => k
  | Arr ps _ => zlen ps
  end.

(** Seq.java:359-361 *)
Definition s_isEmpty (s : seq) : bool := s_len s =? 0.

(** Concat:157-172 (next: pop, then the unfold trampoline), Concat:123-126, SeqArray:85-92.
    The Deque is a list with its top first. *)
Fixpoint descend (node : seq) (stack : list seq) : res (atom * list seq) :=
  match node with
  | Leaf a => Ok (a, stack)
  | Cat l r _ _ => descend l (r :: stack)
  | Arr ps _ =>
      match ps with
      | [] => Err IndexOOB
      | p :: rest => Ok (p, map Leaf rest ++ stack)
      end
  end.

Definition it_next (stack : list seq) : res (atom * list seq) :=
  match stack with
  | [] => Err NoSuchElem
  | n :: st => descend n st
  end.

(** the for-each loop over ConcatIterator: hasNext (Concat:153-155) / next until empty *)
Fixpoint drain (fuel : nat) (stack : list seq) : res (list atom) :=
  match stack with
  | [] => Ok []
  | _ =>
      match fuel with
      | O => Err OutOfFuel
      | S f => let* (a, st) := it_next stack in
               let* rest := drain f st in Ok (a :: rest)
      end
  end.

(** number of leaves, used only as fuel *)
Fixpoint nleaves (s : seq) : nat :=
  match s with
  | Leaf _ => 1
  | Cat l r _ _ => nleaves l + nleaves r
  | Arr ps _ => List.length ps
  end.

(** the atoms a for-each loop visits: Concat:111-113, SeqArray:65-67,100-120 *)
Definition s_iter (s : seq) : res (list atom) :=
  match s with
  | Leaf a => Ok [a]       (* not Iterable in Java; never used *)
  | Arr ps _ => Ok ps
  | Cat _ _ _ _ => drain (nleaves s) [s]
  end.

(** Concat:75-78 *)
Definition concat0 (l r : seq) : seq :=
  Cat l r (wrap32 (s_len l + s_len r)) (wrap32 (elementCount l + elementCount r)).

(** Concat:65-73, Seq.java:228-232 *)
Definition s_concat (l r : seq) : seq :=
  match l with
  | Cat ll lr _ _ => concat0 ll (concat0 lr r)
  | _ => concat0 l r
  end.

(** Seq.java:275-278, Concat:93-96, EmptySeq:12-14: [s.prepend(x)] *)
Definition s_prepend (s x : seq) : seq :=
  match s with
  | Leaf AEmpty => x
  | _ => if s_isEmpty x then s else s_concat x s
  end.

(** Seq.java:286-289, Concat:99-102, EmptySeq:17-19: [s.append(x)] *)
Definition s_append (s x : seq) : seq :=
  match s with
  | Leaf AEmpty => x
  | _ => if s_isEmpty x then s else s_concat s x
  end.

(** Seq.java:252-267 *)
Definition s_join (ps : list atom) : seq :=
  match ps with
  | [] => Leaf AEmpty
  | [a] => Leaf a
  | _ => Arr ps (fold_left (fun n a => wrap32 (n + a_len a)) ps 0)
  end.

(** AtomicSeqIterable.java:38-51. [buf] is [buffer]. Returns buffer and the final values of the
    mutated parameters [start] and [end]. *)
Fixpoint sub_loop (atoms : list atom) (start end_ : Z) (buf : list atom)
  : res (list atom * Z * Z) :=
  match atoms with
  | [] => Ok (buf, start, end_)
  | a :: rest =>
      let sl := a_len a in
      if start <? sl then
        if end_ <=? sl then
          let* x := a_sub a start end_ in Ok (buf ++ [x], start, end_)
        else
          let* x := a_sub a start sl in sub_loop rest 0 (end_ - sl) (buf ++ [x])
      else sub_loop rest (start - sl) (end_ - sl) buf
  end.

(** subSequence: atoms as above; AtomicSeqIterable.java:32-57 *)
Definition s_sub (s : seq) (start end_ : Z) : res seq :=
  match s with
  | Leaf a => let* x := a_sub a start end_ in Ok (Leaf x)
  | _ =>
      let n := s_len s in
      let* _ := checkPositionIndexes start end_ n in
      if start =? end_ then Ok (Leaf AEmpty)
      else if (start =? 0) && (end_ =? n) then Ok s
      else
        let* atoms := s_iter s in
        let* (buf, start', end') := sub_loop atoms start end_ [] in
        match buf with
        | [x] => Ok (Leaf x)
        | _ => Ok (Arr buf (wrap32 (end' - start')))
        end
  end.

(** AtomicSeqIterable.java:68-74 *)
Fixpoint charAt_loop (atoms : list atom) (i : Z) : res Z :=
  match atoms with
  | [] => Err (OtherExn 0) (* AssertionError, line 74 *)
  | a :: rest => if i <? a_len a then a_charAt a i else charAt_loop rest (i - a_len a)
  end.

(** AtomicSeqIterable.java:66-75 *)
Definition s_charAt (s : seq) (i : Z) : res Z :=
  match s with
  | Leaf a => a_charAt a i
  | _ => let* _ := checkPositionIndex i (s_len s) in
         let* atoms := s_iter s in charAt_loop atoms i
  end.

(** AtomicSeqIterable.java:112-120 *)
Fixpoint indexOf_loop (atoms : list atom) (cur c : Z) : res Z :=
  match atoms with
  | [] => Ok NOT_FOUND
  | a :: rest =>
      let* i := a_indexOf a c in
      if i =? NOT_FOUND then indexOf_loop rest (wrap32 (cur + a_len a)) c
      else Ok (wrap32 (i + cur))
  end.

(** AtomicSeqIterable.java:111-121 *)
Definition s_indexOf (s : seq) (c : Z) : res Z :=
  match s with
  | Leaf a => a_indexOf a c
  | _ => let* atoms := s_iter s in indexOf_loop atoms 0 c
  end.

(** Seq.java:385-387 *)
Definition s_startsWith (s : seq) (c : Z) : res bool :=
  if 0 <? s_len s then let* x := s_charAt s 0 in Ok (x =? c) else Ok false.

(** for-each with an effect on the output *)
Fixpoint each (f : atom -> list Z -> res (list Z)) (atoms : list atom) (sb : list Z) : res (list Z) :=
  match atoms with
  | [] => Ok sb
  | a :: rest => let* sb' := f a sb in each f rest sb'
  end.

(** AtomicSeqIterable.java:97-102 *)
Definition s_toSB (s : seq) (sb : list Z) : res (list Z) :=
  match s with
  | Leaf a => a_toSB a sb
  | _ => let* atoms := s_iter s in each a_toSB atoms sb
  end.

(** AtomicSeqIterable.java:84-88 *)
Definition s_toApp (s : seq) (sb : list Z) : res (list Z) :=
  match s with
  | Leaf a => a_toApp a sb
  | _ => let* atoms := s_iter s in each a_toApp atoms sb
  end.

(** Concat:86-90, SeqArray:70-75 *)
Definition s_toString (s : seq) : res (list Z) :=
  match s with
  | Leaf a => a_toString a
  | _ => s_toSB s []
  end.

Fixpoint mapM {A B} (f : A -> res B) (l : list A) : res (list B) :=
  match l with
  | [] => Ok []
  | a :: r => let* b := f a in let* bs := mapM f r in Ok (b :: bs)
  end.

(** AtomicSeqIterable.java:130-136 (Concat), SeqArray:51-57 *)
Definition s_upper (s : seq) : res seq :=
  match s with
  | Leaf a => let* x := a_upper a in Ok (Leaf x)
  | _ => let* atoms := s_iter s in
         let* ups := mapM a_upper atoms in Ok (Arr ups (s_len s))
  end.
