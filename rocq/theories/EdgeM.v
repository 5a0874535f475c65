(** Repaired versions of the functions behind findings 14, 20, 33 and 37 of DESIGN.md, in the manner of RepairM.v: the model of the Java
    function named beside each, with the change described. *)
From Verif Require Import Base Digits UtilsM SeqM ContextM CompilerM CtxM TextM NullM RepairM.

(** ** Sequences *)

(** EmptySeq.java:37-40, finding 14. Change: checkPositionIndexes(start, end, 0), as the other sequences do, instead of checkArgument. *)
Definition a_subE (a : atom) (start end_ : Z) : res atom :=
  match a with
  | AEmpty => let* _ := checkPositionIndexes start end_ 0 in Ok AEmpty
  | _ => a_sub a start end_
  end.

(** AtomicSeqIterable.java:38-51 on it *)
Fixpoint sub_loopE (atoms : list atom) (start end_ : Z) (buf : list atom) : res (list atom * Z * Z) :=
  match atoms with
  | [] => Ok (buf, start, end_)
  | a :: rest =>
      let sl := a_len a in
      if start <? sl then
        if end_ <=? sl then
          let* x := a_subE a start end_ in Ok (buf ++ [x], start, end_)
        else
          let* x := a_subE a start sl in sub_loopE rest 0 (end_ - sl) (buf ++ [x])
      else sub_loopE rest (start - sl) (end_ - sl) buf
  end.

(** AtomicSeqIterable.java:32-57 with the repair of finding 1 (RepairM.v) *)
Definition s_subE (s : seq) (start end_ : Z) : res seq :=
  match s with
  | Leaf a => let* x := a_subE a start end_ in Ok (Leaf x)
  | _ =>
      let n := s_len s in
      let* _ := checkPositionIndexes start end_ n in
      if start =? end_ then Ok (Leaf AEmpty)
      else if (start =? 0) && (end_ =? n) then Ok s
      else
        let* atoms := s_iter s in
        let* (buf, _, _) := sub_loopE atoms start end_ [] in
        match buf with
        | [x] => Ok (Leaf x)
        | _ => Ok (Arr buf (wrap32 (end_ - start)))
        end
  end.

(** ** Utils.join, finding 20. Utils.java:113-120 and 89-101. Change: the first element of an Iterable or Iterator, and a single object, are appended by
    lenientToString, as all others are. *)
Definition joinIteratorE (sb sep : list Z) (it : list element) : list Z :=
  match it with
  | [] => sb
  | o :: r => joinIterator_loop (sb ++ lenientToString o) sep r
  end.
Definition joinE (sb sep : list Z) (args : joinable) : list Z :=
  match args with
  | JoinNull => sb
  | JoinIter it => joinIteratorE sb sep it
  | JoinArray a => joinArray sb sep (map lenientToString a)
  | JoinOther o => sb ++ lenientToString o
  end.

(** ** FormatContext.create, finding 33. FormatContext.java:64-73. Change: a character that is no flag is an IllegalArgumentException. *)
Fixpoint addCharsE (s : flags) (t : list Z) : res flags :=
  match t with
  | [] => Ok s
  | c :: r => match flag_of_char c with Some f => addCharsE (addF f s) r | None => Err IllegalArg end
  end.
Definition createTextE (t : option (list Z)) (w p : Z) : res ctx :=
  let* s := addCharsE noFlags (match t with Some t => t | None => [] end) in
  ctx_create s w p None.

(** ** Null parameters, finding 37 *)

(** Seq.java:133-135. Change: checkNotNull before s.length() *)
Definition n_wrap2E (s : option (list Z)) (start : Z) : call atom := then_ (checkNotNull s (txt "s")) (fun t => n_wrap3 (Some t) start (zlen t)).
(** Seq.java:275-289, Concat.java:93-102, EmptySeq.java:12-19. Change: checkNotNull first in all of them *)
Definition n_prependE (s : seq) (x : option seq) : call seq := then_ (checkNotNull x (txt "prefix")) (fun x => Gives (s_prepend s x)).
Definition n_appendE (s : seq) (x : option seq) : call seq := then_ (checkNotNull x (txt "suffix")) (fun x => Gives (s_append s x)).
(** Seq.java:252-267. Change: a single element is checked too *)
Definition n_joinE (l : option (list (option atom))) : call seq :=
  then_ (checkNotNull l (txt "atomicSeqs")) (fun l =>
    match l with
    | [] => Gives (Leaf AEmpty)
    | [a] => then_ (checkNotNull a (txt "seqElement")) (fun a => Gives (Leaf a))
    | _ => then_ (n_join_loop l 0) (fun p => Gives (Arr (fst p) (snd p)))
    end).
