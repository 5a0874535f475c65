(** The operations of sequences again, counting their work: a step for every node pushed to or popped from the deque of an
    iterator, for every element an array iterator gives, for every node concatenation creates and for every character written,
    to the target or to an array on the way to it. Loops stop where the Java loops stop. *)
From Verif Require Import Base UtilsM SeqM CompilerM CostM TraitsM ImplM.

(** ** Iterators *)

(** Concat.java:123-126, SeqArray.java:85-92: a step for every push *)
Fixpoint k_descend (node : seq) (stack : list seq) : cost (atom * list seq) :=
  match node with
  | Leaf a => free (Ok (a, stack))
  | Cat l r _ _ => let$ _ := steps 1 (Ok tt) in k_descend l (r :: stack)
  | Arr ps _ =>
      match ps with
      | [] => free (Err IndexOOB)
      | p :: rest => steps (zlen rest) (Ok (p, map Leaf rest ++ stack))
      end
  end.

(** Concat.java:157-172: a step for the pop *)
Definition k_next (stack : list seq) : cost (atom * list seq) :=
  match stack with
  | [] => free (Err NoSuchElem)
  | n :: st => let$ _ := steps 1 (Ok tt) in k_descend n st
  end.

(** what the body of a for-each loop answers: go on with this state, or leave the loop *)
Inductive after (A B : Type) := Next (a : A) | Stop (b : B).
Arguments Next {A B}. Arguments Stop {A B}.

Section Loop.
  Context {A B : Type}.
  Variable body : atom -> A -> cost (after A B).
  Variable finish : A -> res B.

  (** for-each over a Concat *)
  Fixpoint k_drain (fuel : nat) (stack : list seq) (x : A) : cost B :=
    match stack with
    | [] => free (finish x)
    | _ =>
        match fuel with
        | O => free (Err OutOfFuel)
        | S f =>
            let$ (a, st) := k_next stack in
            let$ r := body a x in
            match r with Next y => k_drain f st y | Stop b => free (Ok b) end
        end
    end.

  (** for-each over a SeqArray: SeqArray.java:100-120 *)
  Fixpoint k_array (ps : list atom) (x : A) : cost B :=
    match ps with
    | [] => free (finish x)
    | a :: rest =>
        let$ _ := steps 1 (Ok tt) in
        let$ r := body a x in
        match r with Next y => k_array rest y | Stop b => free (Ok b) end
    end.

  (** the constructor of ConcatIterator pushes the root: Concat.java:146-151 *)
  Definition k_for (s : seq) (x : A) : cost B :=
    match s with
    | Leaf a => let$ r := body a x in match r with Next y => free (finish y) | Stop b => free (Ok b) end   (* not Iterable in Java; never used *)
    | Arr ps _ => k_array ps x
    | Cat _ _ _ _ => let$ _ := steps 1 (Ok tt) in k_drain (nleaves s) [s] x
    end.
End Loop.

(** ** Operations *)

(** Concat.java:75-78: a new node *)
Definition k_concat0 (l r : seq) : cost seq := steps 1 (Ok (concat0 l r)).
(** Concat.java:65-73 *)
Definition k_concat (l r : seq) : cost seq :=
  match l with
  | Cat ll lr _ _ => let$ m := k_concat0 lr r in k_concat0 ll m
  | _ => k_concat0 l r
  end.
(** Seq.java:275-289, Concat.java:93-102, EmptySeq.java:12-19 *)
Definition k_prepend (s x : seq) : cost seq :=
  match s with
  | Leaf AEmpty => free (Ok x)
  | _ => if s_isEmpty x then free (Ok s) else k_concat x s
  end.
Definition k_append (s x : seq) : cost seq :=
  match s with
  | Leaf AEmpty => free (Ok x)
  | _ => if s_isEmpty x then free (Ok s) else k_concat s x
  end.

(** AtomicSeqIterable.java:66-75; the body of the loop first *)
Definition k_seek (a : atom) (i : Z) : cost (after Z Z) :=
  if i <? a_len a then let$ x := free (a_charAt a i) in free (Ok (Stop x)) else free (Ok (Next (i - a_len a))).
Definition unreachable (_ : Z) : res Z := Err (OtherExn 0).
Definition k_charAt (s : seq) (i : Z) : cost Z :=
  match s with
  | Leaf a => free (a_charAt a i)
  | _ =>
      let$ _ := free (checkPositionIndex i (s_len s)) in
      k_for k_seek unreachable s i
  end.

(** how often a character is written: Repeated.java:61-77 fills an array, StrView.java:100-118 and CharArray.java:102-113 copy to
    an array and pass over it again, when the text is not short. The JDK's StringBuilder.repeat (JDK 21) needs no array. *)
Definition passes (a : atom) : Z :=
  match a with
  | ARep _ n => if n <? THRESHOLD then 1 else 2
  | AStr _ _ n true | AArr _ _ n true => if n <? THRESHOLD then 1 else 3
  | _ => 1
  end.

(** appendTo(StringBuilder) of an atom, and of all: AtomicSeqIterable.java:97-102; content after a failure as in ImplM.v *)
Definition k_atom (a : atom) (sb : list Z) : cost (after (list Z) outcome) :=
  match a_toSB a sb with
  | Ok sb' => steps (passes a * (zlen sb' - zlen sb)) (Ok (Next sb'))
  | Err e => free (Ok (Stop (sb, Some e)))
  end.
Definition k_emit (s : seq) (sb : list Z) : cost outcome :=
  k_for k_atom (fun sb => Ok (sb, None)) s sb.

(** ** A call: FastPrintfImpl.java:80-91 *)
Section WithJdk.
  Variable J : jdk.

  Fixpoint k_run (apps : list appender) (it : list traits) (sb : list Z) : cost outcome :=
    match apps with
    | [] => free (Ok (sb, None))
    | a :: rest =>
        match appendOne J a it with
        | Err e => free (Ok (sb, Some e))
        | Ok (s, it') =>
            let$ o := k_emit s sb in
            match o with
            | (sb', None) => k_run rest it' sb'
            | o => free (Ok o)
            end
        end
    end.
End WithJdk.
