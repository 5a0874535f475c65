(** Expressions over the public factories and combinators of Seq, their meaning as lists of characters
    (specification) and their evaluation with the model. *)
From Verif Require Import Base SeqM SeqSpec.

(** Expressions of type AtomicSeq: Seq.empty, ch, repeated, wrap(s), wrap(s,i,j), forArray(a),
    forArray(a,i,n), lazy(action appending t, t.length()), and subSequence/upperCase of an AtomicSeq. *)
Inductive aexpr :=
| Xempty
| Xch (c : Z)
| Xrepeated (c n : Z)
| Xwrap (s : list Z)
| Xwrap3 (s : list Z) (i j : Z)
| XforArray (s : list Z)
| XforArray3 (s : list Z) (i n : Z)
| Xlazy (s : list Z)
| Xasub (a : aexpr) (i j : Z)
| Xaupper (a : aexpr).

(** Expressions of type Seq. *)
Inductive sexpr :=
| Xatom (a : aexpr)
| Xconcat (l r : sexpr)
| Xappend (s x : sexpr)
| Xprepend (s x : sexpr)
| Xjoin (l : list aexpr)
| Xupper (s : sexpr).

(** ** Specification: the text an expression denotes; None when an index or count is out of range or
    the text would be longer than Integer.MAX_VALUE. *)

Definition fits (t : list Z) : option (list Z) := if zlen t <=? int_max then Some t else None.

Definition cut (t : list Z) (i j : Z) : option (list Z) :=
  if (0 <=? i) && (i <=? j) && (j <=? zlen t)
  then Some (firstn (Z.to_nat (j - i)) (skipn (Z.to_nat i) t)) else None.

Definition obind {A B} (o : option A) (f : A -> option B) : option B :=
  match o with Some a => f a | None => None end.

Fixpoint atext (e : aexpr) : option (list Z) :=
  match e with
  | Xempty => Some []
  | Xch c => Some [c]
  | Xrepeated c n => if (1 <=? n) && (n <=? int_max) then Some (repeat c (Z.to_nat n)) else None
  | Xwrap s | XforArray s | Xlazy s => fits s
  | Xwrap3 s i j => obind (fits s) (fun s => cut s i j)
  | XforArray3 s i n => if 0 <=? n then obind (fits s) (fun s => cut s i (i + n)) else None
  | Xasub a i j => obind (atext a) (fun s => cut s i j)
  | Xaupper a => obind (atext a) (fun s => Some (map ascii_upper s))
  end.

Fixpoint atexts (l : list aexpr) : option (list Z) :=
  match l with
  | [] => Some []
  | a :: r => obind (atext a) (fun x => obind (atexts r) (fun y => fits (x ++ y)))
  end.

Fixpoint stext (e : sexpr) : option (list Z) :=
  match e with
  | Xatom a => atext a
  | Xconcat l r => obind (stext l) (fun x => obind (stext r) (fun y => fits (x ++ y)))
  | Xappend s x => obind (stext s) (fun a => obind (stext x) (fun b => fits (a ++ b)))
  | Xprepend s x => obind (stext s) (fun a => obind (stext x) (fun b => fits (b ++ a)))
  | Xjoin l => atexts l
  | Xupper s => obind (stext s) (fun a => Some (map ascii_upper a))
  end.

(** ** Evaluation with the model *)

Fixpoint aeval (e : aexpr) : res atom :=
  match e with
  | Xempty => Ok AEmpty
  | Xch c => Ok (s_ch c)
  | Xrepeated c n => s_repeated c n
  | Xwrap s => Ok (s_wrap s)
  | Xwrap3 s i j => s_wrap3 s i j
  | XforArray s => Ok (s_forArray s)
  | XforArray3 s i n => s_forArray3 s i n
  | Xlazy t => s_lazy (fun sb => Ok (sb ++ t)) (zlen t)
  | Xasub a i j => let* x := aeval a in a_sub x i j
  | Xaupper a => let* x := aeval a in a_upper x
  end.

Fixpoint seval (e : sexpr) : res seq :=
  match e with
  | Xatom a => let* x := aeval a in Ok (Leaf x)
  | Xconcat l r => let* x := seval l in let* y := seval r in Ok (s_concat x y)
  | Xappend s x => let* a := seval s in let* b := seval x in Ok (s_append a b)
  | Xprepend s x => let* a := seval s in let* b := seval x in Ok (s_prepend a b)
  | Xjoin l => let* xs := mapM aeval l in Ok (s_join xs)
  | Xupper s => let* a := seval s in s_upper a
  end.

(** Every observation of the sequence [s] is the one the list [t] gives. *)
Record behaves_as (s : seq) (t : list Z) : Prop := {
  b_length : s_len s = zlen t;
  b_isEmpty : s_isEmpty s = match t with [] => true | _ => false end;
  b_charAt : forall i, 0 <= i < zlen t -> exists c, nth_error t (Z.to_nat i) = Some c /\ s_charAt s i = Ok c;
  b_charAt_out : forall i, ~ (0 <= i < zlen t) -> s_charAt s i = Err IndexOOB;
  b_indexOf : forall c, s_indexOf s c = Ok (index_of c t);
  b_startsWith : forall c, s_startsWith s c = Ok (match t with x :: _ => x =? c | [] => false end);
  b_toString : s_toString s = Ok t;
  b_appendTo_builder : forall sb, s_toSB s sb = Ok (sb ++ t);
  b_appendTo_appendable : forall sb, s_toApp s sb = Ok (sb ++ t)
}.
