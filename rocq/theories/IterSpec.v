(** What an iterator supplies, and what is called on it. *)
From Verif Require Import Base UtilsM SeqM ContextM CompilerM TraitsM IterM.

Section Spec.
  Context {St : Type}.
  Variable I : source St.

  (** [supplies st xs st']: asked again and again, hasNext() answers true and next() gives the elements of [xs] in turn *)
  Inductive supplies : St -> list traits -> St -> Prop :=
  | su_nil st : supplies st [] st
  | su_cons st st1 st2 st3 x xs :
      i_hasNext I st = (Ok true, st1) -> i_next I st1 = (Ok (Some x), st2) -> supplies st2 xs st3 -> supplies st (x :: xs) st3.

  (** the attempt to take one more argument fails with [e] *)
  Inductive stops_with (st : St) : exn -> Prop :=
  | sw_end st1 : i_hasNext I st = (Ok false, st1) -> stops_with st (Printf MissingArg)
  | sw_hasNext st1 e : i_hasNext I st = (Err e, st1) -> stops_with st e
  | sw_next st1 st2 e : i_hasNext I st = (Ok true, st1) -> i_next I st1 = (Err e, st2) -> stops_with st e
  | sw_null st1 st2 : i_hasNext I st = (Ok true, st1) -> i_next I st1 = (Ok None, st2) -> stops_with st NullPtr.

  (** the same iterator, keeping a list of the calls it gets and of what they return *)
  Inductive called := HasNext (answer : option bool) | Next.
  Definition logged : source (St * list called) := mkSource _
    (fun '(st, l) => let (r, st') := i_hasNext I st in (r, (st', l ++ [HasNext (match r with Ok b => Some b | Err _ => None end)])))
    (fun '(st, l) => let (r, st') := i_next I st in (r, (st', l ++ [Next]))).
End Spec.

(** the number of arguments a directive takes: its own, one for each '*' *)
Definition takes1 (a : appender) : Z :=
  match a with
  | Fixed _ => 0
  | Default _ c => 1 + (if isPrecedingWidth c then 1 else 0) + (if isPrecedingPrecision c then 1 else 0)
  end.
Fixpoint takes (ds : list appender) : Z := match ds with [] => 0 | d :: ds => takes1 d + takes ds end.

(** [asked k l]: [k] arguments were taken, each by one hasNext() that answered true and one next() after it, and nothing else was
    called, except perhaps a last hasNext() that did not answer true *)
Inductive asked : Z -> list called -> Prop :=
| as_none : asked 0 []
| as_refused a : a <> Some true -> asked 0 [HasNext a]
| as_took k l : asked k l -> asked (1 + k) (HasNext (Some true) :: Next :: l).
