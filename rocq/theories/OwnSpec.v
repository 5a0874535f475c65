(** A call taken apart: every directive on its own, with its own arguments. *)
From Verif Require Import Base Digits SeqM SeqSpec ContextM CompilerM GrammarSpec TraitsM ImplM LoopSpec.

(** the arguments of the piece [d], if it is the next one; those after them *)
Definition own_args (d : appender) (args : list traits) : list traits := firstn (Z.to_nat (arity d)) args.
Definition other_args (d : appender) (args : list traits) : list traits := skipn (Z.to_nat (arity d)) args.

(** one call for every piece, until one of them throws *)
Fixpoint by_parts (J : jdk) (ds : list appender) (args : list traits) : list Z * option exn :=
  match ds with
  | [] => ([], None)
  | d :: r =>
      match ImplM.format J [d] (own_args d args) with
      | Ok t => let (u, o) := by_parts J r (other_args d args) in (t ++ u, o)
      | Err e => ([], Some e)
      end
  end.

(** argument number [i] is one of those of the piece [d] between [ds1] and [ds2] *)
Definition takes_argument (ds : list appender) (i : nat) (ds1 : list appender) (d : appender) (ds2 : list appender) : Prop :=
  ds = ds1 ++ d :: ds2 /\ arities ds1 <= Z.of_nat i < arities ds1 + arity d.

(** the result [r] of one piece, with the text [a] before it and, if it does not throw, what follows *)
Definition placed (a : list Z) (r : res (list Z)) (b : list Z) (o : option exn) : list Z * option exn :=
  match r with Ok m => (a ++ m ++ b, o) | Err e => (a, Some e) end.
