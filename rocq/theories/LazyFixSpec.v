(** C115: sequences whose lazy parts may do anything. *)
From Verif Require Import Base Digits SeqM ContextM CompilerM TraitsM ImplM.

(** a view of a string or an array lies within it; a lazy part may do and announce what it likes *)
Definition sound_atom (a : atom) : Prop := match a with AStr s st n _ | AArr s st n _ => 0 <= st /\ 0 <= n /\ st + n <= zlen s | _ => True end.
Fixpoint sound (s : seq) : Prop :=
  match s with Leaf a => sound_atom a | Cat l r _ _ => sound l /\ sound r | Arr ps _ => Forall sound_atom ps end.
(** whatever an argument is converted to is such a Seq *)
Definition sound_arg (J : jdk) (x : traits) : Prop := forall sp c s, formatterFor J sp c x = Ok s -> sound s.
