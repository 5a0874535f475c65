(** Order of texts, as String.compareTo has it: by the first unit that differs; a prefix comes first. *)
From Verif Require Import Base.

Fixpoint text_lt (a b : list Z) : Prop :=
  match a, b with
  | [], _ :: _ => True
  | x :: a', y :: b' => x < y \/ x = y /\ text_lt a' b'
  | _, [] => False
  end.
