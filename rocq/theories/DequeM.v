(** The deque of ConcatIterator while a sequence is iterated over. *)
From Verif Require Import Base SeqM.

(** the largest size of the deque between the calls of next() (Concat.java:153-172). Within a call it only grows after the pop,
    so this is also the largest size it ever has: see [within_a_call] in PropsDeque.v. *)
Fixpoint peak (fuel : nat) (stack : list seq) : Z :=
  match fuel, stack with
  | S f, _ :: _ => Z.max (zlen stack) (match it_next stack with Ok (_, st) => peak f st | Err _ => 0 end)
  | _, _ => zlen stack
  end.

(** Concat.java:111-113, 146-151: the deque is created with this capacity and holds the root *)
Definition initialStackSize (s : seq) : Z := Z.max 5 (elementCount s / 4).
Definition deque_peak (s : seq) : Z := peak (nleaves s) [s].
