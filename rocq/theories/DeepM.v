(** A repaired text of arrays for finding 51 of DESIGN.md, in the manner of RepairM.v. Change: the object branch of ObjectTraits.arrayToString (ObjectTraits.java:53) prints the elements
    that are arrays as arrays, and an array that is just being printed as "[...]", as java.util.Arrays.deepToString does. Arrays are places of a heap, since an array can contain itself. *)
From Verif Require Import Base Digits UtilsM SeqM ContextM FormatterM TraitsM ArrM.

(** an element of an object array: null, an object that is no array (see [item]), or the array at a place of the heap *)
Inductive elem := ENull | EPlain (v : value) (other : list Z) | ERef (i : nat).
Inductive cell := CPrim (a : jarray) | CObjects (l : list elem).
Definition heap := list cell.

Section WithJdk.
  Variable J : jdk.
  Variable h : heap.

  Fixpoint deepText (fuel : nat) (seen : list nat) (i : nat) : option (list Z) :=
    match fuel with
    | O => None
    | S f =>
        match nth_error h i with
        | None => None
        | Some (CPrim a) => Some (arrayToString J a)
        | Some (CObjects l) =>
            if existsb (Nat.eqb i) seen then Some (txt "[...]") else
            let fix texts l :=
              match l with
              | [] => Some []
              | e :: r =>
                  match (match e with ENull => Some (txt "null") | EPlain v other => Some (lenientItem J (Some (v, other))) | ERef j => deepText f (i :: seen) j end) with
                  | Some t => match texts r with Some ts => Some (t :: ts) | None => None end
                  | None => None
                  end
              end in
            match texts l with
            | Some [] => Some (txt "[]")
            | Some ts => Some (joinArray (txt "[") (txt ", ") ts ++ txt "]")
            | None => None
            end
        end
    end.
  (** the places being printed are distinct, so the depth is at most the number of arrays *)
  Definition deepString (i : nat) : option (list Z) := deepText (S (List.length h)) [] i.

  (** the array as an argument *)
  Definition deepArg (i : nat) (r : refslot) : traits :=
    traitsOf J (VObj (OOther (match deepString i with Some t => Ok t | None => Err IllegalState end))) r.
  (** as the code has it: an element that is an array prints its identity *)
  Definition shallow (ident : nat -> list Z) (e : elem) : item :=
    match e with ENull => None | EPlain v other => Some (v, other) | ERef j => Some (VObj (OArray []), ident j) end.
End WithJdk.
