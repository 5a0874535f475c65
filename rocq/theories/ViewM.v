(** Sequences made by Seq.forArray are views of an array the client can still write to (CharArray.java:24-38, Seq.java:164-181).
    This file models CharArray with the array as a mutable object of its own, and the field CharArray.hash; elsewhere the array
    of an [AArr] is the list of its characters. Every other sequence is immutable. *)
From Verif Require Import Base Digits UtilsM SeqM MiscM.

(** the char[] objects; a reference is a position. An array keeps its length. *)
Definition store := list (list Z).
Definition array (h : store) (r : nat) : list Z := nth r h [].
Fixpoint set_nth {A} (l : list A) (n : nat) (x : A) : list A :=
  match l, n with [], _ => [] | _ :: t, O => x :: t | a :: t, S n => a :: set_nth t n x end.

(** a sequence object: a CharArray with its fields (CharArray.java:10-14), or an immutable one *)
Inductive jobj :=
| View (r : nat) (start n : Z) (up : bool) (hash : Z)
| Still (a : atom).

(** the sequence as it is now, in the model of SeqM.v *)
Definition as_atom (h : store) (o : jobj) : atom :=
  match o with View r st n up _ => AArr (array h r) st n up | Still a => a end.

(** CharArray.java:84-95 *)
Definition o_sub (h : store) (o : jobj) (i j : Z) : res jobj :=
  match o with
  | Still a => let* b := a_sub a i j in Ok (Still b)
  | View r st n up _ =>
      let* _ := checkPositionIndexes i j n in
      if i =? j then Ok (Still AEmpty)
      else if j =? i + 1 then let* c := jcharAt (array h r) (st + i) in Ok (Still (s_ch (upIf up c)))
      else Ok (View r (st + i) (j - i) up 0)
  end.

(** what a client does: it holds references to arrays and to sequences, by position *)
Inductive op :=
| NewArray (a : list Z)
| Write (r : nat) (i c : Z)
| Wrap (r : nat) (start n : Z)
| Slice (k : nat) (i j : Z)
| Upper (k : nat)
| Hash (k : nat)
| Text (k : nat).
Record heap := mkHeap { arrays : store; objs : list jobj; held : list nat }.

(** what comes back: an exception, nothing, a number, a text *)
Inductive answer := Fails | Done | Number (n : Z) | Chars (t : list Z).

Definition give (H : heap) (o : jobj) : heap * answer := (mkHeap (arrays H) (objs H ++ [o]) (held H ++ [List.length (objs H)]), Done).
Definition at_held (H : heap) (k : nat) : option (nat * jobj) :=
  match nth_error (held H) k with
  | Some p => match nth_error (objs H) p with Some o => Some (p, o) | None => None end
  | None => None
  end.

Definition step (H : heap) (o : op) : heap * answer :=
  match o with
  | NewArray a => (mkHeap (arrays H ++ [a]) (objs H) (held H), Done)
  | Write r i c =>
      match nth_error (arrays H) r with
      | Some a => if (0 <=? i) && (i <? zlen a) then (mkHeap (set_nth (arrays H) r (set_nth a (Z.to_nat i) c)) (objs H) (held H), Done)
                  else (H, Fails)
      | None => (H, Fails)
      end
  (* Seq.java:164-168, CharArray.java:36-38 *)
  | Wrap r st n =>
      match nth_error (arrays H) r with
      | Some a => match s_forArray3 a st n with Ok _ => give H (View r st n false 0) | Err _ => (H, Fails) end
      | None => (H, Fails)
      end
  | Slice k i j =>
      match at_held H k with
      | Some (_, o) => match o_sub (arrays H) o i j with Ok o' => give H o' | Err _ => (H, Fails) end
      | None => (H, Fails)
      end
  (* CharArray.java:167-174 *)
  | Upper k =>
      match at_held H k with
      | Some (p, View r st n true g) => (mkHeap (arrays H) (objs H) (held H ++ [p]), Done)
      | Some (_, View r st n false g) => give H (View r st n true 0)
      | Some (_, Still a) => match a_upper a with Ok b => give H (Still b) | Err _ => (H, Fails) end
      | None => (H, Fails)
      end
  (* CharArray.java:56-75 *)
  | Hash k =>
      match at_held H k with
      | Some (p, View r st n up g) =>
          match ca_hashCode (array (arrays H) r) st n up g with
          | Ok v => (mkHeap (arrays H) (set_nth (objs H) p (View r st n up v)) (held H), Number v)
          | Err _ => (H, Fails)
          end
      | _ => (H, Done)              (* Object.hashCode of other sequences: not modelled *)
      end
  | Text k =>
      match at_held H k with
      | Some (_, o) => (H, match a_toString (as_atom (arrays H) o) with Ok t => Chars t | Err _ => Fails end)
      | None => (H, Fails)
      end
  end.

Fixpoint runs (l : list op) (H : heap) : list answer :=
  match l with
  | [] => []
  | o :: r => let '(H', a) := step H o in a :: runs r H'
  end.
Definition nothing : heap := mkHeap [] [] [].
