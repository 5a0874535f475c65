(** Independent descriptions used by the properties of the small helpers (C38, C39, C41, C44). *)
From Verif Require Import Base Digits.

(** ** "%s" templates (C39) *)

Definition ph : list Z := txt "%s".
(** no placeholder inside [g] *)
Definition plain_text (g : list Z) : Prop := forall a b, g <> a ++ ph ++ b.

(** the template made of texts separated by placeholders *)
Fixpoint template (g : list Z) (gs : list (list Z)) : list Z :=
  match gs with [] => g | h :: r => g ++ ph ++ template h r end.

(** arguments in the order of the placeholders; surplus placeholders stay, surplus arguments go in brackets *)
Fixpoint comma (l : list (list Z)) : list Z :=
  match l with [] => [] | [a] => a | a :: r => a ++ txt ", " ++ comma r end.
Fixpoint weave (g : list Z) (gs : list (list Z)) (args : list (list Z)) : list Z :=
  match gs, args with
  | [], [] => g
  | [], _ => g ++ txt " [" ++ comma args ++ txt "]"
  | _, [] => template g gs
  | h :: r, a :: more => g ++ a ++ weave h r more
  end.

(** ** String.hashCode (C41): the text as a number in base 31, as a 32-bit integer *)
Definition string_hash (t : list Z) : Z := wrap32 (fold_left (fun h c => 31 * h + c) t 0).

(** ** reading back an escaped literal (C38) *)
Definition unescape_char (c : Z) : Z :=
  if c =? ch "n" then 10 else if c =? ch "r" then 13 else if c =? ch "t" then 9
  else if c =? ch "b" then 8 else if c =? ch "f" then 12 else c.
Fixpoint unescape (l : list Z) : list Z :=
  match l with
  | [] => []
  | c :: r => if c =? 92 then match r with [] => [] | d :: r' => unescape_char d :: unescape r' end
              else c :: unescape r
  end.
(** between the quotes *)
Definition read_literal (l : list Z) : list Z := unescape (removelast (tl l)).
