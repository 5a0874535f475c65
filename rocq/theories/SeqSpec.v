(** Specification of character sequences: what text a sequence stands for. *)
From Verif Require Import Base SeqM.

(** ASCII upper-casing, stated arithmetically. *)
Definition ascii_upper (c : Z) : Z := if (97 <=? c) && (c <=? 122) then c - 32 else c.

(** first index of a character in a list, or -1 *)
Fixpoint index_of (c : Z) (s : list Z) : Z :=
  match s with
  | [] => -1
  | x :: r => if x =? c then 0 else let k := index_of c r in if k =? -1 then -1 else k + 1
  end.

(** An atom is valid and stands for the text [t]. *)
Definition den_atom (a : atom) (t : list Z) : Prop :=
  zlen t <= int_max /\
  match a with
  | AEmpty => t = []
  | ARep c n => 0 <= n /\ t = rep c n
  | AStr s st n up | AArr s st n up =>
      0 <= st /\ 0 <= n /\ st + n <= zlen s /\
      t = (if up then map ascii_upper (slice s st (st + n)) else slice s st (st + n))
  | ALazy act n => n = zlen t /\ forall sb, act sb = Ok (sb ++ t)
  end.

(** [den s t]: the sequence [s] stands for the text [t] and every length recorded in it is correct. *)
Inductive den : seq -> list Z -> Prop :=
| den_leaf a t : den_atom a t -> den (Leaf a) t
| den_cat l r tl tr k :
    den l tl -> den r tr -> zlen (tl ++ tr) <= int_max ->
    den (Cat l r (zlen (tl ++ tr)) k) (tl ++ tr)
| den_arr p ps ts :
    Forall2 den_atom (p :: ps) ts -> zlen (concat ts) <= int_max ->
    den (Arr (p :: ps) (zlen (concat ts))) (concat ts).

(** [wden s t]: the same, but the recorded lengths of composite nodes may be wrong. *)
Inductive wden : seq -> list Z -> Prop :=
| wden_leaf a t : den_atom a t -> wden (Leaf a) t
| wden_cat l r tl tr n k : wden l tl -> wden r tr -> wden (Cat l r n k) (tl ++ tr)
| wden_arr p ps ts n : Forall2 den_atom (p :: ps) ts -> wden (Arr (p :: ps) n) (concat ts).

(** leaves of a sequence, left to right *)
Fixpoint leaves (s : seq) : list atom :=
  match s with
  | Leaf a => [a]
  | Cat l r _ _ => leaves l ++ leaves r
  | Arr ps _ => ps
  end.
