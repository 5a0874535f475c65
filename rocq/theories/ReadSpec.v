(** Reading back printed integers: a reader independent of the printer. *)
From Verif Require Import Base.

(** value of a digit 0-9, a-f or A-F *)
Definition hexval (c : Z) : Z :=
  if (48 <=? c) && (c <=? 57) then c - 48
  else if (97 <=? c) && (c <=? 102) then c - 97 + 10
  else if (65 <=? c) && (c <=? 70) then c - 65 + 10 else 0.

Definition read_digits (b : Z) (t : list Z) : Z := fold_left (fun a c => a * b + hexval c) t 0.

Definition drop_spaces (t : list Z) : list Z := filter (fun c => negb (c =? 32)) t.

(** an unsigned number, with or without 0x *)
Definition strip_0x (t : list Z) : list Z :=
  match t with
  | z :: x :: r => if (z =? 48) && ((x =? 120) || (x =? 88)) then r else t
  | _ => t
  end.
Definition read_uint (b : Z) (t : list Z) : Z := read_digits b (strip_0x (drop_spaces t)).

(** a decimal number with optional sign *)
Definition read_int (t : list Z) : Z :=
  match drop_spaces t with
  | c :: r => if c =? 45 then - read_digits 10 r else if c =? 43 then read_digits 10 r else read_digits 10 (c :: r)
  | [] => 0
  end.
