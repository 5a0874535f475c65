(** Reference printf at the level of texts, following C11 7.21.6.1. Independent of the rope model. *)
From Verif Require Import Base Digits.

(** What a directive asks for: flags, minimum field width (0 if none), precision if given. *)
Record fspec := mkSpec {
  q_left : bool; q_alt : bool; q_plus : bool; q_space : bool; q_zero : bool;
  q_width : Z; q_prec : option Z }.

Definition spaces (n : Z) : list Z := rep (ch " ") n.
Definition zeros (n : Z) : list Z := rep (ch "0") n.

(** pad with spaces to the field width, on the side the '-' flag selects *)
Definition justify (q : fspec) (t : list Z) : list Z :=
  if q_left q then t ++ spaces (q_width q - zlen t) else spaces (q_width q - zlen t) ++ t.

(** sign of a signed conversion *)
Definition sign_text (q : fspec) (neg : bool) : list Z :=
  if neg then txt "-" else if q_plus q then txt "+" else if q_space q then txt " " else [].

(** pad a signed or prefixed number: zeros between prefix and digits when [zp] (the '0' flag applies) *)
Definition pad_number (q : fspec) (zp : bool) (prefix body : list Z) : list Z :=
  if zp && negb (q_left q) then prefix ++ zeros (q_width q - zlen prefix - zlen body) ++ body
  else justify q (prefix ++ body).

(** at least [p] digits *)
Definition min_digits (p : Z) (ds : list Z) : list Z := zeros (p - zlen ds) ++ ds.

Definition no_prec (q : fspec) : bool := match q_prec q with None => true | Some _ => false end.

(** digits of an integer conversion in base [b]: zero with precision 0 gives no characters *)
Definition int_digits (b n : Z) (prec : option Z) : list Z :=
  match prec with
  | Some p => if (n =? 0) && (p =? 0) then [] else min_digits p (numeral b n)
  | None => numeral b n
  end.

(** %d / %i of the integer [v] *)
Definition c_d (q : fspec) (v : Z) : list Z :=
  pad_number q (q_zero q && no_prec q) (sign_text q (v <? 0)) (int_digits 10 (Z.abs v) (q_prec q)).

(** %u of [n >= 0] *)
Definition c_u (q : fspec) (n : Z) : list Z :=
  pad_number q (q_zero q && no_prec q) [] (int_digits 10 n (q_prec q)).

(** %x of [n >= 0] *)
Definition c_x (q : fspec) (n : Z) : list Z :=
  pad_number q (q_zero q && no_prec q) (if q_alt q && negb (n =? 0) then txt "0x" else [])
    (int_digits 16 n (q_prec q)).

(** %o of [n >= 0]: '#' forces the first digit to be a zero *)
Definition force_zero (ds : list Z) : list Z :=
  match ds with 48 :: _ => ds | _ => 48 :: ds end.

Definition c_o (q : fspec) (n : Z) : list Z :=
  let ds := int_digits 8 n (q_prec q) in
  pad_number q (q_zero q && no_prec q) [] (if q_alt q then force_zero ds else ds).

(** %s of the text [t] *)
Definition c_s (q : fspec) (t : list Z) : list Z :=
  justify q (match q_prec q with Some p => firstn (Z.to_nat p) t | None => t end).

(** %c of the character [c] *)
Definition c_c (q : fspec) (c : Z) : list Z := justify q [c].

(** ** What fast-printf prints where it departs from C (DESIGN.md, findings) *)

(** "% .0d" of 0 omits the space *)
Definition d_irregular (q : fspec) (v : Z) : bool :=
  (v =? 0) && (match q_prec q with Some 0 => true | _ => false end) && q_space q && negb (q_plus q).
Definition j_d (q : fspec) (v : Z) : list Z := if d_irregular q v then justify q [] else c_d q v.

(** "%#0wx" of 0 pads to w-2 digits, as if the prefix were printed *)
Definition x_irregular (q : fspec) (n : Z) : bool :=
  q_alt q && (n =? 0) && no_prec q && q_zero q && negb (q_left q).
Definition j_x (q : fspec) (n : Z) : list Z :=
  if x_irregular q n then justify q (min_digits (q_width q - 2) (txt "0")) else c_x q n.

(** "%#.po" and "%#0wo" of 0 print one digit less than C, "%#.0o" none *)
Definition o_irregular (q : fspec) (n : Z) : bool :=
  q_alt q && (n =? 0) && (negb (no_prec q) || (q_zero q && negb (q_left q))).
Definition j_o (q : fspec) (n : Z) : list Z :=
  if o_irregular q n then
    justify q (match q_prec q with
               | Some p => if p =? 0 then [] else min_digits (p - 1) (txt "0")
               | None => min_digits (q_width q - 1) (txt "0")
               end)
  else c_o q n.

(** the same directive without a width *)
Definition no_width (q : fspec) : fspec :=
  mkSpec (q_left q) (q_alt q) (q_plus q) (q_space q) (q_zero q) 0 (q_prec q).
