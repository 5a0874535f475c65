(** C104: when two directives of the same conversion print the same text for every argument. The plainest directive that prints what
    a directive prints: parts that never show are left out, and zeros are asked for by the precision where that says the same. *)
From Verif Require Import Base Digits ContextM CompilerM FmtSpec FloatSpec.

(** the conversions compared *)
Definition covered (s : spec) : bool := match s with Sd | Su | So | Sx | SX | Sc | Ss | SS | Sf | SF | Se | SE | Sa | SA | Sn | Sp | Spct => true | _ => false end.

Definition plain : fspec := mkSpec false false false false false 0 None.

(** a width no text falls short of does not show *)
Definition width_above (shortest w : Z) : Z := if w <=? shortest then 0 else w.
(** at least one digit is printed anyway *)
Definition at_least (m : Z) : option Z := if m =? 1 then None else Some m.
Definition digits_asked (q : fspec) : Z := match q_prec q with None => 1 | Some p => p end.
(** zeros fill the field *)
Definition zero_filled (q : fspec) : bool := q_zero q && negb (q_left q) && no_prec q.

(** *** %d *)
(** With a sign in front of every number, '0' asks for one digit less than the width. A zero of precision 0 has no digits; then
    it also has no blank in front. The side of the field shows when some text other than the empty one is shorter than the field. *)
Definition plainest_d (q : fspec) : fspec :=
  let plus := q_plus q in
  let space := q_space q && negb plus in
  let w := q_width q in
  if zero_filled q then
    if plus || space then mkSpec false false plus space false 0 (at_least (Z.max 1 (w - 1)))
    else if w <=? 1 then plain
    else mkSpec false false false false true w None
  else
    let m := digits_asked q in
    let shortest := if plus || space && (0 <? m) then m + 1 else m in
    let shortest_seen := if m =? 0 then (if space then 2 else 1) else shortest in
    mkSpec (q_left q && (shortest_seen <? w)) false plus space false (width_above shortest w) (at_least m).

(** *** %u %o %x %X *)
Definition is_octal (s : spec) : bool := match s with So => true | _ => false end.
Definition has_prefix (s : spec) (q : fspec) : bool := match s with So | Sx | SX => q_alt q | _ => false end.
Definition prefix_length (s : spec) (q : fspec) : Z := if has_prefix s q then (if is_octal s then 1 else 2) else 0.
(** how many zeros stand for the number 0; other numbers have at least as many digits after their prefix *)
Definition zero_digits (s : spec) (q : fspec) : Z :=
  match q_prec q with
  | Some p => if p =? 0 then 0 else if is_octal s && q_alt q then Z.max 1 (p - 1) else p
  | None => if q_zero q && negb (q_left q) then Z.max 1 (q_width q - prefix_length s q) else 1
  end.
Definition plainest_u (s : spec) (q : fspec) : fspec :=
  let m := zero_digits s q in
  let w := q_width q in
  let shortest_seen := if m =? 0 then prefix_length s q + 1 else m in
  mkSpec (q_left q && (shortest_seen <? w)) (has_prefix s q) false false false (width_above m w)
    (at_least (if is_octal s && q_alt q && (1 <? m) then m + 1 else m)).

(** *** %f %F *)
(** NaN is three characters, and zeros do not fill its field *)
Definition shortest_fixed (q : fspec) : Z :=
  let p := prec_or 6 q in
  1 + (if p =? 0 then (if q_alt q then 1 else 0) else p + 1) + (if q_plus q || q_space q then 1 else 0).
Definition plainest_f (q : fspec) : fspec :=
  let p := prec_or 6 q in
  let w := q_width q in
  let shortest := Z.min 3 (shortest_fixed q) in
  mkSpec (q_left q && (shortest <? w)) (q_alt q && (p =? 0)) (q_plus q) (q_space q && negb (q_plus q))
    (q_zero q && negb (q_left q) && (shortest_fixed q <? w)) (width_above shortest w) (Some p).

(** *** %e %E *)
(** The exponent has at least two digits and at most ten; exponent 9 of a BigDecimal has one digit when ten digits or more are asked
    for. NaN is shorter than every number. A blank in front of the number does not show when blanks stand before it anyway. *)
Definition shortest_exp (q : fspec) : Z := shortest_fixed q + (if 9 <=? prec_or 6 q then 3 else 4).
Definition longest_exp (q : fspec) : Z :=
  let p := prec_or 6 q in 1 + (if p =? 0 then (if q_alt q then 1 else 0) else p + 1) + 12.
Definition plainest_e (q : fspec) : fspec :=
  let p := prec_or 6 q in
  let w := q_width q in
  let filled := q_zero q && negb (q_left q) && (shortest_exp q <? w) in
  let space_seen := q_left q || filled || (w <=? longest_exp q) in
  mkSpec (q_left q && (3 <? w)) (q_alt q && (p =? 0)) (q_plus q) (q_space q && negb (q_plus q) && space_seen) filled (width_above 3 w) (Some p).

(** *** %a %A *)
(** Without a precision there are one to thirteen fraction digits, else as many as asked for and at least one; the exponent has one to
    four digits. '#' does not show. *)
Definition fewest_hex (q : fspec) : Z := match q_prec q with Some p => Z.max 1 p | None => 1 end.
Definition most_hex (q : fspec) : Z := match q_prec q with Some p => Z.max 1 p | None => 13 end.
Definition shortest_hex (q : fspec) : Z := (if q_plus q || q_space q then 1 else 0) + 4 + fewest_hex q + 3.
Definition longest_hex (q : fspec) : Z := 4 + most_hex q + 6.
Definition plainest_a (q : fspec) : fspec :=
  let w := q_width q in
  let filled := q_zero q && negb (q_left q) && (shortest_hex q <? w) in
  let space_seen := q_left q || filled || (w <=? longest_hex q) in
  mkSpec (q_left q && (3 <? w)) false (q_plus q) (q_space q && negb (q_plus q) && space_seen) filled (width_above 3 w)
    (match q_prec q with Some p => Some (Z.max 1 p) | None => None end).

Definition plainest (s : spec) (q : fspec) : fspec :=
  match s with
  | Sd => plainest_d q
  | Su | So | Sx | SX => plainest_u s q
  | Sc => mkSpec (q_left q && (1 <? q_width q)) false false false false (width_above 1 (q_width q)) None
  (* the name of a class has at least one character, and '@' and one digit follow *)
  | Sp => mkSpec (q_left q && (3 <? q_width q)) false false false false (width_above 3 (q_width q)) None
  | Ss | SS =>
      mkSpec (q_left q && (1 <? q_width q) && (match q_prec q with Some 0 => false | _ => true end)) false false false false (q_width q) (q_prec q)
  | Sf | SF => plainest_f q
  | Se | SE => plainest_e q
  | Sa | SA => plainest_a q
  | _ => plain
  end.
