(** Model of Flag.java, Specifier.java and FormatContext.java. *)
From Verif Require Import Base Digits UtilsM.

(** Flag.java:4-28 *)
Inductive flag := LEFT_JUSTIFY | ALTERNATE | PLUS | LEADING_SPACE | ZERO_PAD.

(** EnumSet<Flag> *)
Record flags := mkFlags {
  f_left : bool; f_alt : bool; f_plus : bool; f_space : bool; f_zero : bool }.

Definition noFlags : flags := mkFlags false false false false false.

Definition hasF (f : flag) (s : flags) : bool :=
  match f with
  | LEFT_JUSTIFY => f_left s | ALTERNATE => f_alt s | PLUS => f_plus s
  | LEADING_SPACE => f_space s | ZERO_PAD => f_zero s
  end.

Definition addF (f : flag) (s : flags) : flags :=
  match f with
  | LEFT_JUSTIFY => mkFlags true (f_alt s) (f_plus s) (f_space s) (f_zero s)
  | ALTERNATE => mkFlags (f_left s) true (f_plus s) (f_space s) (f_zero s)
  | PLUS => mkFlags (f_left s) (f_alt s) true (f_space s) (f_zero s)
  | LEADING_SPACE => mkFlags (f_left s) (f_alt s) (f_plus s) true (f_zero s)
  | ZERO_PAD => mkFlags (f_left s) (f_alt s) (f_plus s) (f_space s) true
  end.

(** Flag.java:30-45 *)
Definition flag_of_char (c : Z) : option flag :=
  if c =? ch "-" then Some LEFT_JUSTIFY
  else if c =? ch "#" then Some ALTERNATE
  else if c =? ch "+" then Some PLUS
  else if c =? ch " " then Some LEADING_SPACE
  else if c =? ch "0" then Some ZERO_PAD
  else None.

(** Specifier.java:4-25 *)
Inductive spec :=
| Sd | Su | So | Sx | SX | Sf | SF | Se | SE | Sg | SG | Sa | SA | Sc | Ss | SS | St | ST | Sn | Sp | Spct.

(** Specifier.java:5-25, the character of each constant; toString 47-49 *)
Definition spec_char (s : spec) : Z :=
  match s with
  | Sd => ch "d" | Su => ch "u" | So => ch "o" | Sx => ch "x" | SX => ch "X" | Sf => ch "f"
  | SF => ch "F" | Se => ch "e" | SE => ch "E" | Sg => ch "g" | SG => ch "G" | Sa => ch "a"
  | SA => ch "A" | Sc => ch "c" | Ss => ch "s" | SS => ch "S" | St => ch "t" | ST => ch "T"
  | Sn => ch "n" | Sp => ch "p" | Spct => ch "%"
  end.

(** Specifier.java:27 VALUES, in declaration order *)
Definition spec_values : list spec :=
  [Sd; Su; So; Sx; SX; Sf; SF; Se; SE; Sg; SG; Sa; SA; Sc; Ss; SS; St; ST; Sn; Sp; Spct].

(** Specifier.java:34-44 *)
Definition spec_of_char (c : Z) : option spec :=
  if c =? ch "i" then Some Sd
  else List.find (fun s => spec_char s =? c) spec_values.

(** Specifier.java:51-53 *)
Definition isDateTimeSpec (s : spec) : bool := match s with St | ST => true | _ => false end.

(** FormatContext.java:10-14 *)
Definition PRECEDING : Z := int_min.
Definition UNSET : Z := -1.
Definition MAX_WP : Z := 65536.

(** FormatContext.java:17-20. A DateTimeFormatter is represented by the pattern it was made from. *)
Record ctx := mkCtx {
  c_flags : flags; c_width : Z; c_prec : Z; c_dtf : option (list Z) }.

(** FormatContext.java:31-41 *)
Definition checkValue (k : pk) (v : Z) : res unit :=
  if (v <? 0) && negb (v =? UNSET) && negb (v =? PRECEDING) then Err (Printf k)
  else if MAX_WP <? v then Err (Printf k)
  else Ok tt.

(** FormatContext.java:51-57 *)
Definition ctx_create (fl : flags) (w p : Z) (d : option (list Z)) : res ctx :=
  let* _ := checkValue WidthRange w in
  let* _ := checkValue PrecisionRange p in
  Ok (mkCtx fl w p d).

(** FormatContext.java:79-83 *)
Definition setWidth (c : ctx) (w : Z) : res ctx :=
  let* _ := checkValue WidthRange w in Ok (mkCtx (c_flags c) w (c_prec c) (c_dtf c)).

(** FormatContext.java:93-97 *)
Definition setPrecision (c : ctx) (p : Z) : res ctx :=
  let* _ := checkValue PrecisionRange p in Ok (mkCtx (c_flags c) (c_width c) p (c_dtf c)).

(** FormatContext.java:115-123 *)
Definition addFlag (c : ctx) (f : flag) : ctx :=
  mkCtx (addF f (c_flags c)) (c_width c) (c_prec c) (c_dtf c).

(** FormatContext.java:85-87, 99-101, 103-109, 125-127 *)
Definition isWidthSet (c : ctx) : bool := negb (c_width c =? UNSET).
Definition isPrecisionSet (c : ctx) : bool := negb (c_prec c =? UNSET).
Definition isPrecedingWidth (c : ctx) : bool := c_width c =? PRECEDING.
Definition isPrecedingPrecision (c : ctx) : bool := c_prec c =? PRECEDING.
Definition hasFlag (c : ctx) (f : flag) : bool := hasF f (c_flags c).

(** FormatContext.java:142-160: the for-each over an EnumSet visits constants in declaration order *)
Definition flags_text_of (s : flags) : list Z :=
  (if f_left s then [ch "-"] else []) ++ (if f_alt s then [ch "#"] else []) ++
  (if f_plus s then [ch "+"] else []) ++ (if f_space s then [ch " "] else []) ++
  (if f_zero s then [ch "0"] else []).

(** FormatContext.java:138-173 *)
Definition toPatternString (c : ctx) (s : spec) : list Z :=
  [ch "%"] ++ flags_text_of (c_flags c)
  ++ (if c_width c =? PRECEDING then [ch "*"]
      else if negb (c_width c =? UNSET) then dec_text (c_width c) else [])
  ++ (if c_prec c =? PRECEDING then [ch "."; ch "*"]
      else if negb (c_prec c =? UNSET) then [ch "."] ++ dec_text (c_prec c) else [])
  ++ [spec_char s].
