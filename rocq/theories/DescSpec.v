(** What the exception for each malformed format string says, stated over texts as ErrSpec.v is. *)
From Verif Require Import Base Digits ContextM CompilerM GrammarSpec ErrSpec.

(** the names of the flag constants *)
Definition constant_names : list (Z * list Z) :=
  [(ch "-", txt "LEFT_JUSTIFY"); (ch "#", txt "ALTERNATE"); (ch "+", txt "PLUS"); (ch " ", txt "LEADING_SPACE");
   (ch "0", txt "ZERO_PAD")].

(** what is said when the format string ends within a directive *)
Inductive ending : list Z -> list Z -> list Z -> list Z -> Prop :=
| end_percent : ending [] [] [] (txt "Format string terminates in the middle of a format specifier")
| end_flags h : h <> [] -> ending h [] [] (txt "Format string lacks width or specifier")
| end_dot h W : ending h W (txt ".") (txt "Format string terminates after '.'")
| end_number h W P : P <> txt "." -> W <> [] \/ P <> [] -> ending h W P (txt "Format string lacks specifier").

Section WithPatterns.
  Variable dtf_valid : list Z -> bool.

  (** the text after the '%' that ends at index [n] is wrong, and this is said about it; the last component: whether
      the exception has a cause *)
  Inductive said (n : Z) : list Z -> exn -> list Z -> bool -> Prop :=
  | said_flag F fl c r name : flags_text F fl -> In c F -> In (c, name) constant_names ->
      said n (F ++ c :: r) (Syntax DuplicateFlag (zlen F)) (txt "Duplicate flag '" ++ name ++ txt "'") false
  | said_width F fl ds r : flags_text F fl -> hd_error ds <> Some 48 -> too_big ds r ->
      said n (F ++ ds ++ r) (Syntax BadWidth (zlen F)) (txt "Invalid width: '" ++ ds ++ txt "'") false
  | said_prec F fl W w ds r : flags_text F fl -> width_form W w -> too_big ds r ->
      said n (F ++ W ++ 46 :: ds ++ r) (Syntax BadPrecision (zlen F + zlen W + 1))
           (txt "Invalid precision: '" ++ ds ++ txt "'") false
  | said_end h fl w p W P m : head h fl w p W P -> ending h W P m ->
      said n h (Syntax UnexpectedEnd (zlen h)) m false
  | said_conv h fl w p W P c r : head h fl w p W P -> ~ continues W P c -> (forall s, ~ conv_char c s) ->
      said n (h ++ c :: r) (Syntax BadSpecifier (zlen h)) (txt "Unknown format conversion specifier '" ++ [c] ++ txt "'") false
  | said_unclosed h fl w p W P c s r : head h fl w p W P -> conv_char c s -> s = St \/ s = ST ->
      (forall d r', pat false d -> r <> d ++ 125 :: r') ->
      said n (h ++ c :: 123 :: r) (Syntax UnclosedDate (zlen h + 1))
           (txt "Unclosed date/time pattern starting at index " ++ dec_text (n + zlen h + 1)) false
  | said_empty h fl w p W P c s r : head h fl w p W P -> conv_char c s -> s = St \/ s = ST ->
      said n (h ++ c :: 123 :: 125 :: r) (Syntax EmptyDate (zlen h + 2)) (txt "Empty date/time pattern") false
  | said_invalid h fl w p W P c s d r : head h fl w p W P -> conv_char c s -> s = St \/ s = ST ->
      d <> [] -> pat false d -> dtf_valid d = false ->
      said n (h ++ c :: 123 :: d ++ 125 :: r) (Syntax InvalidDate (zlen h + 2))
           (txt "Invalid date/time pattern: '" ++ d ++ txt "'") true
  | said_wide h fl w p W P c s T d r : head h fl w p W P -> conv_char c s -> date_text dtf_valid s r T d ->
      65536 < w ->
      said n (h ++ c :: T ++ r) (Printf WidthRange)
           (txt "Width " ++ dec_text w ++ txt " exceeds the maximum allowed value of 65536") false
  | said_fine h fl w p W P c s T d r : head h fl w p W P -> conv_char c s -> date_text dtf_valid s r T d ->
      w <= 65536 -> 65536 < p ->
      said n (h ++ c :: T ++ r) (Printf PrecisionRange)
           (txt "Precision " ++ dec_text p ++ txt " exceeds the maximum allowed value of 65536") false.

  Definition complaint (src : list Z) (e : exn) (m : list Z) (cause : bool) : Prop :=
    exists s ds t x, src = s ++ pct :: t /\ format dtf_valid s ds /\ said (zlen s + 1) t x m cause /\ e = shifted (zlen s + 1) x.
End WithPatterns.
