(** Which error each malformed format string gets, stated over texts as the grammar is. *)
From Verif Require Import Base Digits ContextM CompilerM GrammarSpec.

(** widths and precisions before the range check: any number that fits an int *)
Inductive width_form : list Z -> Z -> Prop :=
| WF_none : width_form [] UNSET
| WF_star : width_form (txt "*") PRECEDING
| WF_num d ds : d <> 48 -> Forall is_dec (d :: ds) -> dec_value (d :: ds) <= int_max ->
    width_form (d :: ds) (dec_value (d :: ds)).
Inductive prec_form : list Z -> Z -> Prop :=
| PF_none : prec_form [] UNSET
| PF_star : prec_form (txt ".*") PRECEDING
| PF_num ds : Forall is_dec ds -> dec_value ds <= int_max -> prec_form (46 :: ds) (dec_value ds).

(** the numeral of a number that does not fit an int, not followed by a digit *)
Definition too_big (ds r : list Z) : Prop :=
  Forall is_dec ds /\ int_max < dec_value ds /\ forall c, hd_error r = Some c -> ~ is_dec c.

(** what may come between a '%' and the conversion character, with its width and precision *)
Definition head (h : list Z) (fl : flags) (w p : Z) (W P : list Z) : Prop :=
  exists F, flags_text F fl /\ width_form W w /\ prec_form P p /\ h = F ++ W ++ P.

(** the character [c] is read as one more character of the head *)
Definition continues (W P : list Z) (c : Z) : Prop :=
  (P = [] /\ W = [] /\ (In c flag_chars \/ c = ch "*")) \/
  (P = [] /\ W <> txt "*" /\ is_dec c) \/
  (P = [] /\ c = ch ".") \/
  (P = txt "." /\ c = ch "*") \/
  (P <> [] /\ P <> txt ".*" /\ is_dec c).

Section WithPatterns.
  Variable dtf_valid : list Z -> bool.

  (** the text after a '%' is wrong in this way; the index counts from after the '%' *)
  Inductive slip : list Z -> exn -> Prop :=
  | slip_flag F fl c r : flags_text F fl -> In c F -> slip (F ++ c :: r) (Syntax DuplicateFlag (zlen F))
  | slip_width F fl ds r : flags_text F fl -> hd_error ds <> Some 48 -> too_big ds r ->
      slip (F ++ ds ++ r) (Syntax BadWidth (zlen F))
  | slip_prec F fl W w ds r : flags_text F fl -> width_form W w -> too_big ds r ->
      slip (F ++ W ++ 46 :: ds ++ r) (Syntax BadPrecision (zlen F + zlen W + 1))
  | slip_end h fl w p W P : head h fl w p W P -> slip h (Syntax UnexpectedEnd (zlen h))
  | slip_conv h fl w p W P c r : head h fl w p W P -> ~ continues W P c -> (forall s, ~ conv_char c s) ->
      slip (h ++ c :: r) (Syntax BadSpecifier (zlen h))
  | slip_unclosed h fl w p W P c s r : head h fl w p W P -> conv_char c s -> s = St \/ s = ST ->
      (forall d r', pat false d -> r <> d ++ 125 :: r') ->
      slip (h ++ c :: 123 :: r) (Syntax UnclosedDate (zlen h + 1))
  | slip_empty h fl w p W P c s r : head h fl w p W P -> conv_char c s -> s = St \/ s = ST ->
      slip (h ++ c :: 123 :: 125 :: r) (Syntax EmptyDate (zlen h + 2))
  | slip_invalid h fl w p W P c s d r : head h fl w p W P -> conv_char c s -> s = St \/ s = ST ->
      d <> [] -> pat false d -> dtf_valid d = false ->
      slip (h ++ c :: 123 :: d ++ 125 :: r) (Syntax InvalidDate (zlen h + 2))
  | slip_wide h fl w p W P c s T d r : head h fl w p W P -> conv_char c s -> date_text dtf_valid s r T d ->
      65536 < w -> slip (h ++ c :: T ++ r) (Printf WidthRange)
  | slip_fine h fl w p W P c s T d r : head h fl w p W P -> conv_char c s -> date_text dtf_valid s r T d ->
      w <= 65536 -> 65536 < p -> slip (h ++ c :: T ++ r) (Printf PrecisionRange).

  Definition shifted (n : Z) (e : exn) : exn := match e with Syntax k i => Syntax k (n + i) | _ => e end.

  (** well-formed up to a '%' after which the text is wrong *)
  Definition malformed (src : list Z) (e : exn) : Prop :=
    exists s ds t x, src = s ++ pct :: t /\ format dtf_valid s ds /\ slip t x /\ e = shifted (zlen s + 1) x.
End WithPatterns.

(** frames of parseNext, forPattern and forFixedString on the stack when the end of the source is reached: two for
    every directive and every "%%", one for every literal text, and one for the first call *)
Definition frames (ds : list appender) : nat :=
  S (list_sum (map (fun a => match a with Fixed t => if list_eq_dec Z.eq_dec t [pct] then 2 else 1 | Default _ _ => 2 end)%nat ds)).
