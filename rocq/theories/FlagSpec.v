(** Flags that are documented to be ignored (Flag.java:6-28): stated over the directive alone. *)
From Verif Require Import Base Digits ContextM CompilerM GrammarSpec.

Definition integer_conversion (s : spec) : Prop := In s [Sd; Su; So; Sx; SX].
(** conversions to which only '-', width and (for strings) precision apply *)
Definition text_conversion (s : spec) : Prop := In s [Sc; Ss; SS; St; ST; Sp; Sn; Spct].

(** the flag character [g] of a directive with conversion [s], flag characters [F], width [w] and precision [p] has no
    effect *)
Inductive ignored (s : spec) (F : list Z) (w p : Z) : Z -> Prop :=
| ig_blank : In (ch "+") F -> ignored s F w p (ch " ")
| ig_zero_left : In (ch "-") F -> ignored s F w p (ch "0")
| ig_zero_precision : integer_conversion s -> 0 <= p -> ignored s F w p (ch "0")
| ig_zero_text : text_conversion s -> ignored s F w p (ch "0")
| ig_zero_no_width : w = UNSET -> ignored s F w p (ch "0")
| ig_alternate : text_conversion s \/ In s [Sd; Su; Sa; SA] -> ignored s F w p (ch "#")
| ig_alternate_digits : In s [Sf; SF; Se; SE] -> p = UNSET \/ 0 < p -> ignored s F w p (ch "#")
| ig_plus : text_conversion s \/ In s [Su; So; Sx; SX] -> ignored s F w p (ch "+")
| ig_space : text_conversion s \/ In s [Su; So; Sx; SX] -> ignored s F w p (ch " ")
| ig_left : w = UNSET -> ignored s F w p (ch "-")
| ig_none g : In s [Sn; Spct] -> ignored s F w p g.
