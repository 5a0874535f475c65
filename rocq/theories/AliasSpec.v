(** Vocabulary for calls whose target is also an argument. *)
From Verif Require Import Base Digits SeqM ContextM CompilerM TraitsM ImplM AliasM.

(** the argument as it is while the target holds [sb], with the target replaced by a String of that content *)
Definition frozen (J : jdk) (sb : list Z) (x : targ) : traits :=
  match x with Other t => t | Itself r => traitsOf J (VStr sb) r end.

(** no %s that may get spaces in front *)
Definition stays_left (c : ctx) : Prop := c_width c = UNSET \/ f_left (c_flags c) = true.
Definition no_left_pad (d : appender) : Prop := match d with Default Ss c => stays_left c | _ => True end.
