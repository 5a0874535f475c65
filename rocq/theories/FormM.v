(** Model of the remaining methods of number/NumberForm.java. *)
From Verif Require Import Base Digits UtilsM SeqM ContextM IntFormM FormatterM.

(** number/NumberForm.java:31-33, 40-42, 49-51, on the result of signum *)
Definition isNegative (signum : Z) : bool := signum <? 0.
Definition isPositive (signum : Z) : bool := 0 <? signum.
Definition isZero (signum : Z) : bool := signum =? 0.
