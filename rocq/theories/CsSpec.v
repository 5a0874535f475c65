(** Specification: what the methods of a CharSequence say about its text. *)
From Verif Require Import Base ContextM FormatterM TraitsM ValueSpec CsM.

(** length() and charAt() are those of the text [t] *)
Definition reads (o : cs) (t : list Z) : Prop :=
  cs_length o = Ok (zlen t) /\ zlen t <= int_max /\ forall i c, znth t i = Some c -> cs_charAt o i = Ok c.

(** the contract of CharSequence: toString() answers the same text *)
Definition keeps_contract (o : cs) (t : list Z) : Prop := reads o t /\ cs_toString o = Ok (Some t).

(** length() is [n], and reading the characters in order fails with [e] *)
Definition breaks (o : cs) (n : Z) (e : exn) : Prop :=
  cs_length o = Ok n /\ 1 <= n <= int_max /\
  exists i, 0 <= i < n /\ cs_charAt o i = Err e /\ forall j, 0 <= j < i -> exists c, cs_charAt o j = Ok c.

(** the conversions that read the object through length() and charAt(); the others, and '*', use toString() *)
Definition reads_characters (s : spec) : bool := match s with Ss | SS | Sc => true | _ => false end.

(** an argument list with CharSequences that keep the contract, and the same list with Strings in their place *)
Inductive string_for (J : jdk) : traits -> traits -> Prop :=
| sf_same x : argument J x -> string_for J x x
| sf_text o t r : keeps_contract o t -> string_for J (csTraits J o r) (traitsOf J (VStr t) r).
