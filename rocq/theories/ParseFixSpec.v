(** What the repaired parser says about each malformed format string. *)
From Verif Require Import Base Digits ContextM CompilerM GrammarSpec ErrSpec DescSpec CharSpec.

(** the first character of a text: a pair of surrogates, or one element *)
Inductive first_char : list Z -> list Z -> Prop :=
| fc_pair h l r : high h -> low l -> first_char (h :: l :: r) [h; l]
| fc_one c r : (high c -> forall l r', r = l :: r' -> ~ low l) -> first_char (c :: r) [c].

(** [m] is said instead of [m0] *)
Definition reworded (src : list Z) (e : exn) (m0 m : list Z) : Prop :=
  match e with
  | Syntax DuplicateFlag i => exists q, first_char (skipn (Z.to_nat i) src) q /\ m = txt "Duplicate flag '" ++ q ++ txt "'"
  | Syntax BadSpecifier i => exists q, first_char (skipn (Z.to_nat i) src) q /\ m = txt "Unknown format conversion specifier '" ++ q ++ txt "'"
  | _ => m = m0
  end.

Definition complains (dtf : list Z -> bool) (src : list Z) (e : exn) (m : list Z) (cause : bool) : Prop :=
  exists m0, complaint dtf src e m0 cause /\ reworded src e m0 m.
