(** Vocabulary for statements about the format loop: how many arguments pieces take, well-behaved arguments,
    and directives with '*'. *)
From Verif Require Import Base Digits SeqM SeqSpec ContextM CompilerM GrammarSpec TraitsM ImplM.

(** one argument per directive, one more for each '*' *)
Definition arity (d : appender) : Z :=
  match d with
  | Fixed _ => 0
  | Default _ c => 1 + (if c_width c =? PRECEDING then 1 else 0) + (if c_prec c =? PRECEDING then 1 else 0)
  end.
Fixpoint arities (ds : list appender) : Z := match ds with [] => 0 | d :: r => arity d + arities r end.

(** the flags, width and precision a conversion can be given, '*' resolved: each at most 65536, or absent; a '*' width of
    Integer.MIN_VALUE stays as it is and sets '-' *)
Definition context_ok (c : ctx) : Prop :=
  (c_width c = UNSET \/ 0 <= c_width c <= 65536 \/ (c_width c = int_min /\ f_left (c_flags c) = true)) /\
  (c_prec c = UNSET \/ 0 <= c_prec c <= 65536).

(** every conversion of [x] that succeeds gives a Seq that can be written and has a text; as a '*' it is a Java int *)
Definition honest (J : jdk) (x : traits) : Prop :=
  (forall w, t_asInt x = Ok w -> is_int w) /\
  forall sp c s, context_ok c -> formatterFor J sp c x = Ok s -> exists t, wden s t.

(** no conversion of [x] itself claims that an argument is missing *)
Definition quiet_arg (J : jdk) (x : traits) : Prop :=
  t_asInt x <> Err (Printf MissingArg) /\
  forall sp c, context_ok c -> formatterFor J sp c x <> Err (Printf MissingArg).

(** flags and width text that write the argument [w] of a '*' in place *)
Definition star_flags (F : list Z) (w : Z) : list Z :=
  if w <? 0 then (if existsb (Z.eqb 45) F then F else 45 :: F) else F.
Definition star_width (w : Z) : list Z := dec_text (Z.abs w).
Definition star_prec (p : Z) : list Z := if p <? 0 then [] else 46 :: dec_text p.

(** an action that only appends to the builder it is given, the same whatever that holds; a Seq made of such *)
Definition appends_only (act : list Z -> res (list Z)) : Prop :=
  forall sb, act sb = let* v := act [] in Ok (sb ++ v).
Definition tame_atom (a : atom) : Prop := match a with ALazy act _ => appends_only act | _ => True end.
Fixpoint tame (s : seq) : Prop :=
  match s with Leaf a => tame_atom a | Cat l r _ _ => tame l /\ tame r | Arr ps _ => Forall tame_atom ps end.
(** whatever an argument is converted to is such a Seq *)
Definition tame_arg (J : jdk) (x : traits) : Prop :=
  forall sp c s, formatterFor J sp c x = Ok s -> tame s.
