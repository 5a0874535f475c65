(** How many leaves a sequence has, and which arguments stay away from the limits of the int type. *)
From Verif Require Import Base SeqM ContextM IntFormM FormatterM TraitsM SeqExpr CountM.

(** the number of leaves *)
Fixpoint size (s : seq) : Z :=
  match s with Leaf _ => 1 | Cat l r _ _ => size l + size r | Arr ps _ => zlen ps end.

(** every [Concat] records the number of its leaves as an int *)
Fixpoint tallied (s : seq) : Prop :=
  match s with
  | Leaf _ => True
  | Cat l r _ k => tallied l /\ tallied r /\ k = wrap32 (size s)
  | Arr ps _ => zlen ps <= int_max
  end.

(** an argument: null, or a value; a sequence among them has fewer than 2^31 - 1 leaves and a recorded length that is not
    negative *)
Definition arg := option (value * refslot).
Definition moderate (a : arg) : Prop :=
  match a with
  | Some (VSeq q, _) => tallied q /\ size q < int_max /\ 0 <= s_len q
  | _ => True
  end.

(** the trait object of an argument, without and with the checks *)
Definition loose (J : jdk) (a : arg) : traits := match a with None => nullTraits | Some (v, r) => traitsOf J v r end.
Definition strict (J : jdk) (a : arg) : traits := match a with None => nullTraits | Some (v, r) => c_traitsOf J v r end.

(** n doublings of a sequence *)
Fixpoint doubled (n : nat) (s : seq) : seq :=
  match n with O => s | S n => let t := doubled n s in s_concat t t end.

(** sequence expressions: how many leaves they ask for *)
Fixpoint parts (e : sexpr) : Z :=
  match e with
  | Xatom _ => 1
  | Xconcat l r | Xappend l r | Xprepend l r => parts l + parts r
  | Xjoin l => Z.max 1 (zlen l)
  | Xupper s => parts s
  end.
(** their evaluation with the check of upperCase() *)
Fixpoint c_seval (e : sexpr) : res seq :=
  match e with
  | Xatom a => let* x := aeval a in Ok (Leaf x)
  | Xconcat l r => let* x := c_seval l in let* y := c_seval r in Ok (s_concat x y)
  | Xappend s x => let* a := c_seval s in let* b := c_seval x in Ok (s_append a b)
  | Xprepend s x => let* a := c_seval s in let* b := c_seval x in Ok (s_prepend a b)
  | Xjoin l => let* xs := mapM aeval l in Ok (s_join xs)
  | Xupper s => let* a := c_seval s in c_upper a
  end.
