(** What it means that a composite class outside the library is consistent. *)
From Verif Require Import Base UtilsM SeqM SeqSpec FmtSpec TraitsM FormatterM CompM.

Section Spec.
  Context {S : Type}.
  Variable K : comp S.

  (** no empty SeqArray below: such an array has no first child *)
  Fixpoint has_leaves (s : seq) : Prop :=
    match s with Leaf _ => True | Cat l r _ _ => has_leaves l /\ has_leaves r | Arr ps _ => ps <> [] end.

  (** [opens g ts]: unfolding [g] and everything below it leads, after finitely many steps, to the leaves [ts], in this order.
      [unfold] returns the first child and pushes the others so that the second one comes next. *)
  Inductive opens : cseq S -> list atom -> Prop :=
  | op_lib s : has_leaves s -> opens (CLib s) (leaves s)
  | op_own u x xs ts tss : (forall st, k_unfold K u st = Ok (x, xs ++ st)) -> opens x ts -> opens_all xs tss -> opens (COwn u) (ts ++ tss)
  | op_cat l r n k tl tr : opens l tl -> opens r tr -> opens (CCat l r n k) (tl ++ tr)
  with opens_all : list (cseq S) -> list atom -> Prop :=
  | oa_nil : opens_all [] []
  | oa_cons x xs ts tss : opens x ts -> opens_all xs tss -> opens_all (x :: xs) (ts ++ tss).

  (** the same sequence as an object of the library *)
  Definition as_array (u : S) : seq := Arr (k_iter K u) (k_length K u).

  (** iterator(), unfold(), elementCount() and toString() of the object agree with each other *)
  Definition consistent (u : S) : Prop :=
    opens (COwn u) (k_iter K u) /\ k_str K u = s_toString (as_array u) /\ 0 <= k_count K u < int_max.

  Inductive with_array (J : jdk) : karg (S:=S) -> traits -> Prop :=
  | wa_lib x : with_array J (KLib x) x
  | wa_own u r : consistent u -> with_array J (KOwn u r) (traitsOf J (VSeq (as_array u)) r).
End Spec.
