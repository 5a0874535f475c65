(** C116: the texts of arrays of arrays. *)
From Verif Require Import Base Digits SeqM FormatterM TraitsM ValueSpec ArrM ArrSpec DeepM.

(** the text of the array at a place of the heap, while the arrays at [seen] are being printed *)
Inductive deep_text (J : jdk) (h : heap) : list nat -> nat -> list Z -> Prop :=
| dt_prim seen i a t : nth_error h i = Some (CPrim a) -> array_text J a t -> deep_text J h seen i t
| dt_again seen i l : nth_error h i = Some (CObjects l) -> In i seen -> deep_text J h seen i (txt "[...]")
| dt_objects seen i l ts : nth_error h i = Some (CObjects l) -> ~ In i seen -> elems_text J h (i :: seen) l ts -> deep_text J h seen i (listed ts)
with elems_text (J : jdk) (h : heap) : list nat -> list elem -> list (list Z) -> Prop :=
| et_nil seen : elems_text J h seen [] []
| et_null seen l ts : elems_text J h seen l ts -> elems_text J h seen (ENull :: l) (txt "null" :: ts)
| et_plain seen v other l t ts : item_text J (Some (v, other)) t -> elems_text J h seen l ts -> elems_text J h seen (EPlain v other :: l) (t :: ts)
| et_array seen j l t ts : deep_text J h seen j t -> elems_text J h seen l ts -> elems_text J h seen (ERef j :: l) (t :: ts).

(** all references lead to arrays, and the elements are of their types *)
Definition elem_ok (h : heap) (e : elem) : Prop := match e with ENull => True | EPlain v _ => java_value v | ERef j => (j < List.length h)%nat end.
Definition cell_ok (h : heap) (c : cell) : Prop :=
  match c with CPrim a => array_ok a /\ (match a with AObjects _ => False | _ => True end) | CObjects l => Forall (elem_ok h) l end.
(** no array contains itself, not even through others *)
Definition no_cycle (h : heap) : Prop := exists rank : nat -> nat, forall i l j, nth_error h i = Some (CObjects l) -> In (ERef j) l -> (rank j < rank i)%nat.

(** the elements as arguments of their own *)
Definition elem_arg (J : jdk) (h : heap) (e : elem) : traits :=
  match e with ENull => nullTraits | EPlain v _ => traitsOf J v (RObj [] 0) | ERef j => deepArg J h j (RObj [] 0) end.
(** as in [plain_item]: no element is an object whose toString fails, or an array that is not in the heap *)
Definition plain_elem (e : elem) : Prop := match e with EPlain v other => plain_item (Some (v, other)) | _ => True end.
