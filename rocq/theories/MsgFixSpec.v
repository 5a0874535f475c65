(** C112: the texts of all arguments. *)
From Verif Require Import Base Digits SeqM SeqSpec ContextM BigDecM TraitsM MsgM MsgSpec.

(** as [own_text], for the other classes too *)
Inductive its_text (J : jdk) (K : MsgM.shown) : value -> list Z -> Prop :=
| it_own v t : own_text J K v t -> its_text J K v t
| it_true : its_text J K (VBool true) (txt "true")
| it_false : its_text J K (VBool false) (txt "false")
| it_char c : its_text J K (VChar c) [c]
| it_byte n : its_text J K (VByte n) (dec_text n)
| it_short n : its_text J K (VShort n) (dec_text n)
| it_float b : its_text J K (VFloat b) (j_floatToString J b)
| it_number a b c t : its_text J K (VObj (ONumber a b c (Ok t))) t
| it_date a b t : its_text J K (VObj (ODate a b (Ok t))) t
| it_calendar a t : its_text J K (VObj (OCalendar a (Ok t))) t.

(** a sequence really has the text [t]; nothing is asked of the others *)
Definition whole (v : value) (t : list Z) : Prop := match v with VSeq q => den q t | _ => True end.
