(** C70: the argument a message should name. *)
From Verif Require Import Base Digits SeqM ContextM BigDecM TraitsM MsgM.

(** the text occurs in the message *)
Definition names (m : message) (t : list Z) : Prop := exists a b, m_text m = a ++ t ++ b.

Definition integer_conv (s : spec) : Prop := In s [Sd; Su; So; Sx; SX].
Definition float_conv (s : spec) : Prop := In s [Sf; SF; Se; SE; Sg; SG; Sa; SA].

(** [own_text J K v t]: the argument [v] is shown as [t] by its own toString (or by what stands for it if that throws) *)
Inductive own_text (J : jdk) (K : shown) : value -> list Z -> Prop :=
| ow_str t : own_text J K (VStr t) t
| ow_chars t : own_text J K (VChars t) t
| ow_seq q t : s_toString q = Ok t -> own_text J K (VSeq q) t
| ow_int n : own_text J K (VInt n) (dec_text n)
| ow_long n : own_text J K (VLong n) (dec_text n)
| ow_big n : own_text J K (VBig n) (dec_text n)
| ow_double b : own_text J K (VDouble b) (j_doubleToString J b)
| ow_dec d : own_text J K (VDec d) (j_bigDecText J d)
| ow_temporal t : own_text J K (VTemporal t) (j_temporalText J t)
| ow_object t : own_text J K (VObj (OOther (Ok t))) t
| ow_null : own_text J K (VObj (OOther (Err NullPtr))) (txt "null")
| ow_thrower e : e <> NullPtr -> own_text J K (VObj (OOther (Err e))) (k_thrower K (OOther (Err e)))
| ow_bytes s : own_text J K (VObj (OBytes s)) (k_identity K (OBytes s))
| ow_chararray s : own_text J K (VObj (OChars s)) (k_identity K (OChars s))
| ow_prims l : own_text J K (VObj (OPrims l)) (k_identity K (OPrims l))
| ow_array l : own_text J K (VObj (OArray l)) (k_identity K (OArray l)).

(** the arguments and conversions whose messages do name the argument *)
Inductive named : spec -> value -> Prop :=
| nm_str s t : integer_conv s \/ float_conv s -> named s (VStr t)
| nm_chars s t : integer_conv s \/ float_conv s -> named s (VChars t)
| nm_seq s q : integer_conv s \/ float_conv s -> named s (VSeq q)
| nm_big s n : integer_conv s -> named s (VBig n)
| nm_temporal s t : integer_conv s \/ float_conv s -> named s (VTemporal t)
| nm_object s o : s <> Sp -> named s (VObj o).
