(** A repaired asSeq for finding 41 of DESIGN.md, in the manner of RepairM.v. Change: CharSequenceTraits.asSeq (CharSequenceTraits.java:67-75) hands over an argument whose class implements
    [Seq] but not [AtomicSeq] in an adapter, an [AtomicSeq] that delegates every method to the argument and wraps what subSequence and upperCase return in the same way. *)
From Verif Require Import Base Digits UtilsM SeqM ContextM CompilerM FormatterM TraitsM ImplM UserM.

(** the class of the sequences handed over: what is no [AtomicSeq] comes in the adapter, whose elementCount is that of AtomicSeq.java:12-14 *)
Definition adapted {S} (K : cls S) : cls S :=
  mkCls S (fun _ => true) (u_len K) (u_at K) (u_sub K) (u_up K) (u_sb K) (u_app K) (fun u => if u_atomic K u then u_count K u else 1) (u_str K).
