(** C113: what the repaired percent sign is to print. *)
From Verif Require Import Base Digits SeqM ContextM CompilerM FmtSpec TraitsM ImplM PctM.

(** every entry point writes [t], as in DirSpec.v *)
Definition printsP (J : jdk) (src : list Z) (args : list traits) (t : list Z) : Prop :=
  forall dtf, exists apps, compile dtf src = Ok apps /\ formatP J apps args = Ok t /\
    forall sb target, formatIntoP J sb apps args target = (target ++ t, None).

(** the sign in its field *)
Definition sign_field (c : ctx) : list Z :=
  let pad := spaces (c_width c - 1) in if f_left (c_flags c) then txt "%" ++ pad else pad ++ txt "%".

(** a directive that is a sign in its field is the same as that text in the format *)
Definition literal (d : appender) : appender := match d with Default Spct c => Fixed (sign_field c) | _ => d end.

(** no '*' in it *)
Definition starless (d : appender) : Prop := match d with Default Spct c => c_width c <> PRECEDING /\ c_prec c <> PRECEDING | _ => True end.
Definition no_sign (d : appender) : Prop := match d with Default Spct _ => False | _ => True end.
