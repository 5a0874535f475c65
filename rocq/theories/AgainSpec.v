(** Printing what was printed: the text of a floating directive, given to the same directive. *)
From Coq Require Import QArith.
From Verif Require Import Base TraitsM ContextM CompilerM GrammarSpec DecSpec FmtSpec DirSpec FloatSpec ReadFSpec.
Open Scope Z_scope.

(** [Double.parseDouble], by its documentation: a decimal numeral is read as the double nearest to the number, ties to even,
    and as an infinity from 2^1024 - 2^970 on; the sign is kept, that of zero included *)
Definition reads_numerals (J : jdk) : Prop :=
  forall t neg x, reads_as t neg x ->
    exists b, j_parseDouble J t = Some b /\ in_range 64 b /\ (b <? 0) = neg /\ magnitude b <= inf_bits /\ rounds_to x (magnitude b).

(** the number is not read as an infinity *)
Definition below_overflow (t : list Z) : Prop := forall neg x, reads_as t neg x -> (x < inject_Z (2 ^ 54 - 1) * 2 ^ 970)%Q.

(** the doubles whose decimals with 16 significant digits do not come back *)
Definition six : list Z := [169 * 2 ^ 52 - 1; 468 * 2 ^ 52 - 1; 1142 * 2 ^ 52 - 1; 1152 * 2 ^ 52 - 1; 1394 * 2 ^ 52; 1614 * 2 ^ 52 - 1].
(** with [P] significant digits *)
Definition unstable_digits (m P : Z) : Prop := P = 16 /\ In m six \/ P = 2 /\ m = 21.
(** the directives and (magnitudes of) doubles whose texts do not come back *)
Definition unstable (s : spec) (q : fspec) (m : Z) : Prop :=
  match s with
  | Sf | SF => prec_or 6 q = 273 /\ m = 169 * 2 ^ 52 - 1 \/ prec_or 6 q = 183 /\ m = 468 * 2 ^ 52 - 1
  | Se | SE => unstable_digits m (prec_or 6 q + 1)
  | Sg | SG => unstable_digits m (g_prec q)
  | _ => False
  end.
