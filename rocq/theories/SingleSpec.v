(** Floats (binary32): what reading a decimal as a float gives, for C63. *)
From Coq Require Import QArith Qabs.
From Verif Require Import Base ContextM CompilerM FmtSpec DecSpec FloatSpec ReadFSpec.
Open Scope Z_scope.

(** the pattern of infinity; its [fval] is 2^128, the value deciding about overflow *)
Definition finf_bits : Z := 255 * 2 ^ 23.
(** the pattern without its sign *)
Definition fmagnitude (f : Z) : Z := f mod 2 ^ 31.

(** reading [x] >= 0 gives the float [g]: no other float is nearer, and on a tie [g] is the even one *)
Definition frounds_to (x : Q) (g : Z) : Prop :=
  forall g' : Z, 0 <= g' <= finf_bits ->
    (Qabs (x - fval g) <= Qabs (x - fval g'))%Q /\
    (g' <> g -> (Qabs (x - fval g) == Qabs (x - fval g'))%Q -> Z.even g = true).

(** [t] reads as the finite float [f] *)
Definition freads_back (t : list Z) (f : Z) : Prop := exists x, reads_as t (f <? 0) x /\ frounds_to x (fmagnitude f).

(** a precision that distinguishes all floats *)
Definition keeps_floats (s : spec) (q : fspec) : Prop :=
  match s with
  | Sf | SF => 46 <= prec_or 6 q
  | Se | SE => 9 <= prec_or 6 q + 1
  | Sg | SG => 9 <= g_prec q
  | _ => False
  end.

(** the conversion shows at most [n] significant digits of [y] *)
Definition shows_at_most (s : spec) (q : fspec) (y : Q) (n : Z) : Prop :=
  match s with
  | Sf | SF => (y * 10 ^ prec_or 6 q < 10 ^ n)%Q
  | Se | SE => prec_or 6 q + 1 <= n
  | Sg | SG => g_prec q <= n
  | _ => False
  end.
