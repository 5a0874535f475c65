(** Rounding to a number of significant digits, stated without reference to positions. *)
From Coq Require Import QArith Qabs.
From Verif Require Import Base DecSpec.
Open Scope Z_scope.

(** no number of at most [P] significant digits is nearer to [x] than [y] *)
Definition nearest_sig (x : Q) (P : Z) (y : Q) : Prop := forall M E, Z.abs M < 10 ^ P -> (Qabs (x - y) <= Qabs (x - dec M E))%Q.

(** [T] is halfway between two neighbouring positive numbers of [P] significant digits *)
Definition sig_midpoint (P : Z) (T : Q) : Prop := exists M E, 10 ^ (P - 1) <= M < 10 ^ P /\ (T == dec (2 * M + 1) E * (1 # 2))%Q.

(** such a midpoint separates [x] from [d]; when it is [d] itself it counts if [x] is below *)
Definition midpoint_between (x d : Q) (P : Z) : Prop := exists T, sig_midpoint P T /\ (x < T <= d \/ d < T < x)%Q.
