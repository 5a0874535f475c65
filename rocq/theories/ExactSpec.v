(** Where the leaves of a sequence begin. *)
From Coq Require Import QArith Qabs.
From Verif Require Import Base FmtSpec BigSpec.
Open Scope Z_scope.

(** offset of the stretch of [ts] that contains the character before position [j] *)
Fixpoint leaf_start (ts : list (list Z)) (j : Z) : Z :=
  match ts with
  | [] => 0
  | t :: r => if j <=? zlen t then 0 else zlen t + leaf_start r (j - zlen t)
  end.

(** %s of a composite sequence with text [t] and leaves [ts]: when it is cut, the field is wider by the offset of the last leaf used *)
Definition seq_text (q : fspec) (t : list Z) (ts : list (list Z)) : list Z :=
  match q_prec q with
  | Some p => if p <? zlen t then justify (widen q (leaf_start ts p)) (firstn (Z.to_nat p) t) else justify q t
  | None => justify q t
  end.


(** [N * 10^-p] is a multiple of 10^-p nearest to [x] *)
Definition nearest_at (x : Q) (p N : Z) : Prop := forall M, (Qabs (x * 10 ^ p - inject_Z N) <= Qabs (x * 10 ^ p - inject_Z M))%Q.

(** a midpoint of two neighbouring multiples of 10^-p separates [x] from [d]; when it is [d] itself it counts if [x] is below *)
Definition tie_between (x d : Q) (p : Z) : Prop :=
  exists M, let T := (inject_Z M + (1 # 2))%Q in (x * 10 ^ p < T <= d * 10 ^ p \/ d * 10 ^ p < T < x * 10 ^ p)%Q.
