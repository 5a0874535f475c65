(** Model of util/internal/MathUtils.java and util/internal/MultiplyHigh.java, and of the Java shift
    operators on long and int. *)
From Verif Require Import Base GTable.

(** Java shifts mask the distance to 6 (long) or 5 (int) bits. *)
Definition lshl (x n : Z) : Z := wrap64 (x * 2 ^ (n mod 64)).             (* x << n *)
Definition lshr (x n : Z) : Z := x / 2 ^ (n mod 64).                      (* x >> n *)
Definition lushr (x n : Z) : Z := wrap64 ((x mod 2 ^ 64) / 2 ^ (n mod 64)). (* x >>> n *)
Definition iushr (x n : Z) : Z := wrap32 ((x mod 2 ^ 32) / 2 ^ (n mod 32)). (* x >>> n, int *)

(** MathUtils.java:45-46, 49, 52-58 *)
Definition K_MIN : Z := -324.
Definition K_MAX : Z := 292.
Definition H17 : Z := 17.
Definition Q_10 : Z := 41.
Definition C_10 : Z := 661971961083.
Definition A_10 : Z := -274743187321.
Definition Q_2 : Z := 38.
Definition C_2 : Z := 913124641741.

(** MathUtils.java:60-79 *)
Definition pow10_table : list Z :=
  [1; 10; 100; 1000; 10000; 100000; 1000000; 10000000; 100000000; 1000000000; 10000000000;
   100000000000; 1000000000000; 10000000000000; 100000000000000; 1000000000000000;
   10000000000000000; 100000000000000000].

(** array access *)
Definition aget (a : list Z) (i : Z) : res Z :=
  match znth a i with Some x => Ok x | None => Err IndexOOB end.

(** MathUtils.java:715-717 *)
Definition pow10 (e : Z) : res Z := aget pow10_table e.

(** MathUtils.java:728-730 *)
Definition flog10pow2 (e : Z) : Z := wrap32 (lshr (wrap64 (e * C_10)) Q_10).

(** MathUtils.java:743-745 *)
Definition flog10threeQuartersPow2 (e : Z) : Z := wrap32 (lshr (wrap64 (wrap64 (e * C_10) + A_10)) Q_10).

(** MathUtils.java:756-758 *)
Definition flog2pow10 (e : Z) : Z := wrap32 (lshr (wrap64 (e * C_2)) Q_2).

(** MathUtils.java:777-779 *)
Definition g1 (k : Z) : res Z := aget g_table (wrap32 (wrap32 (k - K_MIN) * 2)).

(** MathUtils.java:787-789: [k - K_MIN << 1 | 1] *)
Definition g0 (k : Z) : res Z := aget g_table (Z.lor (wrap32 (wrap32 (k - K_MIN) * 2)) 1).

(** java.lang.Math.multiplyHigh (JDK 9+), by its documentation *)
Definition multiplyHigh (x y : Z) : Z := (x * y) / 2 ^ 64.

(** MultiplyHigh.java:68-83. MultiplyHigh.multiplyHigh (53-55, 94-115) is this function or the JDK one,
    depending on the platform; the model calls the JDK one and C27 shows that they agree. *)
Definition slowMultiplyHigh (x y : Z) : Z :=
  let x1 := lshr x 32 in
  let x2 := Z.land x 4294967295 in
  let y1 := lshr y 32 in
  let y2 := Z.land y 4294967295 in
  let z2 := wrap64 (x2 * y2) in
  let t := wrap64 (wrap64 (x1 * y2) + lushr z2 32) in
  let z1 := Z.land t 4294967295 in
  let z0 := lshr t 32 in
  let z1 := wrap64 (z1 + wrap64 (x2 * y1)) in
  wrap64 (wrap64 (wrap64 (x1 * y1) + z0) + lshr z1 32).
