(** The table g of MathUtils.java is what its comment says: g(k) = floor(10^-k * 2^-r) + 1 with
    r = floor(log2(10^-k)) - 125, for every k from K_MIN to K_MAX (C26). *)
From Verif Require Import Base GTable MathM.

(** 10^-k * 2^-r as a fraction *)
Definition gexp (k : Z) : Z := flog2pow10 (- k).
Definition gnum (k : Z) : Z := 10 ^ Z.max 0 (- k) * 2 ^ Z.max 0 (125 - gexp k).
Definition gden (k : Z) : Z := 10 ^ Z.max 0 k * 2 ^ Z.max 0 (gexp k - 125).

(** g = floor(gnum/gden) + 1, and 2^125 <= gnum/gden < 2^126 *)
Definition g_ok (k g : Z) : Prop :=
  (g - 1) * gden k <= gnum k < g * gden k /\ 2 ^ 125 <= g - 1 /\ g <= 2 ^ 126.

(** ** k >= 0: [P] = 10^k *)
Fixpoint check_up (l : list Z) (k P : Z) : bool :=
  match l with
  | a :: b :: r =>
      let g := a * 2 ^ 63 + b in
      let X := (g - 1) * P in
      let e := gexp k in
      let T := 2 ^ (125 - e) in
      (0 <=? a) && (a <? 2 ^ 63) && (0 <=? b) && (b <? 2 ^ 63) && (e <=? 0) &&
      (X <=? T) && (T <? X + P) && (2 ^ 125 <=? g - 1) && (g <=? 2 ^ 126) && check_up r (k + 1) (10 * P)
  | _ => true
  end.

(** ** k < 0: [P] = 10^-k; the list is reversed *)
Fixpoint check_down (l : list Z) (k P : Z) : bool :=
  match l with
  | b :: a :: r =>
      let g := a * 2 ^ 63 + b in
      let e := gexp k in
      (0 <=? a) && (a <? 2 ^ 63) && (0 <=? b) && (b <? 2 ^ 63) && (0 <=? e) &&
      (let num := if e <=? 125 then P * 2 ^ (125 - e) else P in
       let X := if e <=? 125 then g - 1 else (g - 1) * 2 ^ (e - 125) in
       let D := if e <=? 125 then 1 else 2 ^ (e - 125) in
       (X <=? num) && (num <? X + D)) && (2 ^ 125 <=? g - 1) && (g <=? 2 ^ 126) && check_down r (k - 1) (10 * P)
  | _ => true
  end.

Lemma table_length : List.length g_table = 1234%nat.
Proof. vm_compute. reflexivity. Qed.

Lemma table_up : check_up (skipn 648 g_table) 0 1 = true.
Proof. vm_compute. reflexivity. Qed.

Lemma table_down : check_down (rev (firstn 648 g_table)) (-1) 10 = true.
Proof. vm_compute. reflexivity. Qed.

Definition entry_ok (k a b : Z) : Prop := 0 <= a < 2 ^ 63 /\ 0 <= b < 2 ^ 63 /\ g_ok k (a * 2 ^ 63 + b).

Ltac split_bools H :=
  repeat match type of H with _ && _ = true => let H' := fresh "B" in apply andb_prop in H as [H H'] end.
Ltac to_prop :=
  repeat match goal with
         | H : (_ <=? _) = true |- _ => apply Z.leb_le in H
         | H : (_ <? _) = true |- _ => apply Z.ltb_lt in H
         end.

Opaque Z.mul Z.add Z.sub Z.pow.

Lemma check_up_ok l : forall k P j, check_up l k P = true -> 0 <= k -> P = 10 ^ k -> (2 * j + 1 < List.length l)%nat ->
  entry_ok (k + Z.of_nat j) (nth (2 * j) l 0) (nth (2 * j + 1) l 0).
Proof.
  intros k P j; revert l k P. induction j as [|j IH]; intros l k P H Hk HP Hj.
  - destruct l as [|a [|b r]]; cbn in Hj; try lia. cbn [check_up] in H. split_bools H. to_prop.
    cbn [nth Nat.mul Nat.add]. replace (k + Z.of_nat 0) with k by lia.
    unfold entry_ok, g_ok, gnum, gden. rewrite (Z.max_l 0 (- k)), (Z.max_r 0 k), (Z.max_r 0 (125 - gexp k)), (Z.max_l 0 (gexp k - 125)) by lia.
    rewrite <- HP, Z.pow_0_r. repeat split; try lia. 
  - destruct l as [|a [|b r]]; cbn in Hj; try lia. cbn [check_up] in H. apply andb_prop in H as [_ H].
    replace (k + Z.of_nat (S j)) with (k + 1 + Z.of_nat j) by lia.
    replace (2 * S j)%nat with (S (S (2 * j))) by lia. cbn [nth Nat.add].
    apply (IH r (k + 1) (10 * P)); [exact H|lia| |cbn in Hj; lia].
    rewrite HP, Z.pow_add_r, Z.pow_1_r by lia. lia.
Qed.

Lemma check_down_ok l : forall k P j, check_down l k P = true -> k < 0 -> P = 10 ^ (- k) -> (2 * j + 1 < List.length l)%nat ->
  entry_ok (k - Z.of_nat j) (nth (2 * j + 1) l 0) (nth (2 * j) l 0).
Proof.
  intros k P j; revert l k P. induction j as [|j IH]; intros l k P H Hk HP Hj.
  - destruct l as [|b [|a r]]; cbn in Hj; try lia. cbn [check_down] in H. cbv zeta in H.
    apply andb_prop in H as [H _]. split_bools H.
    cbn [nth Nat.mul Nat.add]. replace (k - Z.of_nat 0) with k by lia.
    unfold entry_ok, g_ok, gnum, gden. rewrite (Z.max_r 0 (- k)), (Z.max_l 0 k) by lia. rewrite <- HP, Z.pow_0_r.
    destruct (gexp k <=? 125) eqn:E; to_prop; [|apply Z.leb_gt in E].
    + rewrite (Z.max_r 0 (125 - gexp k)), (Z.max_l 0 (gexp k - 125)) by lia. rewrite Z.pow_0_r. repeat split; try lia.
    + rewrite (Z.max_l 0 (125 - gexp k)), (Z.max_r 0 (gexp k - 125)) by lia. rewrite Z.pow_0_r. repeat split; try lia.
  - destruct l as [|b [|a r]]; cbn in Hj; try lia. cbn [check_down] in H. apply andb_prop in H as [_ H].
    replace (k - Z.of_nat (S j)) with (k - 1 - Z.of_nat j) by lia.
    replace (2 * S j)%nat with (S (S (2 * j))) by lia. cbn [nth Nat.add].
    apply (IH r (k - 1) (10 * P)); [exact H|lia| |cbn in Hj; lia].
    rewrite HP. replace (- (k - 1)) with (- k + 1) by lia. rewrite Z.pow_add_r, Z.pow_1_r by lia. lia.
Qed.

Transparent Z.mul Z.add Z.sub Z.pow.

Lemma aget_nth l i : (i < List.length l)%nat -> aget l (Z.of_nat i) = Ok (nth i l 0).
Proof.
  intros H. unfold aget, znth. replace (Z.of_nat i <? 0) with false by (symmetry; apply Z.ltb_ge; lia).
  rewrite Nat2Z.id, (nth_error_nth' l 0 H). reflexivity.
Qed.

Lemma lor_1 n : 0 <= n -> Z.lor (2 * n) 1 = 2 * n + 1.
Proof.
  intros H. destruct n as [|p|p]; try reflexivity. lia.
Qed.

Lemma table_entry k : K_MIN <= k <= K_MAX ->
  exists a b, g1 k = Ok a /\ g0 k = Ok b /\ entry_ok k a b.
Proof.
  unfold K_MIN, K_MAX. intros H.
  set (i := Z.to_nat (k + 324)). assert (Ei : Z.of_nat i = k + 324) by lia.
  exists (nth (2 * i) g_table 0), (nth (2 * i + 1) g_table 0).
  assert (L : (2 * i + 1 < List.length g_table)%nat) by (rewrite table_length; lia).
  unfold g1, g0. change K_MIN with (-324).
  rewrite (wrap32_id (k - -324)) by (unfold is_int, int_min, int_max; lia).
  rewrite (wrap32_id ((k - -324) * 2)) by (unfold is_int, int_min, int_max; lia).
  replace ((k - -324) * 2) with (2 * (k + 324)) by lia. rewrite lor_1 by lia.
  replace (2 * (k + 324)) with (Z.of_nat (2 * i)) by lia. replace (Z.of_nat (2 * i) + 1) with (Z.of_nat (2 * i + 1)) by lia.
  rewrite !aget_nth by lia. split; [reflexivity|]. split; [reflexivity|].
  destruct (Z_lt_ge_dec k 0) as [Hk|Hk].
  - set (l := rev (firstn 648 g_table)).
    assert (Ll : List.length l = 648%nat) by (unfold l; rewrite rev_length, firstn_length, table_length; reflexivity).
    set (j := Z.to_nat (- k - 1)).
    pose proof (check_down_ok l (-1) 10 j table_down ltac:(lia) eq_refl ltac:(rewrite Ll; lia)) as C.
    replace (-1 - Z.of_nat j) with k in C by lia.
    unfold l in C. rewrite !rev_nth in C by (rewrite firstn_length, table_length; lia).
    rewrite firstn_length, table_length in C. change (Nat.min 648 1234) with 648%nat in C.
    replace (648 - S (2 * j + 1))%nat with (2 * i)%nat in C by lia.
    replace (648 - S (2 * j))%nat with (2 * i + 1)%nat in C by lia.
    rewrite <- (firstn_skipn 648 g_table). rewrite !app_nth1 by (rewrite firstn_length, table_length; lia). exact C.
  - set (j := Z.to_nat k).
    pose proof (check_up_ok (skipn 648 g_table) 0 1 j table_up ltac:(lia) eq_refl ltac:(rewrite skipn_length, table_length; lia)) as C.
    replace (0 + Z.of_nat j) with k in C by lia.
    rewrite <- (firstn_skipn 648 g_table). rewrite !app_nth2 by (rewrite firstn_length, table_length; lia).
    rewrite firstn_length, table_length. change (Nat.min 648 1234) with 648%nat.
    replace (2 * i - 648)%nat with (2 * j)%nat by lia. replace (2 * i + 1 - 648)%nat with (2 * j + 1)%nat by lia. exact C.
Qed.
