(** Where the spacing of the doubles changes: the neighbours whose decimals, rounded to the grid of a power of ten, do not
    come back. A check over all binary exponents. *)
From Verif Require Import Base Digits MathM DecimalM CertCheck FmtSpec FloatSpec.
Open Scope Z_scope.

(** the pairs found: the double, and the number of decimal places *)
Definition strays : list (Z * Z) :=
  [(169 * 2 ^ 52 - 1, 273); (468 * 2 ^ 52 - 1, 183); (1142 * 2 ^ 52 - 1, -20); (1152 * 2 ^ 52 - 1, -23); (1394 * 2 ^ 52, -96); (1614 * 2 ^ 52 - 1, -162)].
Definition stray (m k : Z) : bool := existsb (fun '(a, p) => (a =? m) && (p =? k)) strays.

(** decimals compared *)
Definition same10 (f e g j : Z) : bool := if e <=? j then f =? g * 10 ^ (j - e) else f * 10 ^ (e - j) =? g.
Definition less10 (f e g j : Z) : bool := if e <=? j then f <? g * 10 ^ (j - e) else f * 10 ^ (e - j) <? g.
Definition shortest (m : Z) : option (Z * Z) := match toDecimal m with Ok (NonSpecial _ f e) => Some (f, e) | _ => None end.

(** the double [m] before the one at stake, the grid 10^b, and N of the grid *)
Definition settled (m N b : Z) : bool :=
  if (match shortest (m + 1) with Some (f, e) => same10 f e N b | None => false end) then true
  else if stray m (- b) then true
  else match shortest m with Some (f, e) => less10 (2 * f) e (2 * N - 1) b | None => false end.

(** [top]: from the greatest double of a binade; otherwise from the least. The quotient 2^(j-1077) / 10^b is between [G1 / 2^127]
    and [G2 / 2^127]. *)
Definition passes (top : bool) (j b G1 G2 : Z) : bool :=
  let T := 2 ^ 127 in
  let lo := if top then 2 ^ 54 - 1 else 2 ^ 54 + 2 in let hi := if top then 2 ^ 54 + 2 else 2 ^ 54 + 6 in
  let small := if top then 2 else 3 in let large := if top then 3 else 4 in
  if (T <? small * G1) then true else if (large * G2 <=? T) then true else
  let N := lo * G1 / T + 1 in
  ((N - 1) * T <? lo * G1) && (hi * G2 <=? (N + 2) * T) &&
  (if hi * G2 <=? (N + 1) * T then true else settled (if top then j * 2 ^ 52 - 1 else j * 2 ^ 52) N b).
(** the table of the program gives the quotient *)
Definition border (j : Z) : bool :=
  let b := flog10pow2 (j - 1075) in let h := hval (j - 1077) b in let g := gval b in let G1 := Z.shiftl (g - 1) h in let G2 := Z.shiftl g h in
  (0 <=? h) && passes true j b G1 G2 && passes false j b G1 G2.

Fixpoint borders (i : nat) (j : Z) : bool := match i with O => true | S i => border j && borders i (j + 1) end.

Lemma borders_checked : borders 2045 2 = true.
Proof. vm_compute. reflexivity. Qed.
Lemma borders_all : forall i j0 j, borders i j0 = true -> j0 <= j < j0 + Z.of_nat i -> border j = true.
Proof.
  induction i as [|i IH]; intros j0 j H Hj; [lia|]. cbn [borders] in H. apply andb_prop in H as [H1 H2].
  destruct (Z.eq_dec j j0) as [->|Nj]; [exact H1|]. apply (IH (j0 + 1)); [exact H2|lia].
Qed.
Lemma border_ok j : 2 <= j <= 2046 -> border j = true.
Proof. intros H. apply (borders_all 2045 2); [exact borders_checked|lia]. Qed.

Lemma passes_sound top j b G1 G2 N : passes top j b G1 G2 = true ->
  (if top then 2 else 3) * G1 <= 2 ^ 127 < (if top then 3 else 4) * G2 ->
  (if top then 2 ^ 54 - 1 else 2 ^ 54 + 2) * G1 <= N * 2 ^ 127 -> (N + 1) * 2 ^ 127 < (if top then 2 ^ 54 + 2 else 2 ^ 54 + 6) * G2 ->
  settled (if top then j * 2 ^ 52 - 1 else j * 2 ^ 52) N b = true.
Proof.
  unfold passes. intros H [H1 H2] H3 H4. cbv zeta in H.
  destruct top; match type of H with (if ?a <? ?b then _ else _) = _ => destruct (Z.ltb_spec a b) as [L|_]; [lia|] end;
    match type of H with (if ?a <=? ?b then _ else _) = _ => destruct (Z.leb_spec a b) as [L|_]; [lia|] end;
    match type of H with context [?a / ?b + 1] => set (M := a / b + 1) in * end;
    apply andb_prop in H as [H H7]; apply andb_prop in H as [H5 H6]; apply Z.ltb_lt in H5; apply Z.leb_le in H6; clearbody M;
    assert (E : N = M) by lia; match type of H7 with (if ?a <=? ?b then _ else _) = _ => destruct (Z.leb_spec a b) as [L|_]; [lia|] end; rewrite E; exact H7.
Qed.

(** ** the least doubles, rounded to two digits or fewer *)

(** N of the grid 10^b lies between the midpoints around [m]; [n / d] is 2^-1075 / 10^b *)
Definition inside (n d m N : Z) : bool := ((2 * m - 1) * n <? N * d) && (N * d <? (2 * m + 1) * n).
Definition is_decimal (N b : Z) (o : option (Z * Z)) : bool := match o with Some (g, j) => same10 g j N b | None => false end.
Definition same_sig (p q : Z * Z) : bool := (fst p =? fst q) && (snd p =? snd q).
(** [r]: the decimals of the doubles from [i] on *)
Fixpoint rounds_again (r : list (option (Z * Z))) (i n d m f e P N b : Z) : bool :=
  match r with
  | [] => false
  | o :: r =>
      if inside n d i N then
        match o with
        | Some (g, j) => (hup g (b - j) =? N) && ((P =? 0) || ((m =? 21) && (P =? 2)) || same_sig (FloatSpec.sig g j P) (FloatSpec.sig f e P))
        | None => false
        end
      else rounds_again r (i + 1) n d m f e P N b
  end.
Definition tiny_one (l : list (option (Z * Z))) (m f e P : Z) : bool :=
  let b := ndigits f + e - P in let N := hup f (b - e) in
  if N =? 0 then true else if same10 f e N b then true else if less10 497 (-324) N b then true
  else if existsb (is_decimal N b) l then true else rounds_again l 1 (anum (-1075) b) (aden (-1075) b) m f e P N b.
Fixpoint tiny_from (l r : list (option (Z * Z))) (m : Z) : bool :=
  match r with
  | [] => true
  | Some (f, e) :: r => tiny_one l m f e 0 && tiny_one l m f e 1 && tiny_one l m f e 2 && tiny_from l r (m + 1)
  | None :: _ => false
  end.
Fixpoint shortests (n : nat) (m : Z) : list (option (Z * Z)) := match n with O => [] | S n => shortest m :: shortests n (m + 1) end.
Definition tiny_all : bool := let l := shortests 151 1 in tiny_from l l 1.
Lemma tiny_checked : tiny_all = true.
Proof. vm_compute. reflexivity. Qed.

Lemma shortests_nth n : forall m i, (i < n)%nat -> nth_error (shortests n m) i = Some (shortest (m + Z.of_nat i)).
Proof.
  induction n as [|n IH]; intros m i Hi; [lia|]. destruct i as [|i]; cbn [shortests nth_error]; [f_equal; f_equal; lia|].
  rewrite IH by lia. f_equal. f_equal. lia.
Qed.
Lemma shortests_length n : forall m, List.length (shortests n m) = n.
Proof. induction n as [|n IH]; intros m; cbn [shortests List.length]; [reflexivity|rewrite IH; reflexivity]. Qed.
Lemma tiny_from_nth l : forall r m i o, tiny_from l r m = true -> nth_error r i = Some o ->
  exists f e, o = Some (f, e) /\ forall P, P = 0 \/ P = 1 \/ P = 2 -> tiny_one l (m + Z.of_nat i) f e P = true.
Proof.
  induction r as [|a r IH]; intros m i o H Hi; [destruct i; discriminate|]. cbn [tiny_from] in H. destruct a as [[f e]|]; [|discriminate].
  apply andb_prop in H as [H H3]. apply andb_prop in H as [H H2]. apply andb_prop in H as [H0 H1]. destruct i as [|i].
  - injection Hi as <-. exists f, e. split; [reflexivity|]. replace (m + Z.of_nat 0) with m by lia. intros P [-> |[-> | ->]]; assumption.
  - destruct (IH (m + 1) i o H3 Hi) as (f' & e' & E & K). exists f', e'. split; [exact E|]. replace (m + Z.of_nat (S i)) with (m + 1 + Z.of_nat i) by lia. exact K.
Qed.
Lemma tiny_at m : 1 <= m <= 151 ->
  exists f e, shortest m = Some (f, e) /\ forall P, P = 0 \/ P = 1 \/ P = 2 -> tiny_one (shortests 151 1) m f e P = true.
Proof.
  intros H. destruct (tiny_from_nth (shortests 151 1) (shortests 151 1) 1 (Z.to_nat (m - 1)) (shortest m) tiny_checked) as (f & e & E & K).
  - rewrite shortests_nth by lia. f_equal. f_equal. lia.
  - exists f, e. split; [exact E|]. replace (1 + Z.of_nat (Z.to_nat (m - 1))) with m in K by lia. exact K.
Qed.
Lemma some_eq {A} (a b : A) : Some a = Some b -> a = b.
Proof. intros H. exact (f_equal (fun o => match o with Some y => y | None => a end) H). Qed.
Lemma is_decimal_in N b : existsb (is_decimal N b) (shortests 151 1) = true -> exists i g j, 1 <= i <= 151 /\ shortest i = Some (g, j) /\ same10 g j N b = true.
Proof.
  intros H. apply existsb_exists in H as (o & Hin & H). apply In_nth_error in Hin as (i & Hi).
  assert (L : (i < 151)%nat) by (rewrite <- (shortests_length 151 1); apply nth_error_Some; intros K0; rewrite Hi in K0; discriminate K0).
  rewrite shortests_nth in Hi by exact L. apply some_eq in Hi. rewrite <- Hi in H. revert H. destruct (shortest (1 + Z.of_nat i)) as [[g j]|] eqn:E; intros H; [|unfold is_decimal in H; discriminate H].
  exists (1 + Z.of_nat i), g, j. split; [lia|]. split; assumption.
Qed.
Lemma rounds_again_in r : forall i n d m f e P N b, (forall k o, nth_error r k = Some o -> o = shortest (i + Z.of_nat k)) -> rounds_again r i n d m f e P N b = true ->
  exists i' g j, i <= i' < i + zlen r /\ shortest i' = Some (g, j) /\ inside n d i' N = true /\ hup g (b - j) = N /\
    (P = 0 \/ m = 21 /\ P = 2 \/ FloatSpec.sig g j P = FloatSpec.sig f e P).
Proof.
  induction r as [|o r IH]; intros i n d m f e P N b Hr H; [discriminate|]. cbn [rounds_again] in H. rewrite zlen_cons. pose proof (zlen_nonneg r) as Z0.
  destruct (inside n d i N) eqn:Hi.
  - pose proof (Hr 0%nat o eq_refl) as E. replace (i + Z.of_nat 0) with i in E by lia. destruct o as [[g j]|]; [|discriminate].
    apply andb_prop in H as [H1 H2]. apply Z.eqb_eq in H1. exists i, g, j. split; [lia|]. split; [symmetry; exact E|]. split; [exact Hi|]. split; [exact H1|].
    apply orb_prop in H2 as [H2|H2]; [apply orb_prop in H2 as [H2|H2]|].
    + left. apply Z.eqb_eq. exact H2.
    + right. left. apply andb_prop in H2 as [A B]. apply Z.eqb_eq in A, B. split; assumption.
    + right. right. unfold same_sig in H2. apply andb_prop in H2 as [A B]. apply Z.eqb_eq in A, B. destruct (FloatSpec.sig g j P), (FloatSpec.sig f e P). cbn [fst snd] in *. congruence.
  - destruct (IH (i + 1) n d m f e P N b) as (i' & g & j & A & B); [|exact H|exists i', g, j; split; [lia|exact B]].
    intros k o' Hk. rewrite (Hr (S k) o' Hk). f_equal. lia.
Qed.
