(** C100: the doubles of model and specification are the IEEE 754 binary64 numbers of Coq's standard library, and the arithmetic on them is
    the standard library's. *)
From Coq Require Import QArith Qabs Qpower Lqa Lia SpecFloat.
From Verif Require Import Base MathM DecimalM FPDecimalM SeqM FormatterM DoubleM RoundM TraitsM DecSpec RoundP ShortP SchubP FloatSpec DirSpec CastP PropsDouble NearP FloatArgP
  IeeeSpec IeeeP IeeeP2 IeeeP3.
Open Scope Z_scope.

(** every bit pattern is a binary64 number; every number has a pattern, and only NaN has more than one *)
Theorem C100_patterns :
  (forall b, valid_binary 53 1024 (sf_double b) = true) /\
  (forall x, valid_binary 53 1024 x = true -> exists b, in_range 64 b /\ sf_double b = x) /\
  (forall b b', in_range 64 b -> in_range 64 b' -> sf_double b = sf_double b' -> sf_double b <> S754_nan -> b = b') /\
  (forall b, sf_double b = S754_nan <-> inf_bits < magnitude b).
Proof.
  assert (R : forall b, in_range 64 b <-> - 2 ^ 63 <= b < 2 ^ 63) by (intros b; unfold in_range; change (2 ^ (64 - 1)) with (2 ^ 63); reflexivity).
  split; [exact sf_valid|]. split; [intros x V; destruct (sf_onto x V) as (b & B & E); exists b; split; [apply R; exact B|exact E]|].
  split; [intros b b' B B'; apply sf_inj; apply R; assumption|exact sf_nan].
Qed.
Print Assumptions C100_patterns.

(** the value of a finite pattern, and the order of the values *)
Theorem C100_values : forall a, finite a ->
  match sf_double a with
  | S754_zero s => magnitude a = 0 /\ s = (a <? 0) /\ (sval a == 0)%Q
  | S754_finite s m e => s = (a <? 0) /\ (sval a == inject_Z (cond_Zopp s (Zpos m)) * 2 ^ e)%Q
  | _ => False
  end /\
  forall b, finite b -> SFcompare (sf_double a) (sf_double b) = Some (sval a ?= sval b)%Q.
Proof.
  intros a Fa. split; [|intros b Fb; apply compare_sf; assumption].
  destruct (Z.eq_dec (magnitude a) 0) as [Z0|N].
  - rewrite (sf_zero a Z0). split; [exact Z0|]. split; [reflexivity|]. unfold sval. rewrite Z0. destruct (a <? 0); vm_compute; reflexivity.
  - destruct (sf_finite a Fa N) as (p & -> & _ & _ & V). split; [reflexivity|]. rewrite V. destruct (a <? 0); reflexivity.
Qed.
Print Assumptions C100_values.

(** what the model does with doubles *)
Theorem C100_operations :
  (forall z, sf_double (ofLong z) = binary_normalize 53 1024 z 0 false) /\
  (forall x y, finite x -> finite y -> in_range 64 x -> in_range 64 y -> x <> - 2 ^ 63 -> 0 < y -> sf_double (dbl_div x y) = SFdiv 53 1024 (sf_double x) (sf_double y)) /\
  (forall x y, finite x -> finite y -> in_range 64 x -> in_range 64 y -> ~ (x = - 2 ^ 63 /\ y = - 2 ^ 63) -> sf_double (dbl_add x y) = SFadd 53 1024 (sf_double x) (sf_double y)) /\
  (forall f, sf_double (f2d f) = sf_widen (sf_float f)).
Proof.
  unfold in_range. change (2 ^ (64 - 1)) with (2 ^ 63). split; [exact cast_sf|]. split; [intros x y Fx Fy Rx Ry N P; apply div_sf; [exact Fx|exact Fy|lia|lia]|].
  split; [exact add_sf|exact f2d_sf].
Qed.
Print Assumptions C100_operations.

Lemma ofLong_nonzero z : - 2 ^ 63 <= z <= 2 ^ 63 -> ofLong z <> - 2 ^ 63.
Proof.
  intros H E. destruct (ofLong_nearest z H) as [(_ & _ & [[X B]|[(X & B & _)|(X & B & R)]]) F]; [lia|lia|].
  pose proof (ofLong_size z H) as [S1 S2]. rewrite E in S1. assert (V : (sval (- 2 ^ 63) == 0)%Q) by (vm_compute; reflexivity). rewrite V in S1. rewrite (Qabs_neg (inject_Z z)) in S1 by lra. change (Qabs 0) with 0%Q in S1. lra.
Qed.

Lemma small_finite z : - 2 ^ 63 <= z <= 2 ^ 63 -> finite (ofLong z) /\ - 2 ^ 63 < ofLong z < 2 ^ 63.
Proof. intros H. destruct (ofLong_nearest z H) as [(R & _) F]. pose proof (ofLong_nonzero z H). split; [exact F|lia]. Qed.

Lemma millis_sf m : - 2 ^ 63 <= m <= 2 ^ 63 -> sf_double (dbl_div (ofLong m) (ofLong 1000)) = sf_millis m.
Proof.
  intros H. destruct (small_finite m H) as [F R]. rewrite div_sf; [unfold sf_millis, sf_int; rewrite !cast_sf; reflexivity|exact F|apply small_finite; lia|exact R|vm_compute; split; reflexivity].
Qed.

Lemma point_sf s n : - 2 ^ 63 <= s <= 2 ^ 63 -> 0 <= n < 1000000000 -> sf_double (dbl_add (ofLong s) (dbl_div (ofLong n) (ofLong 1000000000))) = sf_point s n.
Proof.
  intros Hs Hn. destruct (small_finite s Hs) as [Fs Rs]. destruct (small_finite n ltac:(lia)) as [Fn Rn].
  destruct (ofLong_moderate n 1000000000 ltac:(lia) ltac:(lia)) as [M U].
  destruct (dbl_div_nearest (ofLong n) (ofLong 1000000000) 1000000000 num_nano ltac:(lia) M) as ((R & _) & F & S).
  rewrite add_sf; [|exact Fs|exact F|lia|exact R|lia].
  rewrite div_sf; [unfold sf_point, sf_int; rewrite !cast_sf; reflexivity|exact Fn|apply small_finite; lia|exact Rn|vm_compute; split; reflexivity].
Qed.

(** the double the specification gives an argument is the result of Java's conversions in IEEE arithmetic *)
Theorem C100_argument : forall J v b x, is_double J v b -> sf_arg J v = Some x -> sf_double b = x.
Proof.
  intros J v b x H E.
  assert (I : forall z c, - 2 ^ 63 <= z <= 2 ^ 63 -> nearest_double (inject_Z z) c -> sf_double c = sf_int z).
  { intros z c Hz N. rewrite <- (ofLong_is z c Hz N). apply cast_sf. }
  destruct H as [b H|f b H|f H|z b H N|z b H N|z b H N|z b H N|c b H N|v b N|v s b D E' H|l d i t H|m i t a b H N1 N2|m t a b H N1 N2|t s n a c d b E' H1 H2 N1 N2 N3 N4];
    cbn [sf_arg] in E; unfold in_range in *.
  - injection E as <-. reflexivity.
  - injection E as <-. apply widen_sf. exact H.
  - injection E as <-. rewrite (widen_inf f H). destruct (f <? 0); vm_compute; reflexivity.
  - injection E as <-. apply I; [change (2 ^ (8 - 1)) with 128 in H; lia|exact N].
  - injection E as <-. apply I; [change (2 ^ (16 - 1)) with 32768 in H; lia|exact N].
  - injection E as <-. apply I; [change (2 ^ (32 - 1)) with (2 ^ 31) in H; lia|exact N].
  - injection E as <-. apply I; [change (2 ^ (64 - 1)) with (2 ^ 63) in H; lia|exact N].
  - injection E as <-. apply I; [lia|exact N].
  - injection E as <-. apply I; [destruct v; lia|exact N].
  - inversion D; subst; discriminate E.
  - injection E as <-. reflexivity.
  - injection E as <-. rewrite <- (millis_double m a b H N1 N2). apply millis_sf. change (2 ^ (64 - 1)) with (2 ^ 63) in H. lia.
  - injection E as <-. rewrite <- (millis_double m a b H N1 N2). apply millis_sf. change (2 ^ (64 - 1)) with (2 ^ 63) in H. lia.
  - rewrite E' in E. injection E as <-. rewrite <- (instant_double s n a c d b H1 H2 N1 N2 N3 N4). apply point_sf; [change (2 ^ (64 - 1)) with (2 ^ 63) in H1; lia|exact H2].
Qed.
Print Assumptions C100_argument.

(** and the other way round: an argument whose double is read as NaN is NaN *)
Theorem C100_nan : forall J v x, is_nan J v -> sf_arg J v = Some x -> x = S754_nan.
Proof.
  intros J v x H E. destruct H as [b R H|f R H|v s b D P R H|l d i t R H]; cbn [sf_arg] in E.
  - injection E as <-. apply sf_nan. exact H.
  - injection E as <-. apply widen_nan. exact H.
  - inversion D; subst; discriminate E.
  - injection E as <-. apply sf_nan. exact H.
Qed.
Print Assumptions C100_nan.

(** 1.5, -0.0, the least subnormal number, 0.1f, Long.MAX_VALUE; one millisecond; 0.1 + 0.2 *)
Example C100_ex_bits : sf_double 4609434218613702656 = S754_finite false 6755399441055744 (-52) /\ sf_double (- 2 ^ 63) = S754_zero true /\ sf_double 1 = S754_finite false 1 (-1074) /\
  sf_widen (sf_float 1036831949) = S754_finite false 7205759511166976 (-56) /\ sf_int (2 ^ 63 - 1) = S754_finite false (2 ^ 52) 11.
Proof. vm_compute. repeat split. Qed.
Example C100_ex_millis : sf_millis 1 = sf_double 4562254508917369340 /\ sf_millis (-1) = sf_double (4562254508917369340 - 2 ^ 63).
Proof. vm_compute. split; reflexivity. Qed.
Example C100_ex_add : sf_double (dbl_add 4591870180066957722 4596373779694328218) = sf_double 4599075939470750516 /\ SFadd 53 1024 (sf_double 4591870180066957722) (sf_double 4596373779694328218) = sf_double 4599075939470750516.
Proof. vm_compute. split; reflexivity. Qed.
Example C100_ex_argument : forall J i t, exists b, is_double J (VObj (ODate (Ok 1) i t)) b /\ sf_arg J (VObj (ODate (Ok 1) i t)) = Some (sf_double b).
Proof.
  intros J i t. destruct (ofLong_nearest 1 ltac:(lia)) as [N1 _]. destruct (ofLong_moderate 1 1000 ltac:(lia) ltac:(lia)) as [M _]. destruct (dbl_div_nearest (ofLong 1) (ofLong 1000) 1000 num_1000 ltac:(lia) M) as [N2 _].
  exists (dbl_div (ofLong 1) (ofLong 1000)). split; [apply (id_date J 1 i t (ofLong 1)); [unfold in_range; lia|exact N1|exact N2]|]. cbn [sf_arg]. reflexivity.
Qed.
