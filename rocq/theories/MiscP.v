(** Proofs for C38, C39, C41, C43, C44. *)
From Verif Require Import Base Digits UtilsM SeqM SeqSpec SeqP MiscM MiscSpec.

(** ** C38 *)

Lemma escapeLoop_app s : forall sb, escapeLoop s sb = sb ++ flat_map escapeChar s.
Proof.
  induction s as [|c r IH]; intros sb; cbn [escapeLoop flat_map]; [rewrite app_nil_r; reflexivity|].
  rewrite IH, app_assoc. reflexivity.
Qed.

Lemma unescape_escape c r : unescape (escapeChar c ++ r) = c :: unescape r.
Proof.
  unfold escapeChar.
  destruct (c =? 10) eqn:E1; [apply Z.eqb_eq in E1 as ->; reflexivity|].
  destruct (c =? 13) eqn:E2; [apply Z.eqb_eq in E2 as ->; reflexivity|].
  destruct (c =? 9) eqn:E3; [apply Z.eqb_eq in E3 as ->; reflexivity|].
  destruct (c =? 8) eqn:E4; [apply Z.eqb_eq in E4 as ->; reflexivity|].
  destruct (c =? 12) eqn:E5; [apply Z.eqb_eq in E5 as ->; reflexivity|].
  destruct (c =? 92) eqn:E6; [apply Z.eqb_eq in E6 as ->; reflexivity|].
  destruct (c =? 34) eqn:E7; [apply Z.eqb_eq in E7 as ->; reflexivity|].
  cbn [app unescape]. rewrite E6. reflexivity.
Qed.

Lemma unescape_flat s : unescape (flat_map escapeChar s) = s.
Proof.
  induction s as [|c r IH]; [reflexivity|]. cbn [flat_map]. rewrite unescape_escape, IH. reflexivity.
Qed.

Lemma fixed_toString_reads_back s : read_literal (fixed_toString s) = s.
Proof.
  unfold read_literal, fixed_toString. rewrite escapeLoop_app. cbn [app tl].
  rewrite removelast_last. apply unescape_flat.
Qed.

Lemma escape_clean s c : In c (fixed_toString s) -> c <> 10 /\ c <> 13 /\ c <> 9 /\ c <> 8 /\ c <> 12.
Proof.
  unfold fixed_toString. rewrite escapeLoop_app. cbn [app]. intros [<-|H]; [repeat split; discriminate|].
  apply in_app_or in H as [H|[<-|[]]]; [|repeat split; discriminate].
  apply in_flat_map in H as (x & _ & H). unfold escapeChar in H.
  destruct (x =? 10) eqn:E1; [destruct H as [<-|[<-|[]]]; repeat split; discriminate|].
  destruct (x =? 13) eqn:E2; [destruct H as [<-|[<-|[]]]; repeat split; discriminate|].
  destruct (x =? 9) eqn:E3; [destruct H as [<-|[<-|[]]]; repeat split; discriminate|].
  destruct (x =? 8) eqn:E4; [destruct H as [<-|[<-|[]]]; repeat split; discriminate|].
  destruct (x =? 12) eqn:E5; [destruct H as [<-|[<-|[]]]; repeat split; discriminate|].
  destruct (x =? 92) eqn:E6; [destruct H as [<-|[<-|[]]]; repeat split; discriminate|].
  destruct (x =? 34) eqn:E7; [destruct H as [<-|[<-|[]]]; repeat split; discriminate|].
  destruct H as [<-|[]]. apply Z.eqb_neq in E1, E2, E3, E4, E5. auto.
Qed.

(** ** C39 *)

Lemma indexOfPct_some s k : indexOfPct s = Some k -> s = firstn k s ++ ph ++ skipn (k + 2) s.
Proof.
  revert k. induction s as [|a r IH]; intros k; [discriminate|]. cbn [indexOfPct].
  destruct r as [|b r']; [discriminate|]. destruct ((a =? 37) && (b =? 115)) eqn:E.
  - intros [= <-]. apply andb_prop in E as [E1 E2]. apply Z.eqb_eq in E1 as ->. apply Z.eqb_eq in E2 as ->. reflexivity.
  - destruct (indexOfPct (b :: r')) as [j|] eqn:Ej; cbn [option_map]; [|discriminate]. intros [= <-].
    cbn [firstn app skipn Nat.add]. f_equal. apply IH. reflexivity.
Qed.

Lemma indexOfPct_none s : indexOfPct s = None <-> plain_text s.
Proof.
  split.
  - intros H a. revert s H. induction a as [|x a IH]; intros s H b ->.
    + discriminate.
    + cbn [app indexOfPct] in H. destruct (a ++ ph ++ b) as [|y l] eqn:E; [destruct a; discriminate|].
      destruct ((x =? 37) && (y =? 115)); [discriminate|].
      destruct (indexOfPct (y :: l)) eqn:Ej; [discriminate|]. exact (IH _ Ej b (eq_sym E)).
  - intros H. destruct (indexOfPct s) as [k|] eqn:E; [|reflexivity]. apply indexOfPct_some in E. exfalso. exact (H _ _ E).
Qed.

Lemma plain_tail x g : plain_text (x :: g) -> plain_text g.
Proof. intros H a b E. apply (H (x :: a) b). rewrite E. reflexivity. Qed.

Lemma indexOfPct_first g b : plain_text g -> indexOfPct (g ++ ph ++ b) = Some (List.length g).
Proof.
  induction g as [|x g IH]; intros H; [reflexivity|].
  cbn [app indexOfPct List.length]. destruct (g ++ ph ++ b) as [|y l] eqn:E; [destruct g; discriminate|].
  destruct ((x =? 37) && (y =? 115)) eqn:Exy.
  - exfalso. apply andb_prop in Exy as [E1 E2]. apply Z.eqb_eq in E1 as ->. apply Z.eqb_eq in E2 as ->.
    destruct g as [|z g]; [discriminate|]. cbn in E. injection E as -> _. apply (H [] g). reflexivity.
  - rewrite IH; [reflexivity|]. exact (plain_tail _ _ H).
Qed.

Lemma lenient_extra_spec more : forall out, lenient_extra more out = out ++ concat (map (fun a => txt ", " ++ a) more).
Proof.
  induction more as [|a r IH]; intros out; cbn [lenient_extra map concat]; [rewrite app_nil_r; reflexivity|].
  rewrite IH, <- !app_assoc. reflexivity.
Qed.

Lemma comma_spec a more : comma (a :: more) = a ++ concat (map (fun a => txt ", " ++ a) more).
Proof.
  revert a. induction more as [|b r IH]; intros a; [cbn; rewrite app_nil_r; reflexivity|].
  change (comma (a :: b :: r)) with (a ++ txt ", " ++ comma (b :: r)). rewrite IH. cbn [map concat]. rewrite <- !app_assoc. reflexivity.
Qed.

Definition lenient_end (p : list Z * list Z * list (list Z)) : list Z :=
  match p with
  | (out, rest, remaining) =>
      let out := out ++ rest in
      match remaining with
      | [] => out
      | a :: more => lenient_extra more (out ++ txt " [" ++ a) ++ txt "]"
      end
  end.

Lemma lenient_spec g gs : plain_text g -> Forall plain_text gs -> forall args out,
  lenient_end (lenient_loop args (template g gs) out) = out ++ weave g gs args.
Proof.
  intros Hg Hgs. revert g Hg. induction Hgs as [|h r Hh Hr IH]; intros g Hg args out.
  - destruct args as [|a more]; [reflexivity|]. cbn [template lenient_loop weave].
    rewrite (proj2 (indexOfPct_none g) Hg). unfold lenient_end. rewrite lenient_extra_spec, comma_spec, <- !app_assoc. reflexivity.
  - destruct args as [|a more]; [reflexivity|]. cbn [template lenient_loop weave].
    rewrite indexOfPct_first by exact Hg.
    assert (E1 : skipn (List.length g + 2) (g ++ ph ++ template h r) = template h r).
    { rewrite skipn_app, skipn_all2 by lia. replace (List.length g + 2 - List.length g)%nat with 2%nat by lia. reflexivity. }
    assert (E2 : firstn (List.length g) (g ++ ph ++ template h r) = g).
    { rewrite firstn_app, Nat.sub_diag, firstn_O, app_nil_r, firstn_all. reflexivity. }
    rewrite E1, E2, IH by exact Hh. rewrite <- !app_assoc. reflexivity.
Qed.

Lemma lenientFormat_spec g gs args : plain_text g -> Forall plain_text gs ->
  lenientFormat (template g gs) args = weave g gs args.
Proof. intros Hg Hgs. exact (lenient_spec g gs Hg Hgs args []). Qed.

Lemma template_exists n : forall t, (List.length t <= n)%nat ->
  exists g gs, plain_text g /\ Forall plain_text gs /\ t = template g gs.
Proof.
  induction n as [|n IH]; intros t Hn.
  - destruct t; [|cbn in Hn; lia]. exists [], []. repeat split; [|constructor]. intros a b E. destruct a; discriminate.
  - destruct (indexOfPct t) as [k|] eqn:E.
    + pose proof (indexOfPct_some _ _ E) as Et.
      destruct (IH (skipn (k + 2) t)) as (h & r & Hh & Hr & Eh).
      { apply (f_equal (@List.length Z)) in Et. rewrite !app_length in Et. cbn in Et. lia. }
      exists (firstn k t), (h :: r). split; [|split; [constructor; assumption|]].
      * clear - E. revert k E. induction t as [|a t IH]; intros k; [discriminate|]. cbn [indexOfPct].
        destruct t as [|b t]; [discriminate|]. destruct ((a =? 37) && (b =? 115)) eqn:Eab.
        -- intros [= <-]. cbn. intros [|? ?] ?; discriminate.
        -- destruct (indexOfPct (b :: t)) as [j|] eqn:Ej; cbn [option_map]; [|discriminate]. intros [= <-].
           specialize (IH _ eq_refl). cbn [firstn]. intros [|x u] v Ex.
           ++ cbn in Ex. injection Ex as -> Ex. destruct j as [|j]; [discriminate|]. cbn in Ex. injection Ex as -> Ex. discriminate.
           ++ cbn in Ex. injection Ex as -> Ex. exact (IH _ _ Ex).
      * cbn [template]. rewrite <- Eh. exact Et.
    + exists t, []. split; [apply indexOfPct_none; exact E|]. split; [constructor|reflexivity].
Qed.

(** ** C43 *)

Definition instant_le (a b : instant) : Prop := fst a < fst b \/ (fst a = fst b /\ snd a <= snd b).

Lemma ofEpochMilli_mono a b : a <= b -> instant_le (ofEpochMilli a) (ofEpochMilli b).
Proof.
  intros H. unfold instant_le, ofEpochMilli. cbn [fst snd].
  pose proof (Z.div_mod a 1000 ltac:(lia)). pose proof (Z.div_mod b 1000 ltac:(lia)).
  pose proof (Z.mod_pos_bound a 1000 ltac:(lia)). pose proof (Z.mod_pos_bound b 1000 ltac:(lia)).
  assert (a / 1000 <= b / 1000) by (apply Z.div_le_mono; lia).
  destruct (Z.eq_dec (a / 1000) (b / 1000)); [right|left]; lia.
Qed.

Lemma longToInstant_mono a b : 0 <= a <= b -> (b <= 4294967295 \/ 4294967295 < a) ->
  exists i j, longToInstant a = Ok i /\ longToInstant b = Ok j /\ instant_le i j.
Proof.
  intros H [Hb|Ha]; unfold longToInstant;
    replace (0 <=? a) with true by (symmetry; apply Z.leb_le; lia); replace (0 <=? b) with true by (symmetry; apply Z.leb_le; lia).
  - replace (a <=? 4294967295) with true by (symmetry; apply Z.leb_le; lia). replace (b <=? 4294967295) with true by (symmetry; apply Z.leb_le; lia).
    do 2 eexists. split; [reflexivity|]. split; [reflexivity|]. unfold instant_le, ofEpochSecond; cbn. lia.
  - replace (a <=? 4294967295) with false by (symmetry; apply Z.leb_gt; lia). replace (b <=? 4294967295) with false by (symmetry; apply Z.leb_gt; lia).
    do 2 eexists. split; [reflexivity|]. split; [reflexivity|]. apply ofEpochMilli_mono. lia.
Qed.

Lemma longToInstant_negative a : a < 0 -> longToInstant a = Err IllegalArg.
Proof. intros H. unfold longToInstant. replace (0 <=? a) with false by (symmetry; apply Z.leb_gt; lia). reflexivity. Qed.

(** ** C41 *)

Lemma ca_step_wrap up h h' c : wrap32 h = wrap32 h' -> ca_step up h c = wrap32 (31 * h' + upIf up c).
Proof.
  intros H. unfold ca_step, wrap32 in *. apply wrapN_eqm; [lia|].
  assert (E : h mod 2 ^ 32 = h' mod 2 ^ 32) by (rewrite <- (wrapN_mod 32 h), <- (wrapN_mod 32 h'), H by lia; reflexivity).
  rewrite Z.add_mod, wrapN_mod by lia.
  rewrite <- Z.add_mod by lia. rewrite Z.add_mod by lia. rewrite Z.mul_mod, E, <- Z.mul_mod by lia. rewrite <- Z.add_mod by lia. reflexivity.
Qed.

Lemma upIf_ascii (up : bool) c : upIf up c = if up then ascii_upper c else c.
Proof. destruct up; [|reflexivity]. apply toUpperCase_spec. Qed.

Lemma ca_loop_spec up : forall t a i h h', 0 <= i -> i + zlen t <= zlen a -> slice a i (i + zlen t) = t -> wrap32 h = wrap32 h' -> wrap32 h = h ->
  ca_loop (List.length t) a up i (i + zlen t) h =
  Ok (wrap32 (fold_left (fun h c => 31 * h + (if up then ascii_upper c else c)) t h')).
Proof.
  induction t as [|c t IH]; intros a i h h' Hi Hl Hs Hw Hh.
  - cbn [ca_loop List.length fold_left]. rewrite <- Hw, Hh. reflexivity.
  - rewrite zlen_cons in *. pose proof (zlen_nonneg t). cbn [ca_loop List.length fold_left].
    replace (i <? i + (1 + zlen t)) with true by (symmetry; apply Z.ltb_lt; lia).
    assert (E : znth a i = Some c /\ slice a (i + 1) (i + 1 + zlen t) = t).
    { assert (E1 : znth a i = Some c).
      { assert (H0 : znth (slice a i (i + (1 + zlen t))) 0 = Some c) by (rewrite Hs; reflexivity).
        rewrite znth_slice, Z.add_0_r in H0 by lia. exact H0. }
      split; [exact E1|]. unfold slice in Hs. rewrite (skipn_znth _ _ _ E1) in Hs.
      replace (Z.to_nat (i + (1 + zlen t) - i)) with (S (Z.to_nat (zlen t))) in Hs by lia.
      cbn [firstn] in Hs. injection Hs as Hs. unfold slice.
      replace (Z.to_nat (i + 1 + zlen t - (i + 1))) with (Z.to_nat (zlen t)) by lia. exact Hs. }
    destruct E as [E1 E2]. unfold jcharAt. rewrite E1. cbn [bind].
    replace (i + (1 + zlen t)) with (i + 1 + zlen t) by lia.
    rewrite (IH a (i + 1) (ca_step up h c) (31 * h' + (if up then ascii_upper c else c))); try lia; try assumption.
    + reflexivity.
    + rewrite (ca_step_wrap up h h' c Hw), upIf_ascii. unfold wrap32. apply wrapN_eqm; [lia|]. apply wrapN_mod. lia.
    + rewrite (ca_step_wrap up h h' c Hw). unfold wrap32. apply wrapN_eqm; [lia|]. apply wrapN_mod. lia.
Qed.

Lemma hash_spec a st n up t c : den_atom (AArr a st n up) t -> c = 0 \/ c = string_hash t ->
  ca_hashCode a st n up c = Ok (string_hash t).
Proof.
  intros (Hm & Hs & Hn & Hl & Ht) Hc. unfold ca_hashCode. destruct (c =? 0) eqn:E.
  - set (u := slice a st (st + n)) in *.
    assert (Zu : zlen u = n) by (unfold u; rewrite zlen_slice by lia; lia).
    assert (Lu : List.length u = Z.to_nat n) by (unfold zlen in Zu; lia).
    rewrite <- Lu. rewrite <- Zu. rewrite (ca_loop_spec up u a st 0 0); try lia; try reflexivity.
    + unfold string_hash. do 2 f_equal. subst t. destruct up; [|reflexivity].
      clearbody u. clear. generalize 0. induction u as [|x u IH]; intros h; [reflexivity|]. cbn [map fold_left]. apply IH.
    + rewrite Zu. reflexivity.
  - destruct Hc as [ -> | -> ]; [discriminate|reflexivity].
Qed.

Lemma ca_eqLoop_spec x y : forall t u i n, den_atom x (firstn (Z.to_nat i) t ++ skipn (Z.to_nat i) t) -> den_atom x t -> den_atom y u ->
  zlen t = n -> zlen u = n -> 0 <= i <= n ->
  exists b, ca_eqLoop (Z.to_nat (n - i)) x y i n = Ok b /\ (b = true <-> skipn (Z.to_nat i) t = skipn (Z.to_nat i) u).
Proof.
  intros t u i n _ Dx Dy Zt Zu Hi. remember (Z.to_nat (n - i)) as k eqn:Ek. revert i Hi Ek.
  induction k as [|k IH]; intros i Hi Ek.
  - exists true. split; [reflexivity|]. split; [|reflexivity]. intros _. unfold zlen in *. rewrite !skipn_all2 by lia. reflexivity.
  - cbn [ca_eqLoop]. replace (i <? n) with true by (symmetry; apply Z.ltb_lt; lia).
    destruct (znth_some t i) as [c Ec]; [lia|]. destruct (znth_some u i) as [d Ed]; [lia|].
    rewrite (a_charAt_ok x t i c Dx Ec), (a_charAt_ok y u i d Dy Ed). cbn [bind].
    assert (S1 : skipn (Z.to_nat i) t = c :: skipn (Z.to_nat (i + 1)) t) by (apply skipn_znth; exact Ec).
    assert (S2 : skipn (Z.to_nat i) u = d :: skipn (Z.to_nat (i + 1)) u) by (apply skipn_znth; exact Ed).
    rewrite S1, S2. destruct (c =? d) eqn:E.
    + apply Z.eqb_eq in E as ->. destruct (IH (i + 1)) as (b & Eb & Hb); [lia|lia|]. exists b. split; [exact Eb|].
      rewrite Hb. split; [intros ->; reflexivity|intros [= ->]; reflexivity].
    + apply Z.eqb_neq in E. exists false. split; [reflexivity|]. split; [discriminate|]. intros [= -> _]. contradiction.
Qed.

Lemma equals_spec x y t u : den_atom x t -> den_atom y u ->
  exists b, ca_equals x y = Ok b /\ (b = true <-> t = u).
Proof.
  intros Dx Dy. unfold ca_equals. rewrite (den_atom_len _ _ Dx), (den_atom_len _ _ Dy).
  destruct (zlen t =? zlen u) eqn:E; cbn [negb].
  - apply Z.eqb_eq in E. pose proof (zlen_nonneg t).
    destruct (ca_eqLoop_spec x y t u 0 (zlen t)) as (b & Eb & Hb); auto; try lia.
    exists b. rewrite Z.sub_0_r in Eb. split; [exact Eb|]. exact Hb.
  - apply Z.eqb_neq in E. exists false. split; [reflexivity|]. split; [discriminate|]. intros ->. contradiction.
Qed.

Lemma equal_hash a st n up b st' n' up' t u c c' :
  den_atom (AArr a st n up) t -> den_atom (AArr b st' n' up') u ->
  c = 0 \/ c = string_hash t -> c' = 0 \/ c' = string_hash u ->
  ca_equals (AArr a st n up) (AArr b st' n' up') = Ok true ->
  ca_hashCode a st n up c = ca_hashCode b st' n' up' c'.
Proof.
  intros D D' Hc Hc' E. destruct (equals_spec _ _ _ _ D D') as (r & Er & Hr).
  rewrite E in Er. injection Er as <-. rewrite (hash_spec _ _ _ _ _ _ D Hc), (hash_spec _ _ _ _ _ _ D' Hc').
  do 2 f_equal. apply Hr. reflexivity.
Qed.

(** ** C44 *)

Lemma message_spec nl desc pattern i : 0 <= i < zlen pattern ->
  syntaxMessage nl desc pattern i = desc ++ txt " near index " ++ dec_text i ++ nl ++ pattern ++ nl ++ rep (ch " ") i ++ txt "^".
Proof.
  intros H. unfold syntaxMessage. replace (0 <=? i) with true by (symmetry; apply Z.leb_le; lia).
  replace (i <? zlen pattern) with true by (symmetry; apply Z.ltb_lt; lia). cbn [andb]. rewrite <- !app_assoc. reflexivity.
Qed.

Lemma caret_column i : 0 <= i -> zlen (rep (ch " ") i) = i /\ znth (rep (ch " ") i ++ txt "^") i = Some (ch "^").
Proof.
  intros H. assert (L : zlen (rep (ch " ") i) = i) by (rewrite zlen_rep; lia).
  split; [exact L|]. unfold znth. replace (i <? 0) with false by (symmetry; apply Z.ltb_ge; lia).
  rewrite nth_error_app2; unfold zlen in L; [|lia].
  replace (Z.to_nat i - List.length (rep (ch " ") i))%nat with O by lia. reflexivity.
Qed.
