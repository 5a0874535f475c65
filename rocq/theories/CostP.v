(** The counting compiler computes what the compiler computes, and its work is bounded by the length of the source. *)
From Verif Require Import Base Digits UtilsM ContextM CompilerM CostM.

Lemma snd_cbind {A B} (r : cost A) (f : A -> cost B) :
  snd (cbind r f) = match snd r with Ok a => snd (f a) | Err e => Err e end.
Proof. destruct r as [n [a|e]]; cbn; [destruct (f a)|]; reflexivity. Qed.

Section Compiler.
  Variable dtf_valid : list Z -> bool.
  Variable source : list Z.

  Lemma snd_flags fuel pos fl : snd (k_flags source fuel pos fl) = p_flags source fuel pos fl.
  Proof.
    revert pos fl. induction fuel as [|f IH]; intros pos fl; cbn [k_flags p_flags]; destruct (endOfSource source pos); try reflexivity.
    rewrite snd_cbind. cbn [k_at steps snd]. destruct (sourceAt source pos) as [c|e]; [cbn [bind]|reflexivity].
    destruct (flag_of_char c) as [g|]; [|reflexivity]. destruct (hasF g fl); [reflexivity|apply IH].
  Qed.

  Lemma snd_digits fuel pos : snd (k_digits source fuel pos) = p_digits source fuel pos.
  Proof.
    revert pos. induction fuel as [|f IH]; intros pos; cbn [k_digits p_digits]; destruct (endOfSource source pos); try reflexivity.
    rewrite snd_cbind. cbn [k_at steps snd]. destruct (sourceAt source pos) as [c|e]; [cbn [bind]|reflexivity].
    destruct (isNotDigit c); [reflexivity|apply IH].
  Qed.

  Lemma snd_width pos : snd (k_width source pos) = p_width source pos.
  Proof.
    unfold k_width, p_width. rewrite snd_cbind. cbn [k_check free snd]. destruct (checkSource source pos) as [[]|e]; [cbn [bind]|reflexivity].
    rewrite snd_cbind. cbn [k_at steps snd]. destruct (sourceAt source pos) as [c|e]; [cbn [bind]|reflexivity].
    destruct (c =? ch "*"); [reflexivity|]. rewrite snd_cbind, snd_digits. destruct (p_digits source (fuel0 source) pos) as [e|]; [cbn [bind]|reflexivity].
    unfold k_number. rewrite snd_cbind. cbn [k_substring steps snd]. destruct (slice source pos e) as [|x l]; [reflexivity|]. cbn [steps snd].
    reflexivity.
  Qed.

  Lemma snd_precision pos : snd (k_precision source pos) = p_precision source pos.
  Proof.
    unfold k_precision, p_precision. destruct (endOfSource source pos); [reflexivity|].
    rewrite snd_cbind. cbn [k_at steps snd]. destruct (sourceAt source pos) as [c|e]; [cbn [bind]|reflexivity].
    destruct (negb (c =? ch ".")); [reflexivity|]. cbv zeta. rewrite snd_cbind. cbn [k_check free snd].
    destruct (checkSource source (pos + 1)) as [[]|e]; [cbn [bind]|reflexivity].
    rewrite snd_cbind. cbn [k_at steps snd]. destruct (sourceAt source (pos + 1)) as [c'|e]; [cbn [bind]|reflexivity].
    destruct (c' =? ch "*"); [reflexivity|]. rewrite snd_cbind, snd_digits. destruct (p_digits source (fuel0 source) (pos + 1)) as [e|]; [cbn [bind]|reflexivity].
    unfold k_number. rewrite snd_cbind. cbn [k_substring steps snd]. destruct (slice source (pos + 1) e) as [|x l]; [reflexivity|]. cbn [steps snd].
    reflexivity.
  Qed.

  Lemma snd_scan fuel pos q : snd (k_scan source fuel pos q) = p_scan source fuel pos q.
  Proof.
    revert pos q. induction fuel as [|f IH]; intros pos q; cbn [k_scan p_scan]; destruct (zlen source <=? pos); try reflexivity.
    rewrite snd_cbind. cbn [k_at steps snd]. destruct (sourceAt source pos) as [c|e]; [cbn [bind]|reflexivity].
    destruct (c =? ch "'").
    - destruct (pos + 1 <? zlen source); [|apply IH].
      rewrite snd_cbind. cbn [k_at steps snd]. destruct (sourceAt source (pos + 1)) as [c2|e]; [cbn [bind]|reflexivity].
      destruct (c2 =? ch "'"); apply IH.
    - destruct ((c =? ch "}") && negb q); [reflexivity|apply IH].
  Qed.

  Lemma snd_date pos : snd (k_date dtf_valid source pos) = p_date dtf_valid source pos.
  Proof.
    unfold k_date, p_date. destruct (endOfSource source pos); [reflexivity|].
    rewrite snd_cbind. cbn [k_at steps snd]. destruct (sourceAt source pos) as [c|e]; [cbn [bind]|reflexivity].
    destruct (negb (c =? ch "{")); [reflexivity|]. cbv zeta. rewrite snd_cbind, snd_scan.
    destruct (p_scan source (fuel0 source) (pos + 1) false) as [[i|]|e]; [cbn [bind]|reflexivity|reflexivity].
    rewrite snd_cbind. cbn [k_substring steps snd]. destruct (slice source (pos + 1) i) as [|x l]; [reflexivity|].
    destruct (dtf_valid (x :: l)); reflexivity.
  Qed.

  Lemma snd_spec pos : snd (k_spec source pos) = p_spec source pos.
  Proof.
    unfold k_spec, p_spec. rewrite snd_cbind. cbn [k_check free snd]. destruct (checkSource source pos) as [[]|e]; [cbn [bind]|reflexivity].
    rewrite snd_cbind. cbn [k_at steps snd]. destruct (sourceAt source pos) as [c|e]; [cbn [bind]|reflexivity].
    destruct (spec_of_char c); reflexivity.
  Qed.

  Lemma snd_directive pos : snd (k_directive dtf_valid source pos) = p_directive dtf_valid source pos.
  Proof.
    unfold k_directive, p_directive.
    rewrite snd_cbind, snd_flags. destruct (p_flags source (fuel0 source) pos noFlags) as [[fl p1]|e]; [cbn [bind]|reflexivity].
    rewrite snd_cbind, snd_width. destruct (p_width source p1) as [[w p2]|e]; [cbn [bind]|reflexivity].
    rewrite snd_cbind, snd_precision. destruct (p_precision source p2) as [[p p3]|e]; [cbn [bind]|reflexivity].
    rewrite snd_cbind, snd_spec. destruct (p_spec source p3) as [[s p4]|e]; [cbn [bind]|reflexivity].
    rewrite snd_cbind.
    destruct (isDateTimeSpec s).
    - rewrite snd_date. destruct (p_date dtf_valid source p4) as [[d p5]|e]; [cbn [bind]|reflexivity].
      rewrite snd_cbind. cbn [free snd]. destruct (ctx_create fl w p d); reflexivity.
    - cbn [free snd bind]. rewrite snd_cbind. cbn [free snd]. destruct (ctx_create fl w p None); reflexivity.
  Qed.

  Lemma snd_loop fuel :
    (forall pos acc, snd (k_parseNext dtf_valid source fuel pos acc) = parseNext dtf_valid source fuel pos acc)
    /\ (forall pos acc, snd (k_forPattern dtf_valid source fuel pos acc) = forPattern dtf_valid source fuel pos acc).
  Proof.
    induction fuel as [|f [IHn IHp]]; [split; reflexivity|]. split; intros pos acc.
    - cbn [k_parseNext parseNext]. destruct (endOfSource source pos); [reflexivity|].
      rewrite snd_cbind. cbn [k_at steps snd]. destruct (sourceAt source pos) as [c|e]; [cbn [bind]|reflexivity].
      destruct (c =? ch "%"); [apply IHp|]. rewrite snd_cbind. cbn [k_indexOf steps snd].
      destruct (indexOfPercent source pos) as [i|]; rewrite snd_cbind; cbn [k_substring steps snd]; [apply IHp|reflexivity].
    - cbn [k_forPattern forPattern]. rewrite snd_cbind. cbn [k_check free snd]. destruct (checkSource source pos) as [[]|e]; [cbn [bind]|reflexivity].
      rewrite snd_cbind. cbn [k_at steps snd]. destruct (sourceAt source pos) as [c|e]; [cbn [bind]|reflexivity].
      destruct (c =? ch "%"); [apply IHn|]. rewrite snd_cbind, snd_directive.
      destruct (p_directive dtf_valid source pos) as [[a p]|e]; [cbn [bind]; apply IHn|reflexivity].
  Qed.

  Lemma snd_compile : snd (k_compile dtf_valid source) = compile dtf_valid source.
  Proof. apply snd_loop. Qed.

  (** ** Bounds *)

  (** the steps with a result are as [P] says, those without as [E] says *)
  Definition within {A} (r : cost A) (P : Z -> A -> Prop) (E : Z -> Prop) : Prop :=
    match r with
    | (n, Ok a) => P n a
    | (n, Err _) => E n
    end.

  Lemma within_bind {A B} (r : cost A) (f : A -> cost B) P E Q F :
    within r P E ->
    (forall n a, P n a -> within (f a) (fun m b => Q (n + m) b) (fun m => F (n + m))) ->
    (forall n, E n -> F n) ->
    within (cbind r f) Q F.
  Proof.
    destruct r as [n [a|e]]; cbn; intros H Hf He; [|apply He; exact H].
    specialize (Hf n a H). destruct (f a) as [m [b|e]]; exact Hf.
  Qed.

  Lemma within_weaken {A} (r : cost A) P E (Q : Z -> A -> Prop) (F : Z -> Prop) :
    within r P E -> (forall n a, P n a -> Q n a) -> (forall n, E n -> F n) -> within r Q F.
  Proof. destruct r as [n [a|e]]; cbn; auto. Qed.

  Notation n := (zlen source).

  Lemma source_at pos : 0 <= pos < n -> exists c, sourceAt source pos = Ok c /\ znth source pos = Some c.
  Proof.
    intros H. unfold sourceAt, znth, zlen in *. destruct (Z.ltb_spec pos 0); [lia|].
    destruct (nth_error source (Z.to_nat pos)) as [c|] eqn:E; [eauto|]. apply nth_error_None in E. lia.
  Qed.

  Lemma end_spec pos : endOfSource source pos = true /\ n <= pos \/ endOfSource source pos = false /\ pos < n.
  Proof. unfold endOfSource. destruct (Z.leb_spec n pos); auto. Qed.

  Lemma flags_cost fuel pos fl :
    0 <= pos <= n ->
    within (k_flags source fuel pos fl) (fun m r => pos <= snd r <= n /\ snd r - pos <= m <= snd r - pos + 1) (fun m => m <= n - pos).
  Proof.
    revert pos fl. induction fuel as [|f IH]; intros pos fl H; cbn [k_flags]; destruct (end_spec pos) as [[-> He]|[-> He]]; try (cbn [within snd free cbind steps]; lia).
    unfold k_at. destruct (source_at pos) as (c & -> & _); [lia|]. cbn [cbind steps].
    destruct (flag_of_char c) as [g|]; [|cbn [within snd free cbind steps]; lia]. destruct (hasF g fl); [cbn [within snd free cbind steps]; lia|].
    specialize (IH (pos + 1) (addF g fl) ltac:(lia)). destruct (k_flags source f (pos + 1) (addF g fl)) as [m [r|e]]; cbn [within snd] in *; lia.
  Qed.

  Lemma digits_cost fuel pos :
    0 <= pos <= n ->
    within (k_digits source fuel pos) (fun m e => pos <= e <= n /\ e - pos <= m <= e - pos + 1 /\ (e = n -> m <= e - pos)) (fun m => m <= n - pos).
  Proof.
    revert pos. induction fuel as [|f IH]; intros pos H; cbn [k_digits]; destruct (end_spec pos) as [[-> He]|[-> He]]; try (cbn [within snd free cbind steps]; lia).
    unfold k_at. destruct (source_at pos) as (c & -> & _); [lia|]. cbn [cbind steps].
    destruct (isNotDigit c); [cbn [within snd free cbind steps]; lia|].
    specialize (IH (pos + 1) ltac:(lia)). destruct (k_digits source f (pos + 1)) as [m [r|e]]; cbn [within snd] in *; lia.
  Qed.

  Lemma number_cost pos e empty k :
    0 <= pos <= e -> e <= n ->
    within (k_number source pos e empty k) (fun m r => snd r = e /\ m = 2 * (e - pos)) (fun m => m = 2 * (e - pos) /\ pos < e).
  Proof.
    intros H He. unfold k_number, k_substring. pose proof (zlen_slice source pos e) as L.
    assert (zlen (slice source pos e) = e - pos) as L' by lia. clear L.
    destruct (slice source pos e) as [|x l]; cbn [cbind steps].
    - change (zlen (@nil Z)) with 0 in *. cbn [within snd free]. lia.
    - assert (0 < zlen (x :: l)) by (unfold zlen; cbn [List.length]; lia). destruct (parseInt (x :: l)); cbn [within snd]; lia.
  Qed.

  Lemma check_cost pos : 0 <= pos -> checkSource source pos = Ok tt /\ pos < n \/ (exists e, checkSource source pos = Err e) /\ n <= pos.
  Proof. intros H. unfold checkSource. destruct (end_spec pos) as [[-> He]|[-> He]]; eauto. Qed.

  Lemma width_cost pos :
    0 <= pos <= n ->
    within (k_width source pos)
      (fun m r => pos <= snd r <= n /\ snd r - pos <= m <= 3 * (snd r - pos) + 2 /\ (snd r = n -> m <= 4 * (n - pos)))
      (fun m => m <= 4 * (n - pos) + 1).
  Proof.
    intros H. unfold k_width, k_check, k_at. destruct (check_cost pos) as [[-> He]|[[e ->] He]]; [lia| |cbn [within snd free cbind steps]; lia]. cbn [free cbind].
    destruct (source_at pos) as (c & -> & _); [lia|]. cbn [cbind steps].
    destruct (c =? ch "*"); [cbn [within snd free cbind steps]; lia|].
    pose proof (digits_cost (fuel0 source) pos ltac:(lia)) as D. destruct (k_digits source (fuel0 source) pos) as [m [e|e]]; cbn [within snd] in D; [|cbn [within snd free cbind steps]; lia].
    cbn [cbind]. pose proof (number_cost pos e UNSET BadWidth ltac:(lia) ltac:(lia)) as N.
    destruct (k_number source pos e UNSET BadWidth) as [m' [r|e']]; cbn [within snd] in *; lia.
  Qed.

  Lemma precision_cost pos :
    0 <= pos <= n ->
    within (k_precision source pos)
      (fun m r => pos <= snd r <= n /\ snd r - pos <= m <= 4 * (snd r - pos) + 1 /\ (snd r = n -> pos < n -> m <= 4 * (n - pos) - 1) /\ (pos = n -> m = 0))
      (fun m => m <= 4 * (n - pos) - 1).
  Proof.
    intros H. unfold k_precision, k_check, k_at. destruct (end_spec pos) as [[-> He]|[-> He]]; [cbn [within snd free cbind steps]; lia|].
    destruct (source_at pos) as (c & -> & _); [lia|]. cbn [cbind steps].
    destruct (negb (c =? ch ".")); [cbn [within snd free cbind steps]; lia|]. cbv zeta. destruct (check_cost (pos + 1)) as [[-> He']|[[e ->] He']]; [lia| |cbn [within snd free cbind steps]; lia]. cbn [free cbind].
    destruct (source_at (pos + 1)) as (c' & -> & _); [lia|]. cbn [cbind steps].
    destruct (c' =? ch "*"); [cbn [within snd free cbind steps]; lia|].
    pose proof (digits_cost (fuel0 source) (pos + 1) ltac:(lia)) as D. destruct (k_digits source (fuel0 source) (pos + 1)) as [m [e|e]]; cbn [within snd] in D; [|cbn [within snd free cbind steps]; lia].
    cbn [cbind]. pose proof (number_cost (pos + 1) e 0 BadPrecision ltac:(lia) ltac:(lia)) as N.
    destruct (k_number source (pos + 1) e 0 BadPrecision) as [m' [r|e']]; cbn [within snd] in *; lia.
  Qed.

  Lemma scan_cost fuel pos q :
    0 <= pos <= n ->
    within (k_scan source fuel pos q)
      (fun m r => match r with Some i => pos <= i < n /\ i - pos + 1 <= m <= 2 * (i - pos) + 1 | None => m <= 2 * (n - pos) end) (fun m => m <= 2 * (n - pos)).
  Proof.
    revert pos q. induction fuel as [|f IH]; intros pos q H; cbn [k_scan]; destruct (Z.leb_spec n pos); try (cbn [within snd free cbind steps]; lia).
    unfold k_at. destruct (source_at pos) as (c & -> & _); [lia|]. cbn [cbind steps].
    destruct (c =? ch "'").
    - destruct (Z.ltb_spec (pos + 1) n) as [Hl|Hl].
      + destruct (source_at (pos + 1)) as (c2 & -> & _); [lia|]. cbn [cbind steps]. destruct (c2 =? ch "'").
        * specialize (IH (pos + 1 + 1) q ltac:(lia)). destruct (k_scan source f (pos + 1 + 1) q) as [m [[i|]|e]]; cbn [within snd] in *; lia.
        * specialize (IH (pos + 1) (negb q) ltac:(lia)). destruct (k_scan source f (pos + 1) (negb q)) as [m [[i|]|e]]; cbn [within snd] in *; lia.
      + specialize (IH (pos + 1) (negb q) ltac:(lia)). destruct (k_scan source f (pos + 1) (negb q)) as [m [[i|]|e]]; cbn [within snd] in *; lia.
    - destruct ((c =? ch "}") && negb q); [cbn [within snd free cbind steps]; lia|].
      specialize (IH (pos + 1) q ltac:(lia)). destruct (k_scan source f (pos + 1) q) as [m [[i|]|e]]; cbn [within snd] in *; lia.
  Qed.

  Lemma date_cost pos :
    0 <= pos <= n ->
    within (k_date dtf_valid source pos)
      (fun m r => pos <= snd r <= n /\ snd r - pos <= m <= 4 * (snd r - pos) + 1) (fun m => m <= 4 * (n - pos) + 1).
  Proof.
    intros H. unfold k_date, k_at. destruct (end_spec pos) as [[-> He]|[-> He]]; [cbn [within snd free cbind steps]; lia|].
    destruct (source_at pos) as (c & -> & _); [lia|]. cbn [cbind steps].
    destruct (negb (c =? ch "{")); [cbn [within snd free cbind steps]; lia|]. cbv zeta.
    pose proof (scan_cost (fuel0 source) (pos + 1) false ltac:(lia)) as D. destruct (k_scan source (fuel0 source) (pos + 1) false) as [m [[i|]|e]]; cbn [within snd] in D; [|cbn [within snd free cbind steps]; lia|cbn [within snd free cbind steps]; lia].
    cbn [cbind]. unfold k_substring. pose proof (zlen_slice source (pos + 1) i) as L. assert (zlen (slice source (pos + 1) i) = i - (pos + 1)) as L' by lia. clear L.
    destruct (slice source (pos + 1) i) as [|x l]; cbn [cbind steps].
    - change (zlen (@nil Z)) with 0 in *. cbn [within snd free]. lia.
    - destruct (dtf_valid (x :: l)); cbn [within snd free cbind]; lia.
  Qed.

  Lemma spec_cost pos :
    0 <= pos <= n ->
    within (k_spec source pos) (fun m r => snd r = pos + 1 /\ pos + 1 <= n /\ m = 1) (fun m => m <= n - pos /\ m <= 1).
  Proof.
    intros H. unfold k_spec, k_check, k_at. destruct (check_cost pos) as [[-> He]|[[e ->] He]]; [lia| |cbn [within snd free cbind steps]; lia]. cbn [free cbind].
    destruct (source_at pos) as (c & -> & _); [lia|]. cbn [cbind steps].
    destruct (spec_of_char c); cbn [within snd free cbind steps]; lia.
  Qed.

  Lemma directive_cost pos :
    0 <= pos <= n ->
    within (k_directive dtf_valid source pos)
      (fun m r => pos < snd r <= n /\ snd r - pos <= m <= 4 * (snd r - pos) + 2) (fun m => m <= 4 * (n - pos) + 2).
  Proof.
    intros H. unfold k_directive.
    pose proof (flags_cost (fuel0 source) pos noFlags H) as F. destruct (k_flags source (fuel0 source) pos noFlags) as [m1 [[fl p1]|e]]; cbn [within snd] in F; [|cbn [within snd free cbind steps]; lia]. cbn [cbind].
    pose proof (width_cost p1 ltac:(lia)) as W. destruct (k_width source p1) as [m2 [[w p2]|e]]; cbn [within snd] in W; [|cbn [within snd free cbind steps]; lia]. cbn [cbind].
    pose proof (precision_cost p2 ltac:(lia)) as P. destruct (k_precision source p2) as [m3 [[p p3]|e]]; cbn [within snd] in P; [|cbn [within snd free cbind steps]; lia]. cbn [cbind].
    pose proof (spec_cost p3 ltac:(lia)) as S. destruct (k_spec source p3) as [m4 [[s p4]|e]]; cbn [within snd] in S; [|cbn [within snd free cbind steps]; lia]. cbn [cbind].
    assert (within (if isDateTimeSpec s then k_date dtf_valid source p4 else free (Ok (None, p4)))
              (fun m r => p4 <= snd r <= n /\ snd r - p4 <= m <= 4 * (snd r - p4) + 1) (fun m => m <= 4 * (n - p4) + 1)) as D.
    { destruct (isDateTimeSpec s); [apply date_cost; lia|cbn [within snd free cbind steps]; lia]. }
    destruct (if isDateTimeSpec s then k_date dtf_valid source p4 else free (Ok (None, p4))) as [m5 [[d p5]|e]]; cbn [within snd] in D; [|cbn [within snd free cbind steps]; lia]. cbn [cbind free].
    destruct (ctx_create fl w p d) as [c|e]; cbn [within snd free cbind steps]; lia.
  Qed.

  Lemma findPct_range s i : findPct s = Some i -> 0 <= i < zlen s.
  Proof.
    revert i. induction s as [|c s IH]; intros i; cbn [findPct]; [discriminate|]. unfold zlen in *. cbn [List.length].
    destruct (c =? ch "%"); [intros [= <-]; lia|]. destruct (findPct s) as [j|]; [|discriminate]. intros [= <-]. specialize (IH j eq_refl). lia.
  Qed.

  Lemma indexOf_cost pos c :
    0 <= pos < n -> znth source pos = Some c -> (c =? ch "%") = false ->
    match indexOfPercent source pos with Some i => pos < i < n | None => True end.
  Proof.
    intros H Hc E. unfold indexOfPercent. destruct (findPct (skipn (Z.to_nat pos) source)) as [i|] eqn:F; [|exact I]. cbn [option_map].
    assert (i <> 0) as Hi.
    { intros ->. unfold znth in Hc. destruct (Z.ltb_spec pos 0); [lia|]. 
      rewrite <- (firstn_skipn (Z.to_nat pos) source), nth_error_app2 in Hc by (rewrite firstn_length; lia).
      rewrite firstn_length in Hc. unfold zlen in H. replace (Z.to_nat pos - Nat.min (Z.to_nat pos) (List.length source))%nat with 0%nat in Hc by lia.
      destruct (skipn (Z.to_nat pos) source) as [|x l]; [discriminate|]. cbn in Hc. injection Hc as ->. cbn [findPct] in F. rewrite E in F.
      destruct (findPct l) as [j|] eqn:G; [|discriminate]. apply findPct_range in G. injection F as F. lia. }
    apply findPct_range in F. unfold zlen in *. rewrite skipn_length in F. lia.
  Qed.

  Lemma k_parseNext_S f pos acc :
    k_parseNext dtf_valid source (S f) pos acc =
      if endOfSource source pos then free (Ok acc)
        else
          let$ c := k_at source pos in
          if c =? ch "%" then k_forPattern dtf_valid source f (pos + 1) acc
          else
            let$ r := k_indexOf source pos in
            match r with
            | None => let$ t := k_substring source pos (zlen source) in free (Ok (acc ++ [Fixed t]))
            | Some nextPercent => let$ t := k_substring source pos nextPercent in k_forPattern dtf_valid source f (nextPercent + 1) (acc ++ [Fixed t])
            end.
  Proof. reflexivity. Qed.

  Lemma k_forPattern_S f pos acc :
    k_forPattern dtf_valid source (S f) pos acc =
        let$ _ := k_check source pos in
        let$ c := k_at source pos in
        if c =? ch "%" then k_parseNext dtf_valid source f (pos + 1) (acc ++ [Fixed [ch "%"]])
        else
          let$ (a, pos') := k_directive dtf_valid source pos in
          k_parseNext dtf_valid source f pos' (acc ++ [a]).
  Proof. reflexivity. Qed.

  Lemma loop_cost fuel :
    (forall pos acc, 0 <= pos <= n ->
       within (k_parseNext dtf_valid source fuel pos acc) (fun m _ => n - pos <= m <= 4 * (n - pos)) (fun m => m <= 4 * (n - pos)))
    /\ (forall pos acc, 0 <= pos <= n ->
       within (k_forPattern dtf_valid source fuel pos acc) (fun m _ => n - pos <= m <= 4 * (n - pos) + 3) (fun m => m <= 4 * (n - pos) + 3)).
  Proof.
    induction fuel as [|f [IHn IHp]]; [split; intros; cbn [k_parseNext k_forPattern within snd free cbind steps]; lia|]. split; intros pos acc H.
    - rewrite k_parseNext_S. unfold k_at. destruct (end_spec pos) as [[-> He]|[-> He]]; [cbn [within snd free cbind steps]; lia|].
      destruct (source_at pos) as (c & -> & Hc); [lia|]. cbn [cbind steps]. destruct (c =? ch "%") eqn:E.
      + specialize (IHp (pos + 1) acc ltac:(lia)). destruct (k_forPattern dtf_valid source f (pos + 1) acc) as [m [r|e]]; cbn [within snd] in *; lia.
      + unfold k_indexOf, k_substring. pose proof (indexOf_cost pos c ltac:(lia) Hc E) as Hi.
        destruct (indexOfPercent source pos) as [i|]; cbn [cbind steps free].
        * pose proof (zlen_slice source pos i) as L.
          specialize (IHp (i + 1) (acc ++ [Fixed (slice source pos i)]) ltac:(lia)).
          destruct (k_forPattern dtf_valid source f (i + 1) (acc ++ [Fixed (slice source pos i)])) as [m [r|e]]; cbn [within snd] in *; lia.
        * pose proof (zlen_slice source pos n) as L. cbn [within free] in *. lia.
    - rewrite k_forPattern_S. unfold k_check, k_at. destruct (check_cost pos) as [[-> He]|[[e ->] He]]; [lia| |cbn [within snd free cbind steps]; lia]. cbn [free cbind].
      destruct (source_at pos) as (c & -> & Hc); [lia|]. cbn [cbind steps]. destruct (c =? ch "%") eqn:E.
      + specialize (IHn (pos + 1) (acc ++ [Fixed [ch "%"]]) ltac:(lia)). destruct (k_parseNext dtf_valid source f (pos + 1) (acc ++ [Fixed [ch "%"]])) as [m [r|e]]; cbn [within snd] in *; lia.
      + pose proof (directive_cost pos ltac:(lia)) as D. destruct (k_directive dtf_valid source pos) as [m [[a p]|e]]; cbn [within snd] in D; [|cbn [within snd free cbind steps]; lia]. cbn [cbind].
        specialize (IHn p (acc ++ [a]) ltac:(lia)). destruct (k_parseNext dtf_valid source f p (acc ++ [a])) as [m' [r|e]]; cbn [within snd] in *; lia.
  Qed.
End Compiler.
