(** Properties C13, C18, C19, C20: the sequence API. *)
From Verif Require Import Base Digits UtilsM SeqM SeqSpec SeqP SeqSubP SeqExpr SeqExprP.

(** C18: every sequence built from the public factories and combinators behaves as the list of
    characters its expression denotes ([stext], SeqExpr.v). *)
Theorem C18_sequences_behave_as_lists :
  forall (e : sexpr) (t : list Z), stext e = Some t -> exists s, seval e = Ok s /\ behaves_as s t.
Proof. exact seval_behaves. Qed.
Print Assumptions C18_sequences_behave_as_lists.

Definition ex_e : sexpr :=
  Xappend (Xprepend (Xconcat (Xatom (Xwrap (txt "bc"))) (Xjoin [Xlazy (txt "de"); Xrepeated 102 3]))
                    (Xatom (Xch 97)))
          (Xupper (Xatom (XforArray3 (txt "xyz{") 1 3))).

Example C18_example : stext ex_e = Some (txt "abcdefffYZ{").
Proof. reflexivity. Qed.

(** C13: upper-casing any sequence maps a..z to A..Z and nothing else; the statement of the map is
    spelled out. *)
Theorem C13_upper_case_is_ascii_only :
  forall (e : sexpr) (t : list Z), stext e = Some t ->
    exists s u, seval e = Ok s /\ s_upper s = Ok u /\
      behaves_as u (map (fun c => if (97 <=? c) && (c <=? 122) then c - 32 else c) t).
Proof. exact seval_upper. Qed.
Print Assumptions C13_upper_case_is_ascii_only.

Theorem C13_upper_case_idempotent :
  forall t : list Z, map ascii_upper (map ascii_upper t) = map ascii_upper t.
Proof. intros t. rewrite map_map. apply map_ext. exact ascii_upper_idem. Qed.
Print Assumptions C13_upper_case_idempotent.

(** C13: the helpers on characters, arrays and strings *)
Theorem C13_utils_upper_case :
  (forall c, toUpperCase c = ascii_upper c) /\
  (forall l, toUpperCaseArr l = map ascii_upper l) /\ (forall l, toUpperCaseStr l = map ascii_upper l).
Proof. exact (conj toUpperCase_spec (conj toUpperCaseArr_spec toUpperCaseStr_spec)). Qed.
Print Assumptions C13_utils_upper_case.

Lemma run_in a n c : In c (map (fun k => a + Z.of_nat k) (List.seq 0 n)) <-> a <= c < a + Z.of_nat n.
Proof.
  rewrite in_map_iff. split.
  - intros (k & <- & H). apply in_seq in H. lia.
  - intros H. exists (Z.to_nat (c - a)). split; [lia|]. apply in_seq. lia.
Qed.
Theorem C13_letters : forall c,
  (isUpperCase c = true <-> In c (txt "ABCDEFGHIJKLMNOPQRSTUVWXYZ")) /\ (isLowerCase c = true <-> In c (txt "abcdefghijklmnopqrstuvwxyz")).
Proof.
  intros c. unfold isUpperCase, isLowerCase. rewrite !andb_true_iff, !Z.leb_le.
  change (txt "ABCDEFGHIJKLMNOPQRSTUVWXYZ") with (map (fun k => 65 + Z.of_nat k) (List.seq 0 26)).
  change (txt "abcdefghijklmnopqrstuvwxyz") with (map (fun k => 97 + Z.of_nat k) (List.seq 0 26)). rewrite !run_in. lia.
Qed.
Print Assumptions C13_letters.

Example C13_example : exists s u, seval ex_e = Ok s /\ s_upper s = Ok u /\ s_toString u = Ok (txt "ABCDEFFFYZ{").
Proof. eexists _, _. split; [reflexivity|]. split; reflexivity. Qed.

(** C19, atomic sequences: subSequence is the slice in every observation. *)
Theorem C19_subsequence_of_atomic :
  forall (a : aexpr) (t : list Z) i j, atext a = Some t -> 0 <= i -> i <= j -> j <= zlen t ->
    exists s u, seval (Xatom a) = Ok s /\ s_sub s i j = Ok u /\ behaves_as u (slice t i j).
Proof. exact aeval_sub. Qed.
Print Assumptions C19_subsequence_of_atomic.

(** C19, any sequence: the text, the appended text and indexOf of the result are those of the slice.
    Missing for the full property: the recorded length (and so charAt), see C19_length_refuted. *)
Theorem C19_subsequence_text_partial :
  forall (e : sexpr) (t : list Z) i j, stext e = Some t -> 0 <= i -> i <= j -> j <= zlen t ->
    exists s u, seval e = Ok s /\ s_sub s i j = Ok u /\
      s_toString u = Ok (slice t i j) /\
      (forall sb, s_toSB u sb = Ok (sb ++ slice t i j)) /\
      (forall sb, s_toApp u sb = Ok (sb ++ slice t i j)) /\
      (forall c, s_indexOf u c = Ok (index_of c (slice t i j))) /\
      s_len u <= j - i.
Proof. exact seval_sub. Qed.
Print Assumptions C19_subsequence_text_partial.

(** C19: indices out of range are rejected (for a non-empty sequence). *)
Theorem C19_subsequence_out_of_range :
  forall (e : sexpr) (t : list Z) i j, stext e = Some t -> t <> [] -> ~ (0 <= i /\ i <= j /\ j <= zlen t) ->
    exists s, seval e = Ok s /\ s_sub s i j = Err IndexOOB.
Proof. exact seval_sub_bad. Qed.
Print Assumptions C19_subsequence_out_of_range.

(** C19 is false: a slice over two leaves records a wrong length (2 characters, length 1). *)
Theorem C19_length_refuted :
  exists e t i j s u, stext e = Some t /\ 0 <= i <= j /\ j <= zlen t /\ seval e = Ok s /\
    s_sub s i j = Ok u /\ s_toString u = Ok (slice t i j) /\ s_len u <> j - i.
Proof.
  exists (Xconcat (Xatom (Xwrap (txt "ab"))) (Xatom (Xwrap (txt "cd")))), (txt "abcd"), 1, 3.
  eexists _, _. split; [reflexivity|]. split; [lia|]. split; [vm_compute; discriminate|].
  split; [reflexivity|]. split; [reflexivity|]. split; [reflexivity|]. vm_compute. discriminate.
Qed.
Print Assumptions C19_length_refuted.

(** C19 is false at the empty sequence, which throws IllegalArgumentException. *)
Theorem C19_empty_exception_refuted :
  exists e s, stext e = Some [] /\ seval e = Ok s /\ s_sub s 0 1 = Err IllegalArg.
Proof. exists (Xatom Xempty). eexists. repeat split. Qed.
Print Assumptions C19_empty_exception_refuted.

(** C20: the for-each loop over a sequence visits its leaves left to right and ends, after as many
    elements as elementCount announces. *)
Theorem C20_iteration :
  forall (e : sexpr) (t : list Z), stext e = Some t ->
  exists s ps ts, seval e = Ok s /\ s_iter s = Ok ps /\ ps = leaves s /\
    Forall2 den_atom ps ts /\ concat ts = t /\ (zlen ps <= int_max -> elementCount s = zlen ps).
Proof. exact seval_iter. Qed.
Print Assumptions C20_iteration.

Example C20_example : exists s ps, seval ex_e = Ok s /\ s_iter s = Ok ps /\ zlen ps = 5 /\ elementCount s = 5.
Proof. eexists _, _. split; [reflexivity|]. split; [reflexivity|]. split; reflexivity. Qed.
