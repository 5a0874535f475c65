(** C83: sequences of classes outside the library as arguments. *)
From Verif Require Import Base Digits UtilsM SeqM SeqSpec SeqP ContextM CompilerM IntFormM FormatterM FmtSpec FmtP TraitsM ImplM DirSpec IntP PropsInt LoopP
  ValueSpec ValueP PropsValue WholeP UserM UserSpec UserP.

(** C83: an object whose class implements [AtomicSeq] and keeps the contracts behaves in every call exactly like a String with
    the same text: the same output, the same exception, and the same output up to it. *)
Theorem C83_atomic_sequences_print_like_strings : forall S (K : cls S) R J dtf src ds objects strings,
  jdk_ok J -> acts_like_text K R -> (forall u t, R u t -> u_atomic K u = true) ->
  compile dtf src = Ok ds -> Forall2 (with_string R J) objects strings ->
  forall sb target, u_run K J sb ds objects target = formatInto J sb ds strings target.
Proof.
  intros S K R J dtf src ds objects strings HJ HK Ha Hc F sb target. unfold formatInto.
  apply (like_run K R HK Ha J HJ); [exact (compiled_sane _ _ _ Hc)|exact F].
Qed.
Print Assumptions C83_atomic_sequences_print_like_strings.

(** C83: the methods [Seq] implements by default are right for every object whose length() and charAt() are those of a text *)
Theorem C83_default_methods : forall t at_, (forall i c, znth t i = Some c -> at_ i = Ok c) ->
  (forall sb, d_append (zlen t) at_ sb = Ok (sb ++ t)) /\
  (d_isEmpty (zlen t) = true <-> t = []) /\
  (forall c, d_indexOf (zlen t) at_ c = Ok (index_of c t)) /\
  (forall c, d_startsWith (zlen t) at_ c = Ok true <-> exists r, t = c :: r).
Proof.
  intros t at_ H. split; [|split; [|split]].
  - apply d_append_is. exact H.
  - unfold d_isEmpty. rewrite Z.eqb_eq. split; [apply zlen_0_nil|intros ->; reflexivity].
  - apply d_indexOf_is. exact H.
  - intros c. rewrite (d_startsWith_is t at_ H c). destruct t as [|x r]; [split; [discriminate|intros [r E]; discriminate]|].
    destruct (Z.eqb_spec x c) as [-> |N]; split; try (intros; eauto; fail); [discriminate|intros [r' E]; congruence].
Qed.
Print Assumptions C83_default_methods.

(** C83 (what holds of [Seq] implementations that are not [AtomicSeq]s): %s and %S print such an object when there is nothing
    to pad, and fail with a ClassCastException as soon as the width asks for a blank. With %s and without '-' the blanks have
    been written by then. *)
Theorem C83_plain_sequences_partial : forall S (K : cls S) R J dtf src s q u t r,
  acts_like_text K R -> (forall u t, R u t -> u_atomic K u = false) ->
  (forall u t i j x, R u t -> u_sub K u i j = Ok x -> exists v, x = Own v) ->
  directive src s q -> s = Ss \/ s = SS -> R u t ->
  exists ds, compile dtf src = Ok ds /\
    forall sb target, u_run K J sb ds [Own1 u r] target =
      if q_width q <=? zlen (left_by q t) then (target ++ (if capital s then map ascii_upper (left_by q t) else left_by q t), None)
      else (target ++ (if capital s || q_left q then [] else spaces (q_width q - zlen (left_by q t))), Some ClassCast).
Proof. intros S K R J dtf src s q u t r HK Hp Ho Hd Hs Hu. exact (plain_run K R HK Hp Ho J dtf src s q u t r Hd Hs Hu). Qed.
Print Assumptions C83_plain_sequences_partial.

(** C83: append() and prepend() of sequences with such leaves: the text is the two texts one after the other, the recorded
    length and number of leaves are right, in the new nodes as well. *)
Theorem C83_concatenation : forall S (K : cls S) R s x t t',
  acts_like_text K R -> (forall u, u_count K u = 1) -> measured K s -> measured K x -> text_is R s t -> text_is R x t' ->
  zlen (t ++ t') <= int_max -> zlen (g_leaves s ++ g_leaves x) <= int_max ->
  let both g a b := measured K g /\ text_is R g (a ++ b) /\ g_len K g = zlen a + zlen b /\ g_count K g = zlen (g_leaves g) in
  both (g_append K s x) t t' /\ both (g_prepend K s x) t' t.
Proof.
  intros S K R s x t t' HK H1 Ms Mx Ts Tx Hl Hk both. unfold both. split; [apply (append_measured K R); assumption|].
  apply (prepend_measured K R); try assumption; rewrite zlen_app; [rewrite zlen_app in Hl|rewrite zlen_app in Hk]; lia.
Qed.
Print Assumptions C83_concatenation.

(** ** Examples *)

(** a class with the four methods that have no default, and the default methods for the others *)
Definition simple_class (atomic : bool) : cls (list Z) :=
  mkCls (list Z) (fun _ => atomic) (fun u => zlen u) (fun u i => jcharAt u i)
    (fun u i j => if (0 <=? i) && (i <=? j) && (j <=? zlen u) then Ok (Own (slice u i j)) else Err IndexOOB)
    (fun u => Ok (Own (map ascii_upper u)))
    (fun u => d_append (zlen u) (jcharAt u)) (fun u => d_append (zlen u) (jcharAt u)) (fun _ => 1) (fun u => Ok u).
Definition its_text (u t : list Z) : Prop := u = t /\ zlen t <= int_max.

Lemma slice_len (t : list Z) i j : 0 <= i -> i <= j -> j <= zlen t -> zlen (slice t i j) <= zlen t.
Proof. intros. unfold slice, zlen in *. rewrite firstn_length, skipn_length. lia. Qed.

Lemma simple_acts atomic : acts_like_text (simple_class atomic) its_text.
Proof.
  assert (A : forall t i c, znth t i = Some c -> jcharAt t i = Ok c) by (intros; apply jcharAt_ok; assumption).
  split; unfold its_text; cbn [simple_class u_len u_at u_sub u_up u_sb u_app u_count u_str].
  - intros u t [_ H]. exact H.
  - intros u t [-> _]. reflexivity.
  - intros u t i c [-> _]. apply A.
  - intros u t i j [-> H] Hi Hij Hj. replace ((0 <=? i) && (i <=? j) && (j <=? zlen t)) with true.
    + eexists. split; [reflexivity|]. cbn [has_text]. split; [reflexivity|]. pose proof (slice_len t i j Hi Hij Hj). lia.
    + symmetry. rewrite !andb_true_iff, !Z.leb_le. auto.
  - intros u t [-> H]. eexists. split; [reflexivity|]. cbn [has_text]. split; [reflexivity|]. rewrite zlen_map. exact H.
  - intros u t sb [-> _]. apply d_append_is. apply A.
  - intros u t sb [-> _]. apply d_append_is. apply A.
  - intros u t _. unfold int_max. lia.
  - intros u t [-> _]. reflexivity.
Qed.

(** objects of that class in "%8.3s|%-6S|%*d|%c" *)
Example C83_example :
  exists ds, compile (fun _ => true) (txt "%8.3s|%-6S|%*d|%c") = Ok ds /\
    u_run (simple_class true) J2 true ds [Own1 (txt "abcdef") RPrimitive; Own1 (txt "xyz") RPrimitive; Own1 (txt "5") RPrimitive; Own1 (txt "-42") RPrimitive; Own1 (txt "q") RPrimitive] (txt ">")
    = (txt ">     abc|XYZ   |  -42|q", None).
Proof. eexists. split; [vm_compute; reflexivity|vm_compute; reflexivity]. Qed.

Example C83_hypotheses : Forall2 (with_string its_text J2) [Own1 (txt "abc") RPrimitive; Lib1 (traitsOf J2 (VInt 7) RPrimitive)] [traitsOf J2 (VStr (txt "abc")) RPrimitive; traitsOf J2 (VInt 7) RPrimitive].
Proof.
  constructor; [apply ws_own; split; [reflexivity|vm_compute; discriminate]|]. constructor; [|constructor]. apply ws_lib. apply arg_value; [vm_compute; split; congruence|exact I|exact I].
Qed.

(** C83 is false for classes that implement [Seq] only: "%5s" of such an object writes three blanks and fails, where the String
    of the same text is padded *)
Theorem C83_plain_sequences_refuted :
  exists (K : cls (list Z)) R u t, acts_like_text K R /\ R u t /\
    exists ds, compile (fun _ => true) (txt "%5s") = Ok ds /\
      u_run K J2 true ds [Own1 u RPrimitive] [] = (txt "   ", Some ClassCast) /\
      formatInto J2 true ds [traitsOf J2 (VStr t) RPrimitive] [] = (txt "   ab", None).
Proof.
  exists (simple_class false), its_text, (txt "ab"), (txt "ab"). split; [apply simple_acts|]. split; [split; [reflexivity|vm_compute; discriminate]|].
  eexists. split; [vm_compute; reflexivity|]. split; vm_compute; reflexivity.
Qed.
Print Assumptions C83_plain_sequences_refuted.

Example C83_plain_example :
  exists ds, compile (fun _ => true) (txt "%2s") = Ok ds /\ u_run (simple_class false) J2 true ds [Own1 (txt "ab") RPrimitive] [] = (txt "ab", None).
Proof. eexists. split; [vm_compute; reflexivity|vm_compute; reflexivity]. Qed.

Example C83_concatenation_example :
  let s := GCat (GLeaf (Own (txt "ab"))) (GLeaf (Lib (s_ch (ch "c")))) 3 2 in
  measured (simple_class true) s /\ text_is its_text s (txt "abc") /\
  g_append (simple_class true) s (GLeaf (Own (txt "xyz"))) =
    GCat (GLeaf (Own (txt "ab"))) (GCat (GLeaf (Lib (s_ch (ch "c")))) (GLeaf (Own (txt "xyz"))) 4 2) 6 3.
Proof.
  cbv zeta. split; [|split].
  - cbn. auto.
  - exists [txt "ab"; txt "c"]. split; [|reflexivity]. constructor; [split; [reflexivity|vm_compute; discriminate]|]. constructor; [|constructor].
    vm_compute. intuition congruence.
  - reflexivity.
Qed.
