(** C88: composite sequences of classes outside the library as arguments. *)
From Verif Require Import Base Digits UtilsM SeqM SeqSpec SeqP ContextM CompilerM IntFormM FormatterM FmtSpec FmtP TraitsM ImplM DirSpec IntP PropsInt LoopP
  ValueSpec ValueP PropsValue CompM CompSpec CompP.

(** C88: an object whose class implements [AtomicSeqIterable], and whose iterator(), unfold(), elementCount() and toString()
    agree, behaves in every call exactly like the library's array of the same leaves and the same length: the same output, the
    same exception, and the same output up to it. Nothing is assumed about length() and the leaves. *)
Theorem C88_consistent_composites_print_like_arrays : forall S (K : comp S) J ds objects arrays,
  Forall2 (with_array K J) objects arrays ->
  forall sb target, exists n, forall fuel, (n <= fuel)%nat -> k_run K J fuel sb ds objects target = formatInto J sb ds arrays target.
Proof. intros S K J ds objects arrays F sb target. exact (like_run K J sb ds objects arrays target F). Qed.
Print Assumptions C88_consistent_composites_print_like_arrays.

(** C88: so %s prints the text of the object in its field, if no width is given or nothing is cut (what happens otherwise is
    C12_composite_sequence_in_field_refuted). *)
Theorem C88_text : forall S (K : comp S) J dtf src q u ts r,
  directive src Ss q -> consistent K u -> Forall2 den_atom (k_iter K u) ts -> k_length K u = zlen (concat ts) -> zlen (concat ts) <= int_max ->
  (q_width q = 0 \/ (match q_prec q with Some p => zlen (concat ts) <= p | None => True end)) ->
  exists ds, compile dtf src = Ok ds /\
    forall sb target, exists n, forall fuel, (n <= fuel)%nat -> k_run K J fuel sb ds [KOwn u r] target = (target ++ c_s q (concat ts), None).
Proof.
  intros S K J dtf src q u ts r Hd Hu Ht Hl Hm Hq.
  assert (D : den (as_array K u) (concat ts)).
  { unfold as_array. rewrite Hl. pose proof (opens_nonempty K _ _ (proj1 Hu)) as Hn. destruct (k_iter K u) as [|p ps]; [congruence|].
    constructor; assumption. }
  destruct (C12_composite_sequence_partial J src q _ _ r Hd D Hq dtf) as (ds & Hc & _ & Hf). exists ds. split; [exact Hc|].
  intros sb target.
  destruct (C88_consistent_composites_print_like_arrays S K J ds [KOwn u r] [traitsOf J (VSeq (as_array K u)) r]) with (sb := sb) (target := target) as (n & Hn).
  { constructor; [constructor; exact Hu|constructor]. }
  exists n. intros fuel Hfuel. rewrite Hn by exact Hfuel. apply Hf.
Qed.
Print Assumptions C88_text.

(** ** Examples *)

(** a class of trees: an inner node unfolds to its left child and pushes the right one *)
Inductive tree := Tip (t : list Z) | Node (l r : tree).
Fixpoint tips (u : tree) : list atom := match u with Tip t => [s_wrap t] | Node l r => tips l ++ tips r end.
Fixpoint chars (u : tree) : Z := match u with Tip t => zlen t | Node l r => chars l + chars r end.
Fixpoint number (u : tree) : Z := match u with Tip t => 1 | Node l r => number l + number r end.
Definition trees : comp tree :=
  mkComp tree chars tips
    (fun u st => match u with Tip t => Ok (CLib (wrapS t), st) | Node l r => Ok (COwn l, COwn r :: st) end)
    number (fun u => s_toString (Arr (tips u) (chars u))).

Lemma trees_open u : opens trees (COwn u) (tips u).
Proof.
  induction u as [t|l IHl r IHr]; cbn [tips].
  - change [s_wrap t] with (leaves (wrapS t) ++ []). apply op_own with (x := CLib (wrapS t)) (xs := []); [reflexivity| |constructor].
    constructor. exact I.
  - apply op_own with (x := COwn l) (xs := [COwn r]); [reflexivity|exact IHl|]. apply opens_one. exact IHr.
Qed.

Lemma trees_consistent u : number u < int_max -> consistent trees u.
Proof.
  intros H. split; [apply trees_open|]. split; [reflexivity|]. split; [|exact H]. clear H. cbn [k_count trees].
  induction u as [t|l IHl r IHr]; cbn [number]; lia.
Qed.

Definition sample : tree := Node (Node (Tip (txt "ab")) (Tip (txt "c"))) (Node (Tip (txt "de")) (Tip (txt "f"))).

Example C88_consistent_example : consistent trees sample.
Proof. apply trees_consistent. reflexivity. Qed.

Example C88_example :
  exists ds, compile (fun _ => true) (txt "%8s|%-8S|%s|%.4s|%c") = Ok ds /\
    k_run trees J2 10 true ds [KOwn sample RPrimitive; KOwn sample RPrimitive; KOwn sample RPrimitive; KOwn sample RPrimitive; KOwn sample RPrimitive] (txt ">")
    = (txt ">  abcdef|ABCDEF  |abcdef|abcd|a", None).
Proof. eexists. split; [vm_compute; reflexivity|vm_compute; reflexivity]. Qed.

(** ** What an inconsistent class leads to *)

(** C88 needs unfold() to agree with iterator(): here unfold() gives the children in the other order, which shows only when
    there are blanks to add *)
Theorem C88_unfold_in_other_order_refuted :
  exists (K : comp unit), k_iter K tt = [s_wrap (txt "ab"); s_wrap (txt "cd")] /\
    exists d1 d2, compile (fun _ => true) (txt "%s") = Ok d1 /\ compile (fun _ => true) (txt "%5s") = Ok d2 /\
      (forall J fuel, k_run K J fuel true d1 [KOwn tt RPrimitive] [] = (txt "abcd", None)) /\
      (forall J fuel, (4 <= fuel)%nat -> k_run K J fuel true d2 [KOwn tt RPrimitive] [] = (txt " cdab", None)).
Proof.
  exists (mkComp unit (fun _ => 4) (fun _ => [s_wrap (txt "ab"); s_wrap (txt "cd")])
    (fun _ st => Ok (CLib (wrapS (txt "cd")), CLib (wrapS (txt "ab")) :: st)) (fun _ => 2) (fun _ => Ok (txt "abcd"))).
  split; [reflexivity|]. eexists. eexists. split; [vm_compute; reflexivity|]. split; [vm_compute; reflexivity|]. split.
  - intros J fuel. reflexivity.
  - intros J fuel Hf. do 4 (destruct fuel as [|fuel]; [lia|]). reflexivity.
Qed.
Print Assumptions C88_unfold_in_other_order_refuted.

(** ... and to come to an end: an object that unfolds to itself is printed by %s, but padding it to the right never ends;
    the blanks have been written by then *)
Theorem C88_unfold_to_itself_refuted :
  exists (K : comp unit), k_iter K tt = [s_wrap (txt "ab")] /\
    exists d1 d2, compile (fun _ => true) (txt "%s") = Ok d1 /\ compile (fun _ => true) (txt "%5s") = Ok d2 /\
      (forall J fuel, k_run K J fuel true d1 [KOwn tt RPrimitive] [] = (txt "ab", None)) /\
      (forall J fuel, (2 <= fuel)%nat -> k_run K J fuel true d2 [KOwn tt RPrimitive] [] = (txt "   ", Some OutOfFuel)).
Proof.
  set (K := mkComp unit (fun _ => 2) (fun _ => [s_wrap (txt "ab")]) (fun _ st => Ok (COwn tt, st)) (fun _ => 1) (fun _ => Ok (txt "ab"))).
  assert (L : forall fuel st, k_descend K fuel (COwn tt) st = Err OutOfFuel) by (induction fuel as [|f IH]; intros st; [reflexivity|exact (IH st)]).
  exists K. split; [reflexivity|]. eexists. eexists. split; [vm_compute; reflexivity|]. split; [vm_compute; reflexivity|]. split.
  - intros J fuel. reflexivity.
  - intros J fuel Hf. do 2 (destruct fuel as [|fuel]; [lia|]).
    assert (E : forall J d c t, k_appendOne K J (Datatypes.S (Datatypes.S fuel)) d [KOwn tt RPrimitive] = Ok (CCat (CLib (Leaf (ARep (ch " ") 3))) (COwn tt) c t, []) ->
      k_run K J (Datatypes.S (Datatypes.S fuel)) true [d] [KOwn tt RPrimitive] [] = (txt "   ", Some OutOfFuel)).
    { intros J' d c t E. cbn [k_run]. rewrite E. cbn [k_emit k_each]. cbn [k_descend].
      change (a_toSB (ARep (ch " ") 3) []) with (Ok (txt "   ")). cbv iota beta. change (k_unfold K tt []) with (Ok (COwn tt, [] : list (cseq unit))). cbn [bind]. rewrite L. reflexivity. }
    eapply E. reflexivity.
Qed.
Print Assumptions C88_unfold_to_itself_refuted.
