(** Model of the rest of FormatContext.java: the public factory on a flag string, the getters, toString, and the sharing of
    EnumSet objects between contexts and their clients. *)
From Verif Require Import Base Digits UtilsM ContextM.

(** FormatContext.java:65-71. [Flag.valueOf] answers null for any other character, and EnumSet.add(null) throws a
    NullPointerException. *)
Fixpoint addChars (s : flags) (t : list Z) : res flags :=
  match t with
  | [] => Ok s
  | c :: r => match flag_of_char c with Some f => addChars (addF f s) r | None => Err NullPtr end
  end.

(** FormatContext.java:64-73; None: a null string *)
Definition createText (t : option (list Z)) (w p : Z) : res ctx :=
  let* s := addChars noFlags (match t with Some t => t | None => [] end) in
  ctx_create s w p None.
(** FormatContext.java:59-61 *)
Definition createFlags (t : option (list Z)) : res ctx := createText t UNSET UNSET.

(** Flag.java:7-28: the names of the constants *)
Definition flagName (f : flag) : list Z :=
  match f with
  | LEFT_JUSTIFY => txt "LEFT_JUSTIFY" | ALTERNATE => txt "ALTERNATE" | PLUS => txt "PLUS"
  | LEADING_SPACE => txt "LEADING_SPACE" | ZERO_PAD => txt "ZERO_PAD"
  end.
Definition flagValues : list flag := [LEFT_JUSTIFY; ALTERNATE; PLUS; LEADING_SPACE; ZERO_PAD].
(** the elements of an EnumSet in the order of iteration *)
Definition elements (s : flags) : list flag := filter (fun f => hasF f s) flagValues.
(** java.util.AbstractCollection.toString *)
Fixpoint commas (l : list (list Z)) : list Z :=
  match l with [] => [] | [a] => a | a :: r => a ++ txt ", " ++ commas r end.
Definition setText (s : flags) : list Z := txt "[" ++ commas (map flagName (elements s)) ++ txt "]".
(** FormatContext.java:134-136 *)
Definition ctxText (c : ctx) : list Z :=
  txt "{flags=" ++ setText (c_flags c) ++ txt ", width=" ++ dec_text (c_width c) ++ txt ", precision=" ++ dec_text (c_prec c) ++ txt "}".

(** ** Sharing

    An EnumSet is a mutable object: here a cell of a heap, and a reference is its index. A context holds a reference. *)
Definition ref := nat.
Definition heap := list flags.
Definition at_ref (h : heap) (r : ref) : flags := nth r h noFlags.
Fixpoint put (h : heap) (r : ref) (s : flags) : heap :=
  match h, r with
  | [], _ => []
  | _ :: t, O => s :: t
  | x :: t, S n => x :: put t n s
  end.
Record jctx := mkJctx { x_flags : ref; x_width : Z; x_prec : Z; x_dtf : option (list Z) }.

(** EnumSet.noneOf, EnumSet.copyOf *)
Definition newSet (h : heap) (s : flags) : heap * ref := (h ++ [s], List.length h).
Definition copyOf (h : heap) (r : ref) : heap * ref := newSet h (at_ref h r).

(** FormatContext.java:51-57 *)
Definition j_create (h : heap) (r : ref) (w p : Z) (d : option (list Z)) : res (heap * jctx) :=
  let* _ := checkValue WidthRange w in
  let* _ := checkValue PrecisionRange p in
  let '(h, r) := copyOf h r in Ok (h, mkJctx r w p d).
(** FormatContext.java:79-83 *)
Definition j_setWidth (h : heap) (c : jctx) (w : Z) : res (heap * jctx) :=
  let* _ := checkValue WidthRange w in
  let '(h, r) := copyOf h (x_flags c) in Ok (h, mkJctx r w (x_prec c) (x_dtf c)).
(** FormatContext.java:93-97 *)
Definition j_setPrecision (h : heap) (c : jctx) (p : Z) : res (heap * jctx) :=
  let* _ := checkValue PrecisionRange p in
  let '(h, r) := copyOf h (x_flags c) in Ok (h, mkJctx r (x_width c) p (x_dtf c)).
(** FormatContext.java:115-123; None: a null flag *)
Definition j_addFlag (h : heap) (c : jctx) (f : option flag) : heap * jctx :=
  match f with
  | None => (h, c)
  | Some f =>
      if hasF f (at_ref h (x_flags c)) then (h, c)
      else let '(h, r) := copyOf h (x_flags c) in
           (put h r (addF f (at_ref h r)), mkJctx r (x_width c) (x_prec c) (x_dtf c))
  end.
(** FormatContext.java:111-113 *)
Definition j_getFlags (h : heap) (c : jctx) : heap * ref := copyOf h (x_flags c).
(** FormatContext.java:125-127 *)
Definition j_hasFlag (h : heap) (c : jctx) (f : option flag) : bool :=
  match f with None => false | Some f => hasF f (at_ref h (x_flags c)) end.

(** What a client can do. It owns the sets it made or was given ([cl_sets]) and can put anything into them; it holds the
    contexts [cl_ctxs]. Operands are positions in these lists; an operation on a position that does not exist, or one that
    throws, changes nothing. *)
Record client := mkClient { cl_heap : heap; cl_sets : list ref; cl_ctxs : list jctx }.
Inductive op :=
| NewSet
| Change (set : nat) (s : flags)
| Create (set : nat) (w p : Z) (d : option (list Z))
| SetWidth (c : nat) (w : Z)
| SetPrecision (c : nat) (p : Z)
| AddFlag (c : nat) (f : option flag)
| GetFlags (c : nat).

Definition withCtx (k : client) (r : res (heap * jctx)) : client :=
  match r with Ok (h, c) => mkClient h (cl_sets k) (cl_ctxs k ++ [c]) | Err _ => k end.
Definition withSet (k : client) (r : heap * ref) : client := let '(h, s) := r in mkClient h (cl_sets k ++ [s]) (cl_ctxs k).

Definition step (k : client) (o : op) : client :=
  match o with
  | NewSet => withSet k (newSet (cl_heap k) noFlags)
  | Change n s =>
      match nth_error (cl_sets k) n with Some r => mkClient (put (cl_heap k) r s) (cl_sets k) (cl_ctxs k) | None => k end
  | Create n w p d => match nth_error (cl_sets k) n with Some r => withCtx k (j_create (cl_heap k) r w p d) | None => k end
  | SetWidth n w => match nth_error (cl_ctxs k) n with Some c => withCtx k (j_setWidth (cl_heap k) c w) | None => k end
  | SetPrecision n p => match nth_error (cl_ctxs k) n with Some c => withCtx k (j_setPrecision (cl_heap k) c p) | None => k end
  | AddFlag n f => match nth_error (cl_ctxs k) n with Some c => withCtx k (Ok (j_addFlag (cl_heap k) c f)) | None => k end
  | GetFlags n => match nth_error (cl_ctxs k) n with Some c => withSet k (j_getFlags (cl_heap k) c) | None => k end
  end.
Definition runOps (l : list op) (k : client) : client := fold_left step l k.
Definition startClient : client := mkClient [] [] [].

(** what a context is at a moment: the value of the pure model of ContextM.v *)
Definition view (h : heap) (c : jctx) : ctx := mkCtx (at_ref h (x_flags c)) (x_width c) (x_prec c) (x_dtf c).
