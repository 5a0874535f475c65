(** Model of the shared state of a formatter and of a lazy sequence: the StringBuilder cache of
    FastPrintfImpl.java:24-66 and the string cache of seq/LazySeq.java:167-174, with threads as small-step
    machines. The machines compute the same loop as ImplM.run, one atomic append at a time. *)
From Verif Require Import Base Digits UtilsM SeqM ContextM CompilerM FormatterM TraitsM ImplM.

(** ** FastPrintfImpl *)

(** a StringBuilder: content and capacity *)
Record builder := mkB { b_text : list Z; b_cap : Z }.

(** A running format(Args) call: its arguments (not read by the machine), the appenders still to run, the
    arguments left, the atoms of the current Seq still to append, the builder (an index into the heap) *)
Record frame := mkFr {
  fr_args : list traits; fr_ds : list appender; fr_it : list traits; fr_pend : list atom; fr_ref : nat }.

(** What one thread owns: the builders it created, the value of the ThreadLocal (None: not yet initialised),
    the calls in progress (innermost first), the finished calls *)
Record tstate := mkT {
  t_heap : list builder; t_slot : option nat; t_stack : list frame; t_done : list (list traits * res (list Z)) }.
Definition t_init : tstate := mkT [] None [] [].

Definition set_nth {A} (l : list A) (n : nat) (x : A) : list A := firstn n l ++ x :: skipn (S n) l.
Definition get (h : list builder) (n : nat) : builder := nth n h (mkB [] 0).

(** An event: the thread calls format(args) (possibly from code run by a call in progress, e.g. an argument's
    toString()), or makes one step of its innermost call *)
Inductive event := Call (args : list traits) | Step.

Section WithJdk.
  Variable J : jdk.
  (** StringBuilder capacity after growing from a capacity to hold a length: any policy *)
  Variable grow : Z -> Z -> Z.
  Definition fit (cap n : Z) : Z := if n <=? cap then cap else grow cap n.

  (** FastPrintfImpl.java:62-65 (uncached) and 32-61 (cached) *)
  Definition acquire (i : impl) (h : list builder) (slot : option nat) : list builder * option nat * nat :=
    if im_cached i then
      (* 33: threadLocalBuilder.get(), initialised by StringBuilder::new, capacity 16 *)
      let '(h, r) := match slot with Some r => (h, r) | None => (h ++ [mkB [] 16], List.length h) end in
      let b := get h r in
      if (65536 <? b_cap b) && (im_cap i <=? 65536) then
        (h ++ [mkB [] (im_cap i)], Some (List.length h), List.length h)
      else
        (set_nth h r (mkB [] (fit (b_cap b) (im_cap i))), Some r, r)
    else (h ++ [mkB [] (im_cap i)], slot, List.length h).

  (** seq.appendTo(builder) as the list of atoms appended one by one *)
  Definition atoms_of (s : seq) : res (list atom) :=
    match s with Leaf a => Ok [a] | _ => s_iter s end.

  Definition finish (t : tstate) (f : frame) (rest : list frame) (r : res (list Z)) : tstate :=
    mkT (t_heap t) (t_slot t) rest (t_done t ++ [(fr_args f, r)]).

  Definition step_top (t : tstate) (f : frame) (rest : list frame) : tstate :=
    let b := get (t_heap t) (fr_ref f) in
    match fr_pend f with
    | a :: more =>
        match a_toSB a (b_text b) with
        | Ok s => mkT (set_nth (t_heap t) (fr_ref f) (mkB s (fit (b_cap b) (zlen s)))) (t_slot t)
                    (mkFr (fr_args f) (fr_ds f) (fr_it f) more (fr_ref f) :: rest) (t_done t)
        | Err e => finish t f rest (Err e)
        end
    | [] =>
        match fr_ds f with
        | [] => finish t f rest (Ok (b_text b))
        | d :: ds =>
            match appendOne J d (fr_it f) with
            | Err e => finish t f rest (Err e)
            | Ok (s, it') =>
                match atoms_of s with
                | Err e => finish t f rest (Err e)
                | Ok atoms => mkT (t_heap t) (t_slot t) (mkFr (fr_args f) ds it' atoms (fr_ref f) :: rest) (t_done t)
                end
            end
        end
    end.

  (** FastPrintfImpl.java:80-91 *)
  Definition tstep (i : impl) (e : event) (t : tstate) : tstate :=
    match e with
    | Call args =>
        let '(h, slot, r) := acquire i (t_heap t) (t_slot t) in
        mkT h slot (mkFr args (im_apps i) args [] r :: t_stack t) (t_done t)
    | Step => match t_stack t with [] => t | f :: rest => step_top t f rest end
    end.

  (** threads share the formatter; each has its own builders *)
  Definition world := nat -> tstate.
  Definition w_init : world := fun _ => t_init.
  Definition wstep (i : impl) (w : world) (ev : nat * event) : world :=
    fun k => if Nat.eqb k (fst ev) then tstep i (snd ev) (w k) else w k.
  Definition wrun (i : impl) (evs : list (nat * event)) (w : world) : world := fold_left (wstep i) evs w.

  (** no call of the formatter starts while another one is in progress on the same thread *)
  Fixpoint no_reentry (i : impl) (w : world) (evs : list (nat * event)) : Prop :=
    match evs with
    | [] => True
    | (k, e) :: r =>
        match e with Call _ => t_stack (w k) = [] | Step => True end /\ no_reentry i (wstep i w (k, e)) r
    end.
End WithJdk.

(** ** LazySeq.getCachedString *)

(** where a thread is in seq/LazySeq.java:168-173 *)
Inductive pc := AtRead | AtBuild | AtWrite (s : list Z).

(** The field: the strings ever written to it. The field is not volatile, so a read may return null or any string
    written so far, whichever thread wrote it. [None] reads null, [Some k] reads the k-th written string. *)
Record lworld := mkL { l_mem : list (list Z); l_pc : nat -> pc; l_log : list (nat * res (list Z)) }.
Definition l_init : lworld := mkL [] (fun _ => AtRead) [].
Definition set_pc (f : nat -> pc) (k : nat) (p : pc) : nat -> pc := fun j => if Nat.eqb j k then p else f j.

(** thread [k] makes its next step; [o] resolves the racy read *)
Definition lstep (act : list Z -> res (list Z)) (n : Z) (w : lworld) (ev : nat * option nat) : lworld :=
  let (k, o) := ev in
  match l_pc w k with
  | AtRead =>  (* 168-169 *)
      match (match o with Some j => nth_error (l_mem w) j | None => None end) with
      | Some s => mkL (l_mem w) (l_pc w) (l_log w ++ [(k, Ok s)])                       (* 173 *)
      | None => mkL (l_mem w) (set_pc (l_pc w) k AtBuild) (l_log w)
      end
  | AtBuild => (* 170 *)
      match buildEagerly act n with
      | Ok s => mkL (l_mem w) (set_pc (l_pc w) k (AtWrite s)) (l_log w)
      | Err e => mkL (l_mem w) (set_pc (l_pc w) k AtRead) (l_log w ++ [(k, Err e)])
      end
  | AtWrite s => mkL (l_mem w ++ [s]) (set_pc (l_pc w) k AtRead) (l_log w ++ [(k, Ok s)]) (* 171, 173 *)
  end.
Definition lrun act n evs := fold_left (lstep act n) evs l_init.
