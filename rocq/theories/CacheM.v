(** A repair of the builder cache of FastPrintfImpl.java:24-91 (findings 2 and 24). Two changes. The factory takes the cached builder out of
    the ThreadLocal (get, then set(null)) instead of sharing it. format(Args) puts its builder back when it ends, by return or by exception
    (finally), unless it has grown beyond the limit; so the check of the size moves from the beginning of a call to its end. The machine is
    that of ConcM.v with other functions [acquire] and [finish]; [t_slot] is None while the ThreadLocal holds null. *)
From Verif Require Import Base Digits UtilsM SeqM ContextM CompilerM FormatterM TraitsM ImplM ConcM.

Section WithJdk.
  Variable J : jdk.
  Variable grow : Z -> Z -> Z.

  Definition acquire' (i : impl) (h : list builder) (slot : option nat) : list builder * option nat * nat :=
    if im_cached i then
      match slot with
      | Some r => (set_nth h r (mkB [] (fit grow (b_cap (get h r)) (im_cap i))), None, r)
      | None => (h ++ [mkB [] (im_cap i)], None, List.length h)
      end
    else (h ++ [mkB [] (im_cap i)], slot, List.length h).

  Definition release (i : impl) (h : list builder) (slot : option nat) (r : nat) : option nat :=
    if im_cached i && ((b_cap (get h r) <=? 65536) || (65536 <? im_cap i)) then Some r else slot.

  Definition finish' (i : impl) (t : tstate) (f : frame) (rest : list frame) (r : res (list Z)) : tstate :=
    mkT (t_heap t) (release i (t_heap t) (t_slot t) (fr_ref f)) rest (t_done t ++ [(fr_args f, r)]).

  Definition step_top' (i : impl) (t : tstate) (f : frame) (rest : list frame) : tstate :=
    let b := get (t_heap t) (fr_ref f) in
    match fr_pend f with
    | a :: more =>
        match a_toSB a (b_text b) with
        | Ok s => mkT (set_nth (t_heap t) (fr_ref f) (mkB s (fit grow (b_cap b) (zlen s)))) (t_slot t)
                    (mkFr (fr_args f) (fr_ds f) (fr_it f) more (fr_ref f) :: rest) (t_done t)
        | Err e => finish' i t f rest (Err e)
        end
    | [] =>
        match fr_ds f with
        | [] => finish' i t f rest (Ok (b_text b))
        | d :: ds =>
            match appendOne J d (fr_it f) with
            | Err e => finish' i t f rest (Err e)
            | Ok (s, it') =>
                match atoms_of s with
                | Err e => finish' i t f rest (Err e)
                | Ok atoms => mkT (t_heap t) (t_slot t) (mkFr (fr_args f) ds it' atoms (fr_ref f) :: rest) (t_done t)
                end
            end
        end
    end.

  Definition tstep' (i : impl) (e : event) (t : tstate) : tstate :=
    match e with
    | Call args =>
        let '(h, slot, r) := acquire' i (t_heap t) (t_slot t) in
        mkT h slot (mkFr args (im_apps i) args [] r :: t_stack t) (t_done t)
    | Step => match t_stack t with [] => t | f :: rest => step_top' i t f rest end
    end.

  Definition wstep' (i : impl) (w : world) (ev : nat * event) : world :=
    fun k => if Nat.eqb k (fst ev) then tstep' i (snd ev) (w k) else w k.
  Definition wrun' (i : impl) (evs : list (nat * event)) (w : world) : world := fold_left (wstep' i) evs w.
End WithJdk.
