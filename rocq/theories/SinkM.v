(** Model of FastPrintfImpl.format(Appendable, Args) (FastPrintfImpl.java:94-119) for an arbitrary Appendable, which may
    throw: every append(Appendable) of the package seq as the calls it makes on the target. *)
From Verif Require Import Base Digits UtilsM SeqM ContextM CompilerM IntFormM FormatterM MathM DecimalM FPDecimalM DoubleM
  BigDecM RoundM TraitsM ImplM.

(** a call on the target: append(char), append(CharSequence, start, end), append(CharSequence) *)
Inductive call :=
| PutChar (c : Z)
| PutPart (s : list Z) (start end_ : Z)
| PutAll (s : list Z).

(** what a target throws: an IOException, told apart by a number, or anything unchecked *)
Inductive failure := Io (n : Z) | Unchecked (e : exn).

(** what format throws: UncheckedIOException with its cause, or another exception *)
Inductive thrown := UncheckedIO (n : Z) | Plain (e : exn).

Section WithTarget.
  Variable W : Type.
  (** the target: its state after a call, and what the call threw *)
  Variable append : W -> call -> W * option failure.

  (** the char loops of Repeated:131-133, StrView:91-93, CharArray:148-154 *)
  Fixpoint putLoop (fuel : nat) (at_ : Z -> res Z) (i e : Z) (w : W) : W * option failure :=
    match fuel with
    | O => (w, None)
    | S f => if i <? e then
               match at_ i with
               | Err x => (w, Some (Unchecked x))
               | Ok c => match append w (PutChar c) with
                         | (w', None) => putLoop f at_ (i + 1) e w'
                         | stop => stop
                         end
               end
             else (w, None)
    end.

  (** EmptySeq:48, Repeated:130-134, StrView:89-97, CharArray:146-156, LazySeq:143-145 *)
  Definition a_put (a : atom) (w : W) : W * option failure :=
    match a with
    | AEmpty => (w, None)
    | ARep c n => putLoop (Z.to_nat n) (fun _ => Ok c) 0 n w
    | AStr s st n up =>
        if up then putLoop (Z.to_nat n) (fun i => let* x := jcharAt s i in Ok (toUpperCase x)) st (st + n) w
        else append w (PutPart s st (st + n))
    | AArr s st n up =>
        if up then putLoop (Z.to_nat n) (fun i => let* x := jcharAt s i in Ok (toUpperCase x)) st (st + n) w
        else putLoop (Z.to_nat n) (fun i => jcharAt s i) st (st + n) w
    | ALazy act n =>
        match getCachedString act n with
        | Ok v => append w (PutAll v)
        | Err x => (w, Some (Unchecked x))
        end
    end.

  Fixpoint putAtoms (atoms : list atom) (w : W) : W * option failure :=
    match atoms with
    | [] => (w, None)
    | a :: rest => match a_put a w with
                   | (w', None) => putAtoms rest w'
                   | stop => stop
                   end
    end.

  (** AtomicSeqIterable.java:84-88 *)
  Definition s_put (s : seq) (w : W) : W * option failure :=
    match s with
    | Leaf a => a_put a w
    | _ => match s_iter s with
           | Ok atoms => putAtoms atoms w
           | Err x => (w, Some (Unchecked x))
           end
    end.

  (** FastPrintfImpl.java:107-114: the consumer *)
  Definition consume (s : seq) (w : W) : W * option thrown :=
    match s_put s w with
    | (w', None) => (w', None)
    | (w', Some (Io n)) => (w', Some (UncheckedIO n))
    | (w', Some (Unchecked e)) => (w', Some (Plain e))
    end.

  (** FastPrintfImpl.java:115-118 *)
  Fixpoint formatTo (J : jdk) (apps : list appender) (it : list traits) (w : W) : W * option thrown :=
    match apps with
    | [] => (w, None)
    | a :: rest =>
        match appendOne J a it with
        | Err e => (w, Some (Plain e))
        | Ok (s, it') =>
            match consume s w with
            | (w', None) => formatTo J rest it' w'
            | stop => stop
            end
        end
    end.
End WithTarget.
