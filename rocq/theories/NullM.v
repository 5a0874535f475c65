(** Null parameters: the public methods with parameters that may be null (None). Otherwise they are the functions of SeqM, ArgsM and ImplM. *)
From Verif Require Import Base Digits UtilsM SeqM ContextM CompilerM IntFormM FormatterM TraitsM ImplM ArgsM.

(** outcome of a call: a value, a NullPointerException of checkNotNull with its message, one of the virtual machine, another exception *)
Inductive call (A : Type) :=
| Gives (a : A)
| Refuses (message : list Z)
| Derefs
| Fails (e : exn).
Arguments Gives {A} a.
Arguments Refuses {A} message.
Arguments Derefs {A}.
Arguments Fails {A} e.

Definition of_res {A} (r : res A) : call A := match r with Ok a => Gives a | Err e => Fails e end.
Definition then_ {A B} (r : call A) (f : A -> call B) : call B :=
  match r with Gives a => f a | Refuses m => Refuses m | Derefs => Derefs | Fails e => Fails e end.

(** Preconditions.java:9-14 *)
Definition checkNotNull {A} (value : option A) (name : list Z) : call A :=
  match value with
  | None => Refuses (lenientFormat (txt "Argument '%s' cannot be null") [name])
  | Some v => Gives v
  end.
(** a method call on [value] *)
Definition deref {A} (value : option A) : call A := match value with None => Derefs | Some v => Gives v end.

(** FastPrintf.java:56-58, FastPrintfImpl.java:68-77, Compiler.java:19-21 *)
Definition n_compile (dtf : list Z -> bool) (format : option (list Z)) : call impl :=
  then_ (checkNotNull format (txt "source")) (fun f => of_res (impl_compile dtf f)).

Section WithJdk.
  Variable J : jdk.

  (** FastPrintfImpl.java:80-91 *)
  Definition n_format (i : impl) (args : option (list arg)) : call (list Z) :=
    then_ (checkNotNull args (txt "args")) (fun l => of_res (format J (im_apps i) (iterator l))).

  (** FastPrintfImpl.java:94-119: the builder and what the call did to it *)
  Definition n_formatInto (i : impl) (isSB : bool) (builder : option (list Z)) (args : option (list arg)) : call outcome :=
    then_ (checkNotNull builder (txt "builder")) (fun b =>
    then_ (checkNotNull args (txt "args")) (fun l => Gives (formatInto J isSB (im_apps i) (iterator l) b))).

  (** Args.java:84-95 *)
  Definition n_argsOfIterable (values : option (list jobject)) : call (list arg) :=
    then_ (checkNotNull values (txt "values")) (fun vs => Gives (fold_left (put J) vs [])).
End WithJdk.

(** Args.java:134-137: an empty list, whatever the size *)
Definition createWithExpectedSize (n : Z) : call (list arg) := of_res (let* _ := checkArgument (0 <=? n) in Ok []).

(** ** Seq.java. A Seq parameter or result may be null. *)

(** 116-124 *)
Definition n_wrap (s : option (list Z)) : call atom := then_ (checkNotNull s (txt "s")) (fun s => Gives (s_wrap s)).
(** 145-152 *)
Definition n_wrap3 (s : option (list Z)) (start end_ : Z) : call atom := then_ (checkNotNull s (txt "s")) (fun s => of_res (s_wrap3 s start end_)).
(** 133-135: s.length() is evaluated first *)
Definition n_wrap2 (s : option (list Z)) (start : Z) : call atom := then_ (deref s) (fun t => n_wrap3 s start (zlen t)).
(** 164-168, 178-181 *)
Definition n_forArray3 (a : option (list Z)) (start n : Z) : call atom := then_ (checkNotNull a (txt "ch")) (fun a => of_res (s_forArray3 a start n)).
Definition n_forArray (a : option (list Z)) : call atom := then_ (checkNotNull a (txt "ch")) (fun a => Gives (s_forArray a)).
(** 206-217 *)
Definition n_lazy (act : option (list Z -> res (list Z))) (n : Z) : call atom := then_ (checkNotNull act (txt "action")) (fun f => of_res (s_lazy f n)).
(** 228-232 *)
Definition n_concat (l r : option seq) : call seq :=
  then_ (checkNotNull l (txt "left")) (fun l => then_ (checkNotNull r (txt "right")) (fun r => Gives (s_concat l r))).
(** 275-278, Concat.java:93-96; EmptySeq.java:12-14 returns its parameter *)
Definition n_prepend (s : seq) (x : option seq) : call (option seq) :=
  match s with
  | Leaf AEmpty => Gives x
  | _ => then_ (deref x) (fun x => Gives (Some (s_prepend s x)))
  end.
(** 286-289, Concat.java:99-102; EmptySeq.java:17-19 *)
Definition n_append (s : seq) (x : option seq) : call (option seq) :=
  match s with
  | Leaf AEmpty => Gives x
  | _ => then_ (deref x) (fun x => Gives (Some (s_append s x)))
  end.
(** 260-264: the loop over the elements *)
Fixpoint n_join_loop (l : list (option atom)) (total : Z) : call (list atom * Z) :=
  match l with
  | [] => Gives ([], total)
  | x :: r => then_ (checkNotNull x (txt "seqElement")) (fun a =>
              then_ (n_join_loop r (wrap32 (total + a_len a))) (fun p => Gives (a :: fst p, snd p)))
  end.
(** 252-267 *)
Definition n_join (l : option (list (option atom))) : call (option seq) :=
  then_ (checkNotNull l (txt "atomicSeqs")) (fun l =>
    match l with
    | [] => Gives (Some (Leaf AEmpty))
    | [a] => Gives (option_map Leaf a)
    | _ => then_ (n_join_loop l 0) (fun p => Gives (Some (Arr (fst p) (snd p))))
    end).
(** 349-352 *)
Definition n_map (s : seq) (mapper : option (seq -> call (option seq))) : call (option seq) := then_ (checkNotNull mapper (txt "mapper")) (fun f => f s).
