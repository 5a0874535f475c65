(** FormatContext implements Serializable (FormatContext.java:8, 16-20) without writeObject, readObject, writeReplace or
    readResolve, so java.io.ObjectOutputStream writes its fields and ObjectInputStream sets them without a constructor.
    Modelled by the documentation of java.io: the fields that are neither static nor transient, primitive ones first, then the
    others, each group by name; an object of a class that does not implement Serializable ends the writing with
    NotSerializableException. EnumSet is written as the list of its elements (its serialized form), DateTimeFormatter does
    not implement Serializable. *)
From Verif Require Import Base Digits UtilsM ContextM CtxM.

Definition NotSerializable : exn := OtherExn 8.
Definition InvalidStream : exn := OtherExn 9.       (* ClassCastException, StreamCorruptedException, ... *)

(** the value of a field *)
Inductive field :=
| FInt (n : Z)
| FSet (s : option flags)
| FFormatter (p : option (list Z)).

(** what a stream holds for a field *)
Inductive item := IInt (n : Z) | INull | ISet (l : list flag).

Definition writeField (f : field) : res item :=
  match f with
  | FInt n => Ok (IInt n)
  | FSet None | FFormatter None => Ok INull
  | FSet (Some s) => Ok (ISet (elements s))
  | FFormatter (Some _) => Err NotSerializable
  end.
Fixpoint writeFields (l : list field) : res (list item) :=
  match l with
  | [] => Ok []
  | f :: r => let* i := writeField f in let* is := writeFields r in Ok (i :: is)
  end.

(** FormatContext.java:17-20 *)
Definition writeCtx (c : ctx) : res (list item) :=
  writeFields [FInt (c_prec c); FInt (c_width c); FFormatter (c_dtf c); FSet (Some (c_flags c))].

(** the object read: its fields as the stream has them, with no check *)
Record read := mkRead { r_flags : option flags; r_width : Z; r_prec : Z; r_dtf : option (list Z) }.
Definition setOf (l : list flag) : flags := fold_left (fun s f => addF f s) l noFlags.
Definition readCtx (l : list item) : res read :=
  match l with
  | [IInt p; IInt w; INull; INull] => Ok (mkRead None w p None)
  | [IInt p; IInt w; INull; ISet fs] => Ok (mkRead (Some (setOf fs)) w p None)
  | _ => Err InvalidStream
  end.
