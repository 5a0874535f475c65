(** Model of Args.java (static factories) and ArgsImpl.java. *)
From Verif Require Import Base Digits UtilsM SeqM ContextM IntFormM FormatterM TraitsM.

(** What a caller passes: null, an object of a class the library distinguishes (with its class name and
    identity hash), or an object of the caller's own class implementing FormatTraits and none of the classes
    tested before it. *)
Inductive jobject :=
| JNull
| JRef (v : value) (cls : list Z) (hash : Z)
| JTraits (t : traits) (id : Z).

(** What asObject() returns: null, the object itself, a fresh box of a primitive, or what the caller's
    FormatTraits [id] returns *)
Inductive jvalue :=
| ONull
| OSame (v : value) (cls : list Z) (hash : Z)
| OBox (v : value)
| OUser (id : Z).

(** an element of the list: the trait object and the result of its asObject() (FormatTraits.java:151-153 and the
    overrides in the primitive traits, e.g. IntTraits.java:64-71) *)
Record arg := mkArg { a_traits : traits; a_object : jvalue }.

(** ArgsImpl.java:70-72 *)
Definition putNull (l : list arg) : list arg := l ++ [mkArg nullTraits ONull].

Section WithJdk.
  Variable J : jdk.

  (** ArgsImpl.java:75-77, 85-87, 95-97, 105-107, 115-117, 125-127, 135-137, 145-147: the eight primitives *)
  Definition putPrimitive (l : list arg) (v : value) : list arg :=
    l ++ [mkArg (traitsOf J v RPrimitive) (OBox v)].

  (** ArgsImpl.java:35-58: addTraits and addTraitsNonNull with RefSlot.of(value) *)
  Definition addTraits (l : list arg) (factory : refslot -> traits) (v : value) (cls : list Z) (h : Z) : list arg :=
    l ++ [mkArg (factory (RObj cls h)) (OSame v cls h)].

  (** the typed methods, with null as None: ArgsImpl.java:80-172 *)
  Definition orNull {A} (l : list arg) (x : option (A * list Z * Z)) (f : A -> value) (t : A -> refslot -> traits) : list arg :=
    match x with None => putNull l | Some (a, cls, h) => addTraits l (t a) (f a) cls h end.
  Definition putBooleanOrNull l x := orNull l x VBool boolTraits.
  Definition putCharOrNull l x := orNull l x VChar charTraits.
  Definition putByteOrNull l x := orNull l x VByte byteTraits.
  Definition putShortOrNull l x := orNull l x VShort shortTraits.
  Definition putIntOrNull l x := orNull l x VInt intTraits.
  Definition putLongOrNull l x := orNull l x VLong longTraits.
  Definition putFloatOrNull l x := orNull l x VFloat (floatTraits J).
  Definition putDoubleOrNull l x := orNull l x VDouble (doubleTraits J).
  Definition putBigInteger l x := orNull l x VBig bigTraits.
  Definition putBigDecimal l x := orNull l x VDec (decTraits J).
  Definition putDateTime l x := orNull l x VTemporal (temporalTraits J).
  (** a CharSequence: String, Seq, or another class; 155-157, 225-227 *)
  Inductive charseq := CStr (s : list Z) | CSeq (s : seq) | CChars (s : list Z).
  Definition cs_value (c : charseq) : value := match c with CStr s => VStr s | CSeq s => VSeq s | CChars s => VChars s end.
  Definition putCharSequence l x := orNull l x cs_value (fun c => traitsOf J (cs_value c)).
  (** 179-184 *)
  Definition putObject (l : list arg) (o : jobject) : list arg :=
    match o with
    | JTraits t id => l ++ [mkArg t (OUser id)]
    | JNull => putNull l
    | JRef v cls h => match v with
                      | VObj ob => addTraits l (objTraits ob) v cls h
                      | _ => addTraits l (fun r => mkTraits conv conv conv conv conv conv r conv) v cls h (* not reached from put *)
                      end
    end.

  (** ArgsImpl.java:192-222, the chain of instanceof tests *)
  Definition put (l : list arg) (o : jobject) : list arg :=
    match o with
    | JNull => putNull l
    | JTraits _ _ => putObject l o
    | JRef v cls h =>
        match v with
        | VBool b => addTraits l (boolTraits b) v cls h
        | VChar c => addTraits l (charTraits c) v cls h
        | VByte z => addTraits l (byteTraits z) v cls h
        | VShort z => addTraits l (shortTraits z) v cls h
        | VInt z => addTraits l (intTraits z) v cls h
        | VLong z => addTraits l (longTraits z) v cls h
        | VFloat b => addTraits l (floatTraits J b) v cls h
        | VDouble b => addTraits l (doubleTraits J b) v cls h
        | VStr _ | VSeq _ | VChars _ => addTraits l (traitsOf J v) v cls h
        | VBig z => addTraits l (bigTraits z) v cls h
        | VDec d => addTraits l (decTraits J d) v cls h
        | VTemporal t => addTraits l (temporalTraits J t) v cls h
        | VObj _ => putObject l o
        end
    end.

  (** Args.java:64-76; a null array is None *)
  Definition argsOf (values : option (list jobject)) : list arg :=
    match values with
    | None => putNull []
    | Some vs => fold_left put vs []
    end.

  (** Args.java:84-95 *)
  Definition argsOfIterable (values : option (list jobject)) : res (list arg) :=
    match values with None => Err NullPtr | Some vs => Ok (fold_left put vs []) end.

  (** ArgsImpl.java:61-67 *)
  Fixpoint values_loop (l : list arg) (acc : list jvalue) : list jvalue :=
    match l with [] => acc | a :: r => values_loop r (acc ++ [a_object a]) end.
  Definition values (l : list arg) : list jvalue := values_loop l [].

  (** ArgsImpl.java:187-189: Collectors.joining *)
  Fixpoint joinTexts (l : list arg) : res (list Z) :=
    match l with
    | [] => Ok []
    | [a] => t_asString (a_traits a)
    | a :: r => let* x := t_asString (a_traits a) in let* y := joinTexts r in Ok (x ++ txt ", " ++ y)
    end.
  Definition args_toString (l : list arg) : res (list Z) := let* t := joinTexts l in Ok (txt "[" ++ t ++ txt "]").

  (** ArgsImpl.java:175-177: what the format loop iterates over *)
  Definition iterator (l : list arg) : list traits := map a_traits l.
End WithJdk.
