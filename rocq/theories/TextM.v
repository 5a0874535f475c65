(** Model of the text utilities the format path does not use: DoubleToDecimal.appendTo and Utils.join. *)
From Verif Require Import Base UtilsM MathM DecimalM.

(** ** DoubleToDecimal *)

(** DoubleToDecimal.java:189-191: one append per character, to an Appendable that accepts everything *)
Fixpoint appendEach (app : list Z) (chars : list Z) : list Z :=
  match chars with [] => app | c :: r => appendEach (app ++ [c]) r end.

(** DoubleToDecimal.java:144-146, 176-205. [sb] tells whether [app] is a StringBuilder or StringBuffer, [app] is what it holds; the
    result is what it holds afterwards. The copy of the bytes into an array of chars (179-182) is the list itself. *)
Definition d2d_appendTo (bits : Z) (sb : bool) (app : list Z) : res (list Z) :=
  let* d := toDecimal bits in
  match d with
  | NonSpecial neg f e =>
      let* bs := (if neg then put [] (ch "-") else Ok []) in
      let* chars := toCharsText f e bs in
      Ok (if sb then app ++ chars else appendEach app chars)
  | PlusZero => Ok (app ++ txt "0.0")
  | MinusZero => Ok (app ++ txt "-0.0")
  | PlusInf => Ok (app ++ txt "Infinity")
  | MinusInf => Ok (app ++ txt "-Infinity")
  | NotANumber => Ok (app ++ txt "NaN")
  end.

(** ** Utils.join *)

(** an element: null, or an object by what its toString does; in the last case [fallback] is the text Utils.java:139-142 makes of the
    class, the identity hash and the exception *)
Inductive element := ENull | EText (t : list Z) | EThrows (x : exn) (fallback : list Z).

(** Utils.java:133-145 *)
Definition lenientToString (o : element) : list Z :=
  match o with ENull => txt "null" | EText t => t | EThrows _ fallback => fallback end.

(** StringBuilder.append(Object), that is String.valueOf *)
Definition appendObject (sb : list Z) (o : element) : res (list Z) :=
  match o with ENull => Ok (sb ++ txt "null") | EText t => Ok (sb ++ t) | EThrows x _ => Err x end.

(** Utils.java:116-118 *)
Fixpoint joinIterator_loop (sb sep : list Z) (it : list element) : list Z :=
  match it with [] => sb | o :: r => joinIterator_loop ((sb ++ sep) ++ lenientToString o) sep r end.

(** Utils.java:113-120: the first element goes to StringBuilder.append as it is *)
Definition joinIterator (sb sep : list Z) (it : list element) : res (list Z) :=
  match it with
  | [] => Ok sb
  | o :: r => let* sb := appendObject sb o in Ok (joinIterator_loop sb sep r)
  end.

(** what is joined: null, an Iterable or Iterator by the elements it yields, an array, anything else *)
Inductive joinable := JoinNull | JoinIter (it : list element) | JoinArray (a : list element) | JoinOther (o : element).

(** Utils.java:89-101 *)
Definition join (sb sep : list Z) (args : joinable) : res (list Z) :=
  match args with
  | JoinNull => Ok sb
  | JoinIter it => joinIterator sb sep it
  | JoinArray a => Ok (joinArray sb sep (map lenientToString a))
  | JoinOther o => appendObject sb o
  end.

(** Utils.java:122-124 *)
Definition joinString (sep : list Z) (args : joinable) : res (list Z) := join [] sep args.
