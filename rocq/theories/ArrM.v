(** Model of arrays as arguments, with their elements (TraitsM.v has the texts of the elements only): the array part of
    traits/ObjectTraits.java, Utils.lenientToString, and the JDK methods they call. *)
From Verif Require Import Base Digits UtilsM SeqM BigDecM TraitsM.

(** an element of an object array: null, or an object with the text lenientToString has for it if its toString gives none:
    "null" if it returns null, "<Name@hash threw Exception>" if it throws; for an array, which inherits the toString of Object, "[I@hash" *)
Definition item := option (value * list Z).

(** arrays, by component type; int[][] is an array of objects *)
Inductive jarray :=
| ABytes (l : list Z)
| AChars (l : list Z)
| ABools (l : list bool)
| AShorts (l : list Z)
| AInts (l : list Z)
| ALongs (l : list Z)
| AFloats (l : list Z)     (* bit patterns *)
| ADoubles (l : list Z)
| AObjects (l : list item).

(** java.util.Base64.getEncoder().encodeToString, by its documentation (RFC 4648, table 1) *)
Definition toBase64 : list Z := txt "ABCDEFGHIJKLMNOPQRSTUVWXYZabcdefghijklmnopqrstuvwxyz0123456789+/".
Definition letter64 (n : Z) : Z := nth (Z.to_nat n) toBase64 0.
Fixpoint encode64 (l : list Z) : list Z :=
  match l with
  | [] => []
  | [a] => let a := a mod 256 in [letter64 (a / 4); letter64 (a mod 4 * 16); ch "="; ch "="]
  | [a; b] => let a := a mod 256 in let b := b mod 256 in [letter64 (a / 4); letter64 (a mod 4 * 16 + b / 16); letter64 (b mod 16 * 4); ch "="]
  | a :: b :: c :: r => let a := a mod 256 in let b := b mod 256 in let c := c mod 256 in
      letter64 (a / 4) :: letter64 (a mod 4 * 16 + b / 16) :: letter64 (b mod 16 * 4 + c / 64) :: letter64 (c mod 64) :: encode64 r
  end.

(** java.util.Arrays.toString, by its documentation; the elements by their String.valueOf *)
Fixpoint arraysLoop (l : list (list Z)) (b : list Z) : list Z :=
  match l with
  | [] => b ++ txt "]"
  | [t] => (b ++ t) ++ txt "]"
  | t :: r => arraysLoop r ((b ++ t) ++ txt ", ")
  end.
Definition arraysToString (l : list (list Z)) : list Z := arraysLoop l (txt "[").

Section WithJdk.
  Variable J : jdk.

  (** toString of an object, None if it gives no text *)
  Definition ownString (v : value) : option (list Z) :=
    match v with
    | VBool b => Some (if b then txt "true" else txt "false")
    | VChar c => Some [c]
    | VByte z | VShort z | VInt z | VLong z | VBig z => Some (dec_text z)
    | VFloat b => Some (j_floatToString J b)
    | VDouble b => Some (j_doubleToString J b)
    | VStr s | VChars s => Some s
    | VSeq q => match s_toString q with Ok t => Some t | Err _ => None end
    | VDec d => Some (j_bigDecText J d)
    | VTemporal t => Some (j_temporalText J t)
    | VObj (ONumber _ _ _ t) | VObj (ODate _ _ t) | VObj (OCalendar _ t) | VObj (OOther t) => match t with Ok t => Some t | Err _ => None end
    | VObj (OBytes _) | VObj (OChars _) | VObj (OPrims _) | VObj (OArray _) => None
    end.

  (** util/Utils.java:133-145 *)
  Definition lenientItem (o : item) : list Z :=
    match o with None => txt "null" | Some (v, other) => match ownString v with Some t => t | None => other end end.

  (** traits/ObjectTraits.java:22-54; the last line by way of Utils.join, Utils.java:88-101, and joinArray *)
  Definition arrayToString (a : jarray) : list Z :=
    match a with
    | ABytes l => encode64 l
    | AChars l => l
    | ABools [] | AShorts [] | AInts [] | ALongs [] | AFloats [] | ADoubles [] | AObjects [] => txt "[]"
    | ABools l => arraysToString (map (fun b : bool => if b then txt "true" else txt "false") l)
    | AShorts l | AInts l | ALongs l => arraysToString (map dec_text l)
    | AFloats l => arraysToString (map (j_floatToString J) l)
    | ADoubles l => arraysToString (map (j_doubleToString J) l)
    | AObjects l => joinArray (txt "[") (txt ", ") (map lenientItem l) ++ txt "]"
    end.

  (** the array as an object of TraitsM.v, which has the texts only *)
  Definition objOfArray (a : jarray) : obj :=
    match a with
    | ABytes l => OBytes (encode64 l)
    | AChars l => OChars l
    | ABools l => OPrims (map (fun b : bool => if b then txt "true" else txt "false") l)
    | AShorts l | AInts l | ALongs l => OPrims (map dec_text l)
    | AFloats l => OPrims (map (j_floatToString J) l)
    | ADoubles l => OPrims (map (j_doubleToString J) l)
    | AObjects l => OArray (map lenientItem l)
    end.
End WithJdk.
