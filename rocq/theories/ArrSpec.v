(** C94: the texts of arrays. *)
From Verif Require Import Base Digits SeqM SeqSpec FormatterM TraitsM FmtSpec DirSpec ValueSpec ArrM.

(** Base64, RFC 4648 section 4: the letters, read as digits of base 64, and the bytes, read as digits of base 256, are the same number,
    after filling up with zeros to whole groups of three bytes and four letters; the letters filled up are written '=' *)
Definition alphabet : list Z := txt "ABCDEFGHIJKLMNOPQRSTUVWXYZabcdefghijklmnopqrstuvwxyz0123456789+/".
Definition base64_of (bytes t : list Z) : Prop :=
  exists groups fill letters sextets, (fill <= 2)%nat /\
    t = letters ++ repeat (ch "=") fill /\ Forall2 (fun c n => znth alphabet n = Some c) letters sextets /\
    zlen bytes + Z.of_nat fill = 3 * groups /\ zlen t = 4 * groups /\
    of_digits 64 (sextets ++ repeat 0 fill) = of_digits 256 (map (fun b => b mod 256) bytes ++ repeat 0 fill).

Definition is_array (o : obj) : Prop := match o with OBytes _ | OChars _ | OPrims _ | OArray _ => True | _ => False end.
(** the text of an element of an object array: null, what its toString says, or what is put in its place *)
Inductive item_text (J : jdk) : item -> list Z -> Prop :=
| im_null : item_text J None (txt "null")
| im_text v other t : (forall o, v <> VObj o) -> (forall q, v <> VSeq q) -> is_text J v t -> item_text J (Some (v, other)) t
| im_seq q other t : wden q t -> item_text J (Some (VSeq q, other)) t
| im_object o other t : ~ is_array o -> object_text o = Ok t -> item_text J (Some (VObj o, other)) t
| im_no_text o other e : object_text o = Err e -> item_text J (Some (VObj o, other)) other
| im_array o other : is_array o -> item_text J (Some (VObj o, other)) other.

(** the text of an array *)
Definition listed (ts : list (list Z)) : list Z := txt "[" ++ commas ts ++ txt "]".
Inductive array_text (J : jdk) : jarray -> list Z -> Prop :=
| ar_bytes l t : base64_of l t -> array_text J (ABytes l) t
| ar_chars l : array_text J (AChars l) l
| ar_bools l : array_text J (ABools l) (listed (map (fun b : bool => if b then txt "true" else txt "false") l))
| ar_shorts l : array_text J (AShorts l) (listed (map dec_text l))
| ar_ints l : array_text J (AInts l) (listed (map dec_text l))
| ar_longs l : array_text J (ALongs l) (listed (map dec_text l))
| ar_floats l : array_text J (AFloats l) (listed (map (j_floatToString J) l))
| ar_doubles l : array_text J (ADoubles l) (listed (map (j_doubleToString J) l))
| ar_objects l ts : Forall2 (item_text J) l ts -> array_text J (AObjects l) (listed ts).

(** the elements of an array as arguments of their own, and a directive for each *)
Definition is_listed (a : jarray) : Prop := match a with ABytes _ | AChars _ => False | _ => True end.
Definition item_arg (J : jdk) (o : item) : traits := match o with None => nullTraits | Some (v, _) => traitsOf J v (RObj [] 0) end.
Definition elements (J : jdk) (a : jarray) : list traits :=
  let boxed v := traitsOf J v (RObj [] 0) in
  match a with
  | ABytes _ | AChars _ => []
  | ABools l => map (fun b => boxed (VBool b)) l
  | AShorts l => map (fun z => boxed (VShort z)) l
  | AInts l => map (fun z => boxed (VInt z)) l
  | ALongs l => map (fun z => boxed (VLong z)) l
  | AFloats l => map (fun z => boxed (VFloat z)) l
  | ADoubles l => map (fun z => boxed (VDouble z)) l
  | AObjects l => map (item_arg J) l
  end.
Definition each (n : nat) : list Z := listed (repeat (txt "%s") n).


(** the elements are of their types *)
Definition array_ok (a : jarray) : Prop :=
  match a with
  | ABytes l => Forall (in_range 8) l
  | AChars l => Forall (fun c => 0 <= c <= 65535) l
  | AShorts l => Forall (in_range 16) l
  | AInts l => Forall (in_range 32) l
  | ALongs l => Forall (in_range 64) l
  | _ => True
  end.
(** no element is an array or an object whose toString fails; a sequence has the length it records *)
Definition plain_item (o : item) : Prop :=
  match o with
  | Some (VObj x, _) => ~ is_array x /\ exists t, object_text x = Ok t /\ zlen t <= int_max
  | Some (v, _) => java_value v
  | None => True
  end.
Definition plain_elements (a : jarray) : Prop := match a with AObjects l => Forall plain_item l | _ => True end.
