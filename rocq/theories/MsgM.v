(** Model of the messages of PrintfException: every place of the library that throws one, PrintfSyntaxException apart
    (MiscM.v). The exceptions themselves are in the other model files; here is what they say. *)
From Verif Require Import Base Digits UtilsM SeqM ContextM IntFormM FormatterM MathM DecimalM BigDecM TraitsM.

(** a message, and whether the exception has a cause *)
Record message := mkMsg { m_text : list Z; m_cause : bool }.
(** PrintfException.java:7-9: template and arguments (given by their lenientToString texts), no cause *)
Definition printf (tmpl : list Z) (args : list (list Z)) : message := mkMsg (lenientFormat tmpl args) false.
(** PrintfException.java:11-13 *)
Definition because (t : list Z) : message := mkMsg t true.

(** The texts that identity hash codes, class names and JDK exceptions have, over which everything is quantified.
    Utils.java:133-145 [lenientToString]; for an object whose toString throws (an Exception) it makes a text of its own. *)
Record shown := mkShown {
  k_identity : obj -> list Z;    (* Object.toString of an array: "[I@1b6d3586" *)
  k_thrower : obj -> list Z;     (* "<Name@hash threw Exception>" *)
  k_slot : list Z;               (* Object.toString of the RefSlot: "io.fastprintf.traits.RefSlot@..." *)
  k_exception : list Z;          (* toString of the DateTimeException *)
  k_class : temporal -> list Z }. (* getClass().getName() *)

(** the conversions of FormatTraits.java *)
Inductive accessor := AIntForm | AFloatForm | AInt | ATemporal | AChar.

Section WithJdk.
  Variable J : jdk.
  Variable K : shown.

  (** lenientToString of an object that reaches ObjectTraits *)
  Definition lenient (o : obj) : list Z :=
    match o with
    | ONumber _ _ _ t | ODate _ _ t | OCalendar _ t | OOther t => match t with Ok t => t | Err NullPtr => txt "null" | Err _ => k_thrower K o end
    | _ => k_identity K o
    end.

  (** FormatTraits.java:92-94 *)
  Definition noTemporal : option message := Some (printf (txt "Cannot convert [%s] to TemporalAccessor") [k_slot K]).

  (** traits/CharSequenceTraits.java:22-55; [n] is the length, [t] the text *)
  Definition charSeqMessage (t : list Z) (n : Z) (a : accessor) : option message :=
    let quoted to := because (txt "Cannot convert """ ++ t ++ txt """ to " ++ to) in
    match a with
    | AIntForm => match parseJava (j_digit J) 64 t with Some _ => None | None => Some (quoted (txt "int")) end
    | AInt => match parseJava (j_digit J) 32 t with Some _ => None | None => Some (quoted (txt "int")) end
    | AFloatForm => match j_parseDouble J t with Some _ => None | None => Some (quoted (txt "float")) end
    | ATemporal => noTemporal
    | AChar => if 1 <=? n then None else Some (printf (txt "Empty string cannot be converted to char") [])
    end.

  (** traits/TemporalAccessorTraits.java:23-84. The exception is passed among the arguments, not as a cause. *)
  Definition temporalMessage (t : temporal) (a : accessor) : option message :=
    let bad unit := match instantFrom J t with
                    | Some _ => None
                    | None => Some (printf (txt "Can't get epoch " ++ unit ++ txt " from: %s") [j_temporalText J t; k_exception K])
                    end in
    match a with
    | AIntForm => bad (txt "milliseconds")
    | AFloatForm | AInt => bad (txt "seconds")
    | ATemporal => None
    | AChar => Some (printf (txt "Can't convert TemporalAccessor to char") [])
    end.

  (** traits/ObjectTraits.java:65-119; asChar is FormatTraits.java:103-105 *)
  Definition objMessage (o : obj) (a : accessor) : option message :=
    match o with
    | ONumber _ _ _ _ | ODate _ _ _ | OCalendar _ _ => None
    | _ =>
        match a with
        | AIntForm | AFloatForm => Some (printf (txt "%s is not a number") [lenient o])
        | ATemporal => Some (printf (txt "%s cannot be converted to TemporalAccessor") [lenient o])
        | AInt | AChar => Some (printf (txt "%s cannot be converted to int") [lenient o])
        end
    end.

  (** traits/NullTraits.java:26-48 *)
  Definition nullMessage (a : accessor) : option message :=
    match a with
    | AIntForm | AInt | AChar => Some (printf (txt "null cannot be converted to int") [])
    | AFloatForm => Some (printf (txt "null cannot be converted to float") [])
    | ATemporal => Some (printf (txt "null cannot be converted to TemporalAccessor") [])
    end.

  (** the message when conversion [a] of an argument throws a PrintfException; None: the argument is null.
      A Seq is given by its text. *)
  Definition accessMessage (v : value) (a : accessor) : option message :=
    match v with
    | VStr t | VChars t => charSeqMessage t (zlen t) a
    | VSeq q => match s_toString q with Ok t => charSeqMessage t (s_len q) a | Err _ => None end
    | VTemporal t => temporalMessage t a
    | VObj o => objMessage o a
    | VChar _ => match a with ATemporal => Some (printf (txt "Cannot convert Character to TemporalAccessor") []) | _ => None end
    | VBool _ | VByte _ | VShort _ | VFloat _ | VDouble _ | VDec _ => match a with ATemporal => noTemporal | _ => None end
    | VInt _ | VLong _ | VBig _ => None
    end.

  (** number/BigIntegerWrapper.java:53-57; the wrapper keeps the absolute value *)
  Definition negativeMessage (v : Z) : message :=
    printf (txt "Negative BigInteger(-%s) cannot be converted to unsigned") [dec_text (Z.abs v)].
  (** number/BigDecimalWrapper.java:174-176; here as well *)
  Definition hexMessage (d : bigdec) : message :=
    printf (txt "hexLayout not supported for BigDecimal: %s") [j_bigDecText J (bd_abs d)].
  (** appender/SeqFormatter.java:356, 383-384 *)
  Definition pointerMessage : message := printf (txt "The '%p' specifier cannot be used with primitive types.") [].
  Definition noFormatterMessage (t : temporal) : message :=
    printf (txt "No default DateTimeFormatter for type: %s") [k_class K t].
  (** appender/DefaultAppender.java:93; 116 is the same text, concatenated *)
  Definition missingMessage (s : spec) : message := printf (txt "Missing argument for specifier: %s") [[spec_char s]].
  Definition missingMessage2 (s : spec) : message := printf (txt "Missing argument for specifier: " ++ [spec_char s]) [].
  (** FormatContext.java:31-49 *)
  Definition rangeMessage (name : list Z) (v : Z) : message :=
    if (v <? 0) && negb (v =? UNSET) && negb (v =? PRECEDING)
    then printf (txt "%s cannot be negative, but was: %s") [name; dec_text v]
    else printf (txt "%s %s exceeds the maximum allowed value of %s") [name; dec_text v; dec_text MAX_WP].

  (** a conversion of a directive on its argument *)
  Definition accessorOf (s : spec) : option accessor :=
    match s with
    | Sd | Su | So | Sx | SX => Some AIntForm
    | Sf | SF | Se | SE | Sg | SG | Sa | SA => Some AFloatForm
    | Sc => Some AChar
    | St | ST => Some ATemporal
    | Ss | SS | Sn | Sp | Spct => None
    end.
  (** the message a directive without pattern fails with on an argument: that of the conversion, else its own *)
  Definition directiveMessage (s : spec) (v : value) (r : refslot) : option message :=
    match (match accessorOf s with Some a => accessMessage v a | None => None end) with
    | Some m => Some m
    | None =>
        match s, v with
        | (Su | So | Sx | SX), VBig z => if z <? 0 then Some (negativeMessage z) else None
        | (Sa | SA), VBig z => Some (hexMessage (mkBD z 0))
        | (Sa | SA), VDec d => Some (hexMessage d)
        | (St | ST), VTemporal (TOther n) => Some (noFormatterMessage (TOther n))
        | Sp, _ => match r with RPrimitive => Some pointerMessage | _ => None end
        | _, _ => None
        end
    end.
End WithJdk.
