(** Repaired messages for findings 30, 31 and 32 of DESIGN.md, in the manner of RepairM.v. Change in all places: the argument is passed to the message as
    lenientToString(asObject()), instead of the RefSlot, its absolute value, its class or nothing, and the DateTimeException becomes the cause. *)
From Verif Require Import Base Digits UtilsM SeqM ContextM IntFormM FormatterM MathM DecimalM BigDecM TraitsM MsgM.

Section WithJdk.
  Variable J : jdk.
  Variable K : MsgM.shown.

  (** Utils.java:133-145 of an argument *)
  Definition argText (v : value) : list Z :=
    match v with
    | VBool b => if b then txt "true" else txt "false"
    | VChar c => [c]
    | VByte z | VShort z | VInt z | VLong z | VBig z => dec_text z
    | VFloat b => j_floatToString J b
    | VDouble b => j_doubleToString J b
    | VStr t | VChars t => t
    | VSeq q => match s_toString q with Ok t => t | Err _ => [] end
    | VDec d => j_bigDecText J d
    | VTemporal t => j_temporalText J t
    | VObj o => lenient K o
    end.

  (** FormatTraits.java:92-94, CharacterTraits.java:56 *)
  Definition noTemporalN (v : value) : message := printf (txt "Cannot convert [%s] to TemporalAccessor") [argText v].

  (** traits/TemporalAccessorTraits.java:23-84 *)
  Definition temporalMessageN (t : temporal) (a : accessor) : option message :=
    let bad unit := match instantFrom J t with
                    | Some _ => None
                    | None => Some (because (txt "Can't get epoch " ++ unit ++ txt " from: " ++ j_temporalText J t))
                    end in
    match a with
    | AIntForm => bad (txt "milliseconds")
    | AFloatForm | AInt => bad (txt "seconds")
    | ATemporal => None
    | AChar => Some (printf (txt "Can't convert %s to char") [j_temporalText J t])
    end.

  (** as [accessMessage], on these *)
  Definition accessMessageN (v : value) (a : accessor) : option message :=
    match v, a with
    | VTemporal t, _ => temporalMessageN t a
    | VObj _, _ => accessMessage J K v a
    | _, ATemporal => match accessMessage J K v a with Some _ => Some (noTemporalN v) | None => None end
    | _, _ => accessMessage J K v a
    end.

  (** number/BigDecimalWrapper.java:174-176; appender/SeqFormatter.java:356, 383-384 *)
  Definition hexMessageN (v : value) : message := printf (txt "hexLayout not supported for BigDecimal: %s") [argText v].
  Definition pointerMessageN (v : value) : message := printf (txt "The '%p' specifier cannot be used with primitive types.") [argText v].
  Definition noFormatterMessageN (t : temporal) : message :=
    printf (txt "No default DateTimeFormatter for type: %s") [k_class K t; j_temporalText J t].

  (** as [directiveMessage], on these *)
  Definition directiveMessageN (s : spec) (v : value) (r : refslot) : option message :=
    match (match accessorOf s with Some a => accessMessageN v a | None => None end) with
    | Some m => Some m
    | None =>
        match s, v with
        | (Su | So | Sx | SX), VBig z => if z <? 0 then Some (negativeMessage z) else None
        | (Sa | SA), (VBig _ | VDec _) => Some (hexMessageN v)
        | (St | ST), VTemporal (TOther n) => Some (noFormatterMessageN (TOther n))
        | Sp, _ => match r with RPrimitive => Some (pointerMessageN v) | _ => None end
        | _, _ => None
        end
    end.
End WithJdk.
