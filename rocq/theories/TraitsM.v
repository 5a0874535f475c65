(** Model of the package traits: how each kind of argument answers the conversions.
    The JDK operations that are not modelled are fields of a record [jdk], over which everything that
    depends on them is quantified. *)
From Verif Require Import Base Digits UtilsM SeqM ContextM IntFormM FormatterM MathM DecimalM FPDecimalM DoubleM BigDecM RoundM.

(** java.time.temporal.TemporalAccessor values, by the classes SeqFormatter.java:375-402 distinguishes;
    all but Instant are opaque *)
Inductive temporal :=
| TInstant (i : instant)
| TOffset (id : Z)
| TZoned (id : Z)
| TLocalDateTime (id : Z)
| TLocalDate (id : Z)
| TOther (id : Z).

(** DateTimeFormatter: the three ISO constants, or one made from a pattern *)
Inductive dtformat := IsoOffset | IsoLocalDateTime | IsoLocalDate | Pattern (p : list Z).

(** Exceptions of the JDK: 1 ArithmeticException, 2 NegativeArraySizeException, 3 NumberFormatException,
    4 DateTimeException, 5 UnsupportedOperationException *)
Record jdk := mkJdk {
  j_doubleToString : Z -> list Z;                  (* Double.toString, argument: bits *)
  j_floatToString : Z -> list Z;                   (* Float.toString, argument: 32 bits *)
  j_parseDouble : list Z -> option Z;              (* Double.parseDouble; None: NumberFormatException *)
  j_format : dtformat -> temporal -> res (list Z); (* DateTimeFormatter.format *)
  j_atSystemZone : instant -> res temporal;        (* Instant.atZone(ZoneId.systemDefault()) *)
  j_instantFrom : temporal -> option instant;      (* Instant.from; None: DateTimeException *)
  j_temporalText : temporal -> list Z;             (* TemporalAccessor.toString *)
  j_bigDecText : bigdec -> list Z;                 (* BigDecimal.toString *)
  j_digit : Z -> option Z }.                       (* Character.digit(c, 10); None: -1 *)

(** Objects that reach ObjectTraits, by the classes ObjectTraits.java distinguishes. Arrays are given by
    the texts the JDK produces for them (byte[]: Base64 text) or for their elements. [text] is the outcome
    of toString(), which may throw. *)
Inductive obj :=
| ONumber (l d i : res Z) (text : res (list Z))   (* longValue, doubleValue bits, intValue *)
| ODate (millis : res Z) (instant : res (Z * Z)) (text : res (list Z))   (* getTime, toInstant *)
| OCalendar (millis : res Z) (text : res (list Z))
| OBytes (base64 : list Z)
| OChars (s : list Z)
| OPrims (elems : list (list Z))
| OArray (elems : list (list Z))
| OOther (text : res (list Z)).

(** Argument values, by dynamic class *)
Inductive value :=
| VBool (b : bool)
| VChar (c : Z)
| VByte (v : Z)
| VShort (v : Z)
| VInt (v : Z)
| VLong (v : Z)
| VFloat (bits : Z)
| VDouble (bits : Z)
| VStr (s : list Z)
| VSeq (s : seq)
| VChars (s : list Z)      (* any other CharSequence, with its text *)
| VBig (v : Z)
| VDec (d : bigdec)
| VTemporal (t : temporal)
| VObj (o : obj).

(** traits/FormatTraits.java:44-168, an object as the record of its method results (asObject: see ArgsM.v) *)
Record traits := mkTraits {
  t_asIntForm : res intform;
  t_asFloatForm : res floatform;
  t_asString : res (list Z);
  t_asInt : res Z;
  t_asTemporal : res temporal;
  t_asChar : res Z;
  t_ref : refslot;
  t_asSeq : res seq }.

Definition conv {A} : res A := Err (Printf BadConversion).

(** FormatTraits.java:103-105: (char) asInt() *)
Definition charOfInt (i : res Z) : res Z := let* v := i in Ok (v mod 65536).
(** FormatTraits.java:166-168 *)
Definition seqOfString (s : res (list Z)) : res seq := let* t := s in Ok (wrapS t).
(** Seq.lazy(this, n) where accept appends [t] *)
Definition lazySeq (t : list Z) (n : Z) : res seq :=
  let* a := s_lazy (fun sb => Ok (sb ++ t)) n in Ok (Leaf a).

(** [Utils.longToInstant] as a TemporalAccessor *)
Definition instantOfLong (v : Z) : res temporal := let* i := longToInstant v in Ok (TInstant i).

(** traits/NullTraits.java:9-59 *)
Definition nullTraits : traits :=
  mkTraits conv conv (Ok (txt "null")) conv conv (charOfInt conv) RNull (Ok (wrapS (txt "null"))).

(** traits/BooleanTraits.java:27-58 *)
Definition boolText (b : bool) : list Z := if b then txt "true" else txt "false".
Definition boolTraits (b : bool) (r : refslot) : traits :=
  let i := if b then 1 else 0 in
  mkTraits (Ok (intForm i)) (Ok (doubleForm (ofLong i))) (Ok (boolText b)) (Ok i) conv
    (charOfInt (Ok i)) r (Ok (wrapS (boolText b))).

(** traits/CharacterTraits.java:25-67 *)
Definition charTraits (c : Z) (r : refslot) : traits :=
  mkTraits (Ok (intForm c)) (Ok (doubleForm (ofLong c))) (Ok [c]) (Ok c) conv (Ok c) r (Ok (chS c)).

(** traits/ByteTraits.java:21-53, traits/ShortTraits.java:21-53 *)
Definition byteTraits (v : Z) (r : refslot) : traits :=
  mkTraits (Ok (byteForm v)) (Ok (doubleForm (ofLong v))) (Ok (dec_text v)) (Ok v) conv
    (Ok (v mod 65536)) r (seqOfString (Ok (dec_text v))).
Definition shortTraits (v : Z) (r : refslot) : traits :=
  mkTraits (Ok (shortForm v)) (Ok (doubleForm (ofLong v))) (Ok (dec_text v)) (Ok v) conv
    (Ok (v mod 65536)) r (seqOfString (Ok (dec_text v))).

(** traits/IntTraits.java:11-81; Integer.toUnsignedLong *)
Definition intTraits (v : Z) (r : refslot) : traits :=
  mkTraits (Ok (intForm v)) (Ok (doubleForm (ofLong v))) (Ok (dec_text v)) (Ok v)
    (instantOfLong (uint32 v)) (charOfInt (Ok v)) r (lazySeq (dec_text v) (stringSizeI v)).

(** traits/LongTraits.java:25-67 *)
Definition longTraits (v : Z) (r : refslot) : traits :=
  mkTraits (Ok (longForm v)) (Ok (doubleForm (ofLong v))) (Ok (dec_text v)) (Ok (wrap32 v))
    (instantOfLong v) (charOfInt (Ok (wrap32 v))) r (lazySeq (dec_text v) (stringSizeL v)).

(** traits/BigIntegerTraits.java:19-46; intValue and longValue keep the low bits *)
Definition bigTraits (v : Z) (r : refslot) : traits :=
  mkTraits (Ok (bigForm v)) (Ok (bigDecForm (mkBD v 0))) (Ok (dec_text v)) (Ok (wrap32 v))
    (instantOfLong (wrap64 v)) (charOfInt (Ok (wrap32 v))) r (seqOfString (Ok (dec_text v))).

(** BigDecimal truncated towards zero *)
Definition bd_toBigInteger (d : bigdec) : Z :=
  if bd_s d <=? 0 then bd_u d * 10 ^ (- bd_s d) else Z.quot (bd_u d) (10 ^ bd_s d).
Definition bigInteger (v : Z) : res Z := if Z.log2 (Z.abs v) <? 2147483647 then Ok v else Err (OtherExn 1).
(** BigDecimal.toBigInteger, that is setScale(0, DOWN): unless the number is 0, a positive scale divides by a power of ten, and
    the result must be a BigInteger; an ArithmeticException otherwise *)
Definition bd_bigInteger (d : bigdec) : res Z :=
  let* _ := (if negb (bd_u d =? 0) && (0 <? bd_s d) then checkTen (bd_s d) else Ok tt) in bigInteger (bd_toBigInteger d).

(** JDK Integer.parseInt, Long.parseLong: optional sign, digits as Character.digit defines them, range check;
    None = NumberFormatException *)
Fixpoint digitsValue (dig : Z -> option Z) (acc : Z) (ds : list Z) : option Z :=
  match ds with
  | [] => Some acc
  | c :: r => match dig c with Some d => digitsValue dig (10 * acc + d) r | None => None end
  end.
Definition inBits (bits v : Z) : option Z := if (- 2 ^ (bits - 1) <=? v) && (v <? 2 ^ (bits - 1)) then Some v else None.
Definition parseNat (dig : Z -> option Z) (ds : list Z) : option Z :=
  match ds with [] => None | _ => digitsValue dig 0 ds end.
Definition parseJava (dig : Z -> option Z) (bits : Z) (s : list Z) : option Z :=
  match s with
  | 45 :: ds => match parseNat dig ds with Some v => inBits bits (- v) | None => None end
  | 43 :: ds => match parseNat dig ds with Some v => inBits bits v | None => None end
  | ds => match parseNat dig ds with Some v => inBits bits v | None => None end
  end.

Definition text_of_res (o : option Z) : res Z := match o with Some v => Ok v | None => conv end.

(** traits/CharSequenceTraits.java:18-76; [asSeq] is computed by the caller per class of the sequence *)
Section WithJdk.
  Variable J : jdk.

  Definition charSeqTraits (s : res (list Z)) (n : Z) (q : res seq) (r : refslot) : traits :=
    mkTraits
      (let* t := s in let* v := text_of_res (parseJava (j_digit J) 64 t) in Ok (longForm v))
      (let* t := s in let* v := text_of_res (j_parseDouble J t) in Ok (doubleForm v))
      s
      (let* t := s in text_of_res (parseJava (j_digit J) 32 t))
      conv
      (if 1 <=? n then let* q := q in s_charAt q 0 else conv)
      r q.

  (** traits/FloatTraits.java:21-48 *)
  Definition floatTraits (b : Z) (r : refslot) : traits :=
    mkTraits (Ok (intForm (d2i (f2d b)))) (Ok (doubleForm (f2d b))) (Ok (j_floatToString J b))
      (Ok (mathRoundF (f2d b))) conv (charOfInt (Ok (mathRoundF (f2d b)))) r
      (seqOfString (Ok (j_floatToString J b))).

  (** traits/DoubleTraits.java:21-48; (int) of a long keeps the low 32 bits *)
  Definition doubleTraits (b : Z) (r : refslot) : traits :=
    mkTraits (Ok (longForm (d2l b))) (Ok (doubleForm b)) (Ok (j_doubleToString J b))
      (Ok (wrap32 (mathRoundD b))) conv (charOfInt (Ok (wrap32 (mathRoundD b)))) r
      (seqOfString (Ok (j_doubleToString J b))).

  (** traits/BigDecimalTraits.java:16-38. Simplification: intValue always yields the low 32 bits; JDK 8 goes through
      toBigInteger and throws where that throws. *)
  Definition decTraits (d : bigdec) (r : refslot) : traits :=
    mkTraits (let* v := bd_bigInteger d in Ok (bigForm v)) (Ok (bigDecForm d)) (Ok (j_bigDecText J d))
      (Ok (wrap32 (bd_toBigInteger d))) conv (charOfInt (Ok (wrap32 (bd_toBigInteger d)))) r
      (seqOfString (Ok (j_bigDecText J d))).

  (** Instant.from *)
  Definition instantFrom (t : temporal) : option instant :=
    match t with TInstant i => Some i | _ => j_instantFrom J t end.

  (** Instant.toEpochMilli: exact arithmetic on long, ArithmeticException on overflow *)
  Definition toEpochMilli (i : instant) : res Z :=
    let v := fst i * 1000 + snd i / 1000000 in
    if (long_min <=? v) && (v <=? long_max) then Ok v else Err (OtherExn 1).

  (** traits/TemporalAccessorTraits.java:19-84 *)
  Definition temporalTraits (t : temporal) (r : refslot) : traits :=
    let inst := match instantFrom t with Some i => Ok i | None => conv end in
    mkTraits
      (let* i := inst in let* m := toEpochMilli i in Ok (longForm m))
      (let* i := inst in
       Ok (doubleForm (dbl_add (ofLong (fst i)) (dbl_div (ofLong (snd i)) (ofLong 1000000000)))))
      (Ok (j_temporalText J t))
      (let* i := inst in Ok (wrap32 (fst i)))
      (Ok t) conv r (seqOfString (Ok (j_temporalText J t))).

  (** traits/ObjectTraits.java:22-63 *)
  Definition objText (o : obj) : res (list Z) :=
    match o with
    | ONumber _ _ _ t | ODate _ _ t | OCalendar _ t | OOther t => t
    | OBytes s | OChars s => Ok s
    | OPrims l | OArray l =>
        match l with
        | [] => Ok (txt "[]")
        | _ => Ok (joinArray (txt "[") (txt ", ") l ++ txt "]")
        end
    end.

  (** traits/ObjectTraits.java:65-119. Each method called on the object may throw; Calendar.toInstant is final and is
      Instant.ofEpochMilli(getTimeInMillis()), Date.toInstant is not final (java.sql.Date's throws). *)
  Definition objTraits (o : obj) (r : refslot) : traits :=
    let ofMillis (m : res Z) (t : res temporal) :=
      (let* z := m in Ok (longForm z), let* z := m in Ok (doubleForm (dbl_div (ofLong z) (ofLong 1000))), t,
       let* z := m in Ok (wrap32 (Z.quot z 1000))) in
    let '(i, f, t, n) :=
      match o with
      | ONumber l d i _ => (let* z := l in Ok (longForm z), let* b := d in Ok (doubleForm b), let* z := l in instantOfLong z, i)
      | ODate m i _ => ofMillis m (let* p := i in Ok (TInstant p))
      | OCalendar m _ => ofMillis m (let* z := m in Ok (TInstant (ofEpochMilli z)))
      | _ => (conv, conv, conv, conv)
      end in
    mkTraits i f (objText o) n t (charOfInt n) r (seqOfString (objText o)).

  (** the trait object each class of value is given: ArgsImpl.java:69-184 *)
  Definition traitsOf (v : value) (r : refslot) : traits :=
    match v with
    | VBool b => boolTraits b r
    | VChar c => charTraits c r
    | VByte v => byteTraits v r
    | VShort v => shortTraits v r
    | VInt v => intTraits v r
    | VLong v => longTraits v r
    | VFloat b => floatTraits b r
    | VDouble b => doubleTraits b r
    | VStr s => charSeqTraits (Ok s) (zlen s) (Ok (wrapS s)) r
    | VSeq q => charSeqTraits (s_toString q) (s_len q) (Ok q) r
    | VChars s => charSeqTraits (Ok s) (zlen s) (lazySeq s (zlen s)) r
    | VBig v => bigTraits v r
    | VDec d => decTraits d r
    | VTemporal t => temporalTraits t r
    | VObj o => objTraits o r
    end.

  (** appender/SeqFormatter.java:375-386 *)
  Definition bestDefaultFormatter (t : temporal) : res dtformat :=
    match t with
    | TOffset _ | TZoned _ => Ok IsoOffset
    | TLocalDateTime _ => Ok IsoLocalDateTime
    | TLocalDate _ => Ok IsoLocalDate
    | _ => conv
    end.

  (** appender/SeqFormatter.java:388-402 *)
  Definition fmt_t (c : ctx) (x : traits) : res seq :=
    let* t := t_asTemporal x in
    let* (f, t) :=
      (match c_dtf c with
       | Some p => Ok (Pattern p, t)
       | None =>
           match t with
           | TInstant i => let* z := j_atSystemZone J i in Ok (IsoOffset, z)
           | _ => let* f := bestDefaultFormatter t in Ok (f, t)
           end
       end) in
    let* s := j_format J f t in
    spaceJustify c (wrapS s).

  (** appender/DefaultAppender.java:26-89 *)
  Definition upperOf (s : res seq) : res seq := let* s := s in s_upper s.
  Definition withInt (x : traits) (f : intform -> res seq) : res seq := let* v := t_asIntForm x in f v.
  Definition withFloat (x : traits) (f : floatform -> res seq) : res seq := let* v := t_asFloatForm x in f v.

  Definition formatterFor (sp : spec) (c : ctx) (x : traits) : res seq :=
    match sp with
    | Sd => withInt x (fmt_d c)
    | Su => withInt x (fmt_u c)
    | Sx => withInt x (fmt_x c)
    | SX => upperOf (withInt x (fmt_x c))
    | So => withInt x (fmt_o c)
    | Sf => withFloat x (fmt_f c)
    | SF => upperOf (withFloat x (fmt_f c))
    | Se => withFloat x (fmt_e c)
    | SE => upperOf (withFloat x (fmt_e c))
    | Sg => withFloat x (fmt_g c)
    | SG => upperOf (withFloat x (fmt_g c))
    | Sa => withFloat x (fmt_a c)
    | SA => upperOf (withFloat x (fmt_a c))
    | Ss => let* s := t_asSeq x in fmt_s c s
    | SS => upperOf (let* s := t_asSeq x in fmt_s c s)
    | St => fmt_t c x
    | ST => upperOf (fmt_t c x)
    | Sc => let* v := t_asChar x in fmt_c c v
    | Sp => fmt_p c (t_ref x)
    | Spct => Ok (chS (ch "%"))
    | Sn => Ok emptyS
    end.
End WithJdk.
