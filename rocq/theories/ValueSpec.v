(** Java's limits on arguments and on the JDK's answers; arguments a conversion does not apply to; dates and times; what %p shows. *)
From Coq Require Import QArith.
From Verif Require Import Base Digits SeqM SeqSpec ContextM CompilerM GrammarSpec FormatterM MathM DecimalM BigDecM TraitsM ImplM
  FmtSpec DecSpec FloatSpec BigSpec DirSpec LoopSpec.
Open Scope Z_scope.

(** ** What Java guarantees *)

(** the outcome of code outside the library that makes a String *)
Definition foreign {A} (P : A -> Prop) (r : res A) : Prop := match r with Ok t => P t | Err e => exists n, e = OtherExn n end.
Definition foreign_text : res (list Z) -> Prop := foreign (fun t => zlen t <= int_max).
(** toString may return null, which ends in a NullPointerException *)
Definition string_result (r : res (list Z)) : Prop := r = Err NullPtr \/ foreign_text r.
Definition instant_range (i : Z * Z) : Prop := in_range 64 (fst i) /\ 0 <= snd i < 1000000000.

Record jdk_ok (J : jdk) : Prop := mkJdkOk {
  ok_double : forall b, zlen (j_doubleToString J b) <= int_max;
  ok_float : forall b, zlen (j_floatToString J b) <= int_max;
  ok_temporal : forall t, zlen (j_temporalText J t) <= int_max;
  ok_decimal : forall d, zlen (j_bigDecText J d) <= int_max;
  ok_parse : forall s b, j_parseDouble J s = Some b -> in_range 64 b;
  ok_instant : forall t s n, j_instantFrom J t = Some (s, n) -> in_range 64 s /\ 0 <= n < 1000000000;
  ok_format : forall f t, foreign_text (j_format J f t);
  ok_zone : forall i e, j_atSystemZone J i = Err e -> exists n, e = OtherExn n }.

(** [v] is a Java object of its class. A library Seq is one whose recorded lengths are right (what C18-C20 are about). *)
Definition java_value (v : value) : Prop :=
  match v with
  | VBool _ => True
  | VChar c => 0 <= c <= 65535
  | VByte z => in_range 8 z
  | VShort z => in_range 16 z
  | VInt z => in_range 32 z
  | VLong z => in_range 64 z
  | VFloat f => in_range 32 f
  | VDouble b => in_range 64 b
  | VStr s | VChars s => zlen s <= int_max
  | VSeq q => exists t, den q t
  | VBig z => Z.log2 (Z.abs z) < 2147483647
  | VDec (mkBD u s) => java_decimal u s
  | VTemporal (TInstant (s, n)) => in_range 64 s /\ 0 <= n < 1000000000
  | VTemporal _ => True
  | VObj o => string_result (object_text o) /\
      match o with
      | ONumber l d i _ => foreign (in_range 64) l /\ foreign (in_range 64) d /\ foreign (in_range 32) i
      | ODate m i _ => foreign (in_range 64) m /\ foreign instant_range i
      | OCalendar m _ => foreign (in_range 64) m
      | _ => True
      end
  end.

(** a decimal number whose digits before the point, all written out, still fit a String *)
Definition printable (v : value) : Prop :=
  match v with VDec (mkBD u s) => ndigits (Z.abs u) - s < 2000000000 | _ => True end.

(** class names have one to 65535 characters (JVMS 4.4.7) *)
Definition ref_ok (r : refslot) : Prop := match r with RObj name _ => 1 <= zlen name <= 65535 | _ => True end.

(** the argument lists the library builds from Java values *)
Inductive argument (J : jdk) : traits -> Prop :=
| arg_null : argument J nullTraits
| arg_value v r : java_value v -> printable v -> ref_ok r -> argument J (traitsOf J v r).

(** ** Arguments that are not numbers, not characters, not dates *)

Definition is_number_object (o : obj) : Prop := match o with ONumber _ _ _ _ | ODate _ _ _ | OCalendar _ _ => True | _ => False end.

(** methods of an object that the conversions call, when they throw: for %d, for a '*' and %c, for %f, for %t *)
Definition fails_long (o : obj) (e : exn) : Prop :=
  match o with ONumber l _ _ _ => l = Err e | ODate m _ _ => m = Err e | OCalendar m _ => m = Err e | _ => False end.
Definition fails_int (o : obj) (e : exn) : Prop :=
  match o with ONumber _ _ i _ => i = Err e | ODate m _ _ => m = Err e | OCalendar m _ => m = Err e | _ => False end.
Definition fails_double (o : obj) (e : exn) : Prop :=
  match o with ONumber _ d _ _ => d = Err e | ODate m _ _ => m = Err e | OCalendar m _ => m = Err e | _ => False end.
Definition fails_instant (o : obj) (e : exn) : Prop :=
  match o with ONumber l _ _ _ => l = Err e | ODate _ i _ => i = Err e | OCalendar m _ => m = Err e | _ => False end.

Inductive not_integer (J : jdk) : value -> exn -> Prop :=
| ni_chars v s : chars J v s -> (forall z, integer_text (j_digit J) s z -> ~ in_range 64 z) -> not_integer J v (Printf BadConversion)
| ni_temporal t : point J t = None -> not_integer J (VTemporal t) (Printf BadConversion)
| ni_object o : ~ is_number_object o -> not_integer J (VObj o) (Printf BadConversion)
| ni_fails o e : fails_long o e -> not_integer J (VObj o) e
| ni_far t s n : point J t = Some (s, n) -> ~ in_range 64 (s * 1000 + n / 1000000) -> not_integer J (VTemporal t) (OtherExn 1)
| ni_huge u s z : truncated (dec u (- s)) z -> 2147483647 <= Z.log2 (Z.abs z) -> not_integer J (VDec (mkBD u s)) (OtherExn 1)
| ni_tiny u s : u <> 0 -> 646456992 < s -> not_integer J (VDec (mkBD u s)) (OtherExn 1).

Inductive not_int (J : jdk) : value -> Prop :=
| nt_chars v s : chars J v s -> (forall z, integer_text (j_digit J) s z -> ~ in_range 32 z) -> not_int J v
| nt_temporal t : point J t = None -> not_int J (VTemporal t)
| nt_object o : ~ is_number_object o -> not_int J (VObj o).

Inductive not_char (J : jdk) : value -> Prop :=
| nc_empty v : chars J v [] -> not_char J v
| nc_temporal t : not_char J (VTemporal t)
| nc_object o : ~ is_number_object o -> not_char J (VObj o).

Inductive not_float (J : jdk) : value -> Prop :=
| nf_chars v s : chars J v s -> j_parseDouble J s = None -> not_float J v
| nf_temporal t : point J t = None -> not_float J (VTemporal t)
| nf_object o : ~ is_number_object o -> not_float J (VObj o).

(** ** Dates and times *)

(** the instant [ms] milliseconds after 1970 *)
Definition at_millis (ms : Z) (i : Z * Z) : Prop := fst i * 1000000000 + snd i = ms * 1000000 /\ 0 <= snd i < 1000000000.
(** numbers of at most 32 bits are seconds, larger ones milliseconds *)
Definition at_number (z : Z) (i : Z * Z) : Prop := if z <=? 4294967295 then i = (z, 0) else at_millis z i.

Inductive is_temporal : value -> temporal -> Prop :=
| tm_temporal t : is_temporal (VTemporal t) t
| tm_int z i : at_number (z mod 2 ^ 32) i -> is_temporal (VInt z) (TInstant i)
| tm_long z i : 0 <= z -> at_number z i -> is_temporal (VLong z) (TInstant i)
| tm_big z w i : low_bits 64 z w -> 0 <= w -> at_number w i -> is_temporal (VBig z) (TInstant i)
| tm_number l d n t i : 0 <= l -> at_number l i -> is_temporal (VObj (ONumber (Ok l) d n t)) (TInstant i)
| tm_date m t i : is_temporal (VObj (ODate m (Ok i) t)) (TInstant i)
| tm_calendar m t i : at_millis m i -> is_temporal (VObj (OCalendar (Ok m) t)) (TInstant i).

Inductive not_temporal (J : jdk) : value -> exn -> Prop :=
| nm_long z : z < 0 -> not_temporal J (VLong z) IllegalArg
| nm_big z w : low_bits 64 z w -> w < 0 -> not_temporal J (VBig z) IllegalArg
| nm_number l d n t : l < 0 -> not_temporal J (VObj (ONumber (Ok l) d n t)) IllegalArg
| nm_fails o e : fails_instant o e -> not_temporal J (VObj o) e
| nm_bool b : not_temporal J (VBool b) (Printf BadConversion)
| nm_char c : not_temporal J (VChar c) (Printf BadConversion)
| nm_byte z : not_temporal J (VByte z) (Printf BadConversion)
| nm_short z : not_temporal J (VShort z) (Printf BadConversion)
| nm_float b : not_temporal J (VFloat b) (Printf BadConversion)
| nm_double b : not_temporal J (VDouble b) (Printf BadConversion)
| nm_chars v s : chars J v s -> not_temporal J v (Printf BadConversion)
| nm_dec d : not_temporal J (VDec d) (Printf BadConversion)
| nm_object o : ~ is_number_object o -> not_temporal J (VObj o) (Printf BadConversion).

(** what %t writes for a date or time: by the pattern given, or in the ISO format of its class; an Instant is
    shown in the system's time zone; other classes need a pattern *)
Inductive dated (J : jdk) : option (list Z) -> temporal -> res (list Z) -> Prop :=
| dd_pattern p t : dated J (Some p) t (j_format J (Pattern p) t)
| dd_offset i : dated J None (TOffset i) (j_format J IsoOffset (TOffset i))
| dd_zoned i : dated J None (TZoned i) (j_format J IsoOffset (TZoned i))
| dd_local_time i : dated J None (TLocalDateTime i) (j_format J IsoLocalDateTime (TLocalDateTime i))
| dd_local_date i : dated J None (TLocalDate i) (j_format J IsoLocalDate (TLocalDate i))
| dd_instant i z : j_atSystemZone J i = Ok z -> dated J None (TInstant i) (j_format J IsoOffset z)
| dd_instant_fails i e : j_atSystemZone J i = Err e -> dated J None (TInstant i) (Err e)
| dd_other i : dated J None (TOther i) (Err (Printf BadConversion)).

(** a single %t or %T directive without '*', with its pattern *)
Inductive date_directive : list Z -> spec -> option (list Z) -> fspec -> Prop :=
| dt_plain src s q : s = St \/ s = ST -> directive src s q -> date_directive src s None q
| dt_pattern src s q p : s = St \/ s = ST -> directive src s q -> p <> [] -> pat false p ->
    date_directive (src ++ txt "{" ++ p ++ txt "}") s (Some p) q.

Definition accepts (dtf : list Z -> bool) (pat : option (list Z)) : Prop := match pat with Some p => dtf p = true | None => True end.

(** [prints] and [rejects], for JDKs that accept the pattern *)
Definition prints_date (J : jdk) (pat : option (list Z)) (src : list Z) (args : list traits) (t : list Z) : Prop :=
  forall dtf, accepts dtf pat -> exists apps, compile dtf src = Ok apps /\
    ImplM.format J apps args = Ok t /\ forall sb target, formatInto J sb apps args target = (target ++ t, None).
Definition rejects_date (J : jdk) (pat : option (list Z)) (src : list Z) (args : list traits) (e : exn) : Prop :=
  forall dtf, accepts dtf pat -> exists apps, compile dtf src = Ok apps /\
    ImplM.format J apps args = Err e /\ forall sb target, formatInto J sb apps args target = (target, Some e).

(** ** The text of %p *)
Definition pointer_text (name : list Z) (hash : Z) : list Z := name ++ txt "@" ++ numeral 16 (hash mod 2 ^ 32).

(** ** Errors of a call *)
(** the errors conversion [s] may report about its argument *)
Inductive conversion_error : spec -> exn -> Prop :=
| ce_foreign s n : conversion_error s (OtherExn n)
| ce_type s : s <> Sn -> s <> Spct -> s <> Sp -> s <> Ss -> s <> SS -> conversion_error s (Printf BadConversion)
| ce_negative s : s = Su \/ s = Sx \/ s = SX \/ s = So -> conversion_error s (Printf NegativeUnsigned)
| ce_hex s : s = Sa \/ s = SA -> conversion_error s (Printf NotHex)
| ce_pointer : conversion_error Sp (Printf PrimitivePointer)
| ce_date s : s = St \/ s = ST -> conversion_error s IllegalArg
| ce_null s : s = Ss \/ s = SS -> conversion_error s NullPtr.

(** the errors a call with format [ds] and arguments [args] may report: an argument is missing, the argument of a '*' is out of range
    or not a number, or a conversion rejects its argument *)
Inductive call_error (ds : list appender) (args : list traits) : exn -> Prop :=
| ke_missing : zlen args < arities ds -> call_error ds args (Printf MissingArg)
| ke_width s c : In (Default s c) ds -> c_width c = PRECEDING -> call_error ds args (Printf WidthRange)
| ke_prec s c : In (Default s c) ds -> c_prec c = PRECEDING -> call_error ds args (Printf PrecisionRange)
| ke_star s c : In (Default s c) ds -> c_width c = PRECEDING \/ c_prec c = PRECEDING -> call_error ds args (Printf BadConversion)
| ke_foreign s c n : In (Default s c) ds -> c_width c = PRECEDING \/ c_prec c = PRECEDING -> call_error ds args (OtherExn n)
| ke_conv s c e : In (Default s c) ds -> conversion_error s e -> call_error ds args e.

(** the upper-case form of %t *)
Definition date_case (s : spec) (t : list Z) : list Z := match s with ST => map ascii_upper t | _ => t end.
