(** Repaired versions of the functions behind the findings of DESIGN.md. Each definition repeats the model of the Java function
    named beside it, with the change described; everything not listed here is used as it is. The programs modelled in the other
    files stay the subject of every other property: this file is about what a fix has to look like. *)
From Verif Require Import Base Digits UtilsM SeqM ContextM CompilerM IntFormM FormatterM MathM DecimalM FPDecimalM DoubleM BigDecM RoundM TraitsM ImplM.

(** AtomicSeqIterable.java:32-57, finding 1. Change: line 53 passes the length of the slice, taken before the loop changes [start]
    and [end], instead of [end - start] after it. *)
Definition s_sub' (s : seq) (start end_ : Z) : res seq :=
  match s with
  | Leaf a => let* x := a_sub a start end_ in Ok (Leaf x)
  | _ =>
      let n := s_len s in
      let* _ := checkPositionIndexes start end_ n in
      if start =? end_ then Ok (Leaf AEmpty)
      else if (start =? 0) && (end_ =? n) then Ok s
      else
        let* atoms := s_iter s in
        let* (buf, _, _) := sub_loop atoms start end_ [] in
        match buf with
        | [x] => Ok (Leaf x)
        | _ => Ok (Arr buf (wrap32 (end_ - start)))
        end
  end.

(** SeqFormatter.java:73-97, finding 10. Change: zero with precision 0 gets its sign from [sign], as every other number does. *)
Definition fmt_d' (c : ctx) (value : intform) : res seq :=
  if (i_signum value =? 0) && (c_prec c =? 0) then spaceJustify c (sign c emptyS false) else fmt_d c value.

(** SeqFormatter.java:111-140, finding 9. Changes: the width and the precision make room for the prefix only where one is written
    (not for zero); "%#.0o" of zero prints a zero. *)
Definition formatUnsignedInteger' (c : ctx) (value : intform) (toString : intform -> res (list Z)) (prefix : list Z) : res seq :=
  let signum := i_signum value in
  let octal := match prefix with [48] => true | _ => false end in
  let prefixed := hasFlag c ALTERNATE && negb (signum =? 0) in
  if (signum =? 0) && (c_prec c =? 0) then
    spaceJustify c (if hasFlag c ALTERNATE && octal then chS (ch "0") else emptyS)
  else
    let* digits := toString value in
    let v0 := wrapS digits in
    let precision :=
      if isPrecisionSet c then (if prefixed && octal then wrap32 (c_prec c - 1) else c_prec c)
      else if hasFlag c ZERO_PAD && isWidthSet c && negb (hasFlag c LEFT_JUSTIFY) then
        (if prefixed then wrap32 (c_width c - zlen prefix) else c_width c)
      else 1 in
    let* v0 := padDigits precision v0 in
    let v0 := if prefixed then s_prepend v0 (wrapS prefix) else v0 in
    spaceJustify c v0.
Definition fmt_o' (c : ctx) (v : intform) : res seq := formatUnsignedInteger' c v i_oct (txt "0").
Definition fmt_x' (c : ctx) (v : intform) : res seq := formatUnsignedInteger' c v i_hex (txt "0x").

(** SeqFormatter.java:142-157, finding 13. Change: the sign of an infinity comes from [sign]. *)
Definition nanOrInfinity' (c : ctx) (v : floatform) : res seq :=
  spaceJustify c (if f_isNaN v then wrapS (txt "NaN") else sign c (wrapS (txt "Infinity")) (f_signum v <? 0)).

(** SeqFormatter.java:210-228: as before, on the repaired subSequence *)
Definition stripTrailingZeros' (m : seq) : res seq :=
  let* dotIndex := s_indexOf m (ch ".") in
  if dotIndex =? NOT_FOUND then Ok m
  else
    let* last := stripLoop (Z.to_nat (s_len m)) m dotIndex (s_len m - 1) in
    let last := if last =? dotIndex then last - 1 else last in
    s_sub' m 0 (last + 1).

(** SeqFormatter.java:159-171 and 194-207: as before *)
Definition fmt_f' (c : ctx) (v : floatform) : res seq := if f_isNaN v || f_isInf v then nanOrInfinity' c v else fmt_f c v.
Definition fmt_e' (c : ctx) (v : floatform) : res seq := if f_isNaN v || f_isInf v then nanOrInfinity' c v else fmt_e c v.

(** SeqFormatter.java:276-301 with 259-274, finding 7. Change: with '#' the exponent style pads to the precision too. *)
Definition formatG' (c : ctx) (m : seq) (precision : Z) : res seq :=
  if hasFlag c ALTERNATE then padToPrecision m precision else stripTrailingZeros' m.
Definition fmt_g' (c : ctx) (v : floatform) : res seq :=
  if f_isNaN v || f_isInf v then nanOrInfinity' c v
  else
    let precision := if isPrecisionSet c then (if c_prec c =? 0 then 1 else c_prec c) else 6 in
    let* l := f_general v precision in
    let* v0 := (match l_exp l with
                | None => formatG' c (l_mant l) precision
                | Some x => let* m := formatG' c (l_mant l) precision in Ok (s_append (s_append m (chS (ch "e"))) x)
                end) in
    signAndJustify c v0 (f_isNegative v).

(** SeqFormatter.java:303-338: as before *)
Definition fmt_a' (c : ctx) (v : floatform) : res seq := if f_isNaN v || f_isInf v then nanOrInfinity' c v else fmt_a c v.

(** SeqFormatter.java:344-351: as before, on the repaired subSequence *)
Definition fmt_s' (c : ctx) (s : seq) : res seq :=
  let* s := (if isPrecisionSet c && (c_prec c <? s_len s) then s_sub' s 0 (c_prec c) else Ok s) in
  spaceJustify c s.

(** ** BigDecimalWrapper *)

(** BigDecimalWrapper.java:33-67, finding 3. Change: line 43 tests [length <= 10]. *)
Definition scientificLayout0' (d : bigdec) : res layout :=
  let s := dec_text (bd_u d) in
  let length := zlen s in
  let scale := bd_s d in
  if scale =? 0 then
    if 1 <? length then
      let* m := insertDot s in
      let x := if length <=? 10 then txt "+0" ++ dec_text (length - 1) else txt "+" ++ dec_text (length - 1) in
      Ok (mkLayout m (Some (wrapS x)))
    else Ok (mkLayout (wrapS s) (Some (wrapS (txt "+00"))))
  else
    let* m := (if 1 <? length then insertDot s else Ok (wrapS s)) in
    let adjusted := - scale + (length - 1) in
    let x :=
      if negb (adjusted =? 0) then
        let x := chS (if adjusted <? 0 then ch "-" else ch "+") in
        let x := if Z.abs adjusted <? 10 then s_append x (chS (ch "0")) else x in
        s_append x (wrapS (dec_text (Z.abs adjusted)))
      else wrapS (txt "+00") in
    Ok (mkLayout m (Some x)).

(** BigDecimalWrapper.java:139-153: as before *)
Definition bd_scientific' (v : bigdec) (precision : Z) : res layout :=
  let origPrec := bd_precision v in
  let compPrec := if origPrec - 1 <? precision then origPrec else wrap32 (precision + 1) in
  let* v := bd_new_mc (bd_u v) (bd_s v) compPrec in
  scientificLayout0' v.

(** BigDecimalWrapper.java:155-171, finding 34. Change: a number with no digit among the places kept becomes 0, or 1 in the last
    place if it is at least half of it, without dividing by a power of ten that may not exist. *)
Definition bd_decimal' (v : bigdec) (precision : Z) : res layout :=
  let scale := bd_s v in
  let compPrec := bd_precision v in
  let* v := (if precision <? scale then
               if compPrec <=? scale - precision then
                 Ok (mkBD (match bd_compare v (mkBD 5 (precision + 1)) with Lt => 0 | _ => 1 end) precision)
               else if compPrec <=? scale then bd_setScale v precision
               else bd_new_mc (bd_u v) scale (compPrec - (scale - precision))
             else Ok v) in
  decimalLayout0 v.

(** BigDecimalWrapper.java:113-137, finding 6. Change: the number is rounded first; its exponent, computed as a long, then decides. *)
Definition bd_general' (v : bigdec) (precision : Z) : res layout :=
  let* v := bd_new_mc (bd_u v) (bd_s v) precision in
  let e := zlen (dec_text (bd_u v)) - 1 - bd_s v in
  if (-4 <=? e) && (e <? precision) then decimalLayout0 v else scientificLayout0' v.

(** BigDecimalWrapper.java:10-23, findings 4 and 5. Change: a zero is stored with scale 0. *)
Definition bigDecForm' (d : bigdec) : floatform :=
  let v := if bd_u d =? 0 then mkBD 0 0 else bd_abs d in
  mkFloat false false (Z.sgn (bd_u d)) (bd_general' v) (bd_scientific' v) (bd_decimal' v)
    (fun _ => Err (Printf NotHex)).

(** ** '*' *)

(** DefaultAppender.java:100-112, finding 11. Change: the width Integer.MIN_VALUE, whose negation overflows, is out of range as
    the widths around it are. *)
Definition resolveCtx' (c : ctx) (it : list traits) : res (ctx * list traits) :=
  let* (c, it) :=
    (if isPrecedingWidth c then
       let* (w, it) := nextInt it in
       let* c := (if 0 <=? w then setWidth c w
                  else setWidth (addFlag c LEFT_JUSTIFY) (if w =? int_min then int_max else - w)) in
       Ok (c, it)
     else Ok (c, it)) in
  if isPrecedingPrecision c then
    let* (p, it) := nextInt it in
    let* c := setPrecision c (if 0 <=? p then p else UNSET) in
    Ok (c, it)
  else Ok (c, it).

(** ** The repaired calls *)

(** an argument: null, or a value with what %p sees of it *)
Inductive given := Null | Given (v : value) (r : refslot).

Definition withFloatForm (x : traits) (f : floatform) : traits :=
  mkTraits (t_asIntForm x) (Ok f) (t_asString x) (t_asInt x) (t_asTemporal x) (t_asChar x) (t_ref x) (t_asSeq x).

Section WithJdk.
  Variable J : jdk.

  Definition traitsGiven (g : given) : traits := match g with Null => nullTraits | Given v r => traitsOf J v r end.

  (** BigIntegerTraits.java:19-46, BigDecimalTraits.java:16-38 on the repaired BigDecimalWrapper *)
  Definition traitsOf' (v : value) (r : refslot) : traits :=
    match v with
    | VBig z => withFloatForm (traitsOf J v r) (bigDecForm' (mkBD z 0))
    | VDec d => withFloatForm (traitsOf J v r) (bigDecForm' d)
    | _ => traitsOf J v r
    end.
  Definition traitsGiven' (g : given) : traits := match g with Null => nullTraits | Given v r => traitsOf' v r end.

  (** DefaultAppender.java:26-89 on the repaired conversions *)
  Definition formatterFor' (sp : spec) (c : ctx) (x : traits) : res seq :=
    match sp with
    | Sd => withInt x (fmt_d' c)
    | Su => withInt x (fmt_u c)
    | Sx => withInt x (fmt_x' c)
    | SX => upperOf (withInt x (fmt_x' c))
    | So => withInt x (fmt_o' c)
    | Sf => withFloat x (fmt_f' c)
    | SF => upperOf (withFloat x (fmt_f' c))
    | Se => withFloat x (fmt_e' c)
    | SE => upperOf (withFloat x (fmt_e' c))
    | Sg => withFloat x (fmt_g' c)
    | SG => upperOf (withFloat x (fmt_g' c))
    | Sa => withFloat x (fmt_a' c)
    | SA => upperOf (withFloat x (fmt_a' c))
    | Ss => let* s := t_asSeq x in fmt_s' c s
    | SS => upperOf (let* s := t_asSeq x in fmt_s' c s)
    | St => fmt_t J c x
    | ST => upperOf (fmt_t J c x)
    | Sc => let* v := t_asChar x in fmt_c c v
    | Sp => fmt_p c (t_ref x)
    | Spct => Ok (chS (ch "%"))
    | Sn => Ok emptyS
    end.

  (** DefaultAppender.java:98-122 and FastPrintfImpl.java:80-119 on the repaired parts *)
  Definition appendOne' (a : appender) (it : list traits) : res (seq * list traits) :=
    match a with
    | Fixed t => Ok (wrapS t, it)
    | Default sp c =>
        let* (c, it) := resolveCtx' c it in
        match it with
        | [] => Err (Printf MissingArg)
        | x :: rest => let* s := formatterFor' sp c x in Ok (s, rest)
        end
    end.
  Fixpoint run' (emit : seq -> list Z -> outcome) (apps : list appender) (it : list traits) (sb : list Z) : outcome :=
    match apps with
    | [] => (sb, None)
    | a :: rest =>
        match appendOne' a it with
        | Err e => (sb, Some e)
        | Ok (s, it') =>
            match emit s sb with
            | (sb', None) => run' emit rest it' sb'
            | o => o
            end
        end
    end.
  Definition format' (apps : list appender) (args : list given) : res (list Z) :=
    match run' emitSB apps (map traitsGiven' args) [] with
    | (sb, None) => Ok sb
    | (_, Some e) => Err e
    end.
  Definition formatInto' (isStringBuilder : bool) (apps : list appender) (args : list given) (target : list Z) : outcome :=
    run' (if isStringBuilder then emitSB else emitApp) apps (map traitsGiven' args) target.
End WithJdk.
