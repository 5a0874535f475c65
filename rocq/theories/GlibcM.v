(** A library that prints what C prints. Everything is as in RepairM.v but for the wrapper of doubles and two functions of
    SeqFormatter, whose changes are described beside the definitions. Like RepairM.v this is about what a fix has to look like; the
    programs modelled in the other files stay the subject of every other property. *)
From Verif Require Import Base Digits UtilsM SeqM ContextM CompilerM IntFormM FormatterM MathM DecimalM FPDecimalM DoubleM BigDecM RoundM TraitsM ImplM RepairM.

(** ** java.math.BigDecimal *)

(** RoundingMode.HALF_EVEN division of a magnitude by 10^k *)
Definition half_even_div (u k : Z) : Z :=
  let d := 10 ^ k in
  match 2 * (u mod d) ?= d with
  | Lt => u / d
  | Gt => u / d + 1
  | Eq => if Z.even (u / d) then u / d else u / d + 1
  end.

(** new BigDecimal(double) for a finite double that is not negative, given by its bits: the exact value *)
Fixpoint halve (fuel : nat) (c x : Z) : Z * Z :=
  match fuel with
  | O => (c, x)
  | S f => if Z.even c then halve f (c / 2) (x + 1) else (c, x)
  end.
Definition bd_ofDouble (m : Z) : bigdec :=
  let e := m / 2 ^ 52 in
  let c := if e =? 0 then 2 * (m mod 2 ^ 52) else 2 ^ 52 + m mod 2 ^ 52 in
  if c =? 0 then mkBD 0 0
  else
    let (c, x) := halve 53 c (e - 1075) in
    if x <? 0 then mkBD (c * 5 ^ (- x)) (- x) else mkBD (c * 2 ^ x) 0.

(** BigDecimal.setScale(p, HALF_EVEN), called where digits have to go *)
Definition bd_scaleEven (d : bigdec) (p : Z) : bigdec :=
  if bd_s d <=? p then d else mkBD (half_even_div (bd_u d) (bd_s d - p)) p.

(** BigDecimal.round(new MathContext(P, HALF_EVEN)); a second round drops the zero that a carry leaves *)
Definition bd_roundEven1 (d : bigdec) (P : Z) : bigdec :=
  if bd_precision d <=? P then d
  else let drop := bd_precision d - P in mkBD (half_even_div (bd_u d) drop) (bd_s d - drop).
Definition bd_roundEven (d : bigdec) (P : Z) : bigdec := bd_roundEven1 (bd_roundEven1 d P) P.

(** ** DoubleWrapper *)

(** DoubleWrapper.java:83-153 for precision 0. Change: the first digit is rounded to even; before, precision 0 counted as 1. *)
Definition dbl_hex0 (b : Z) : res layout :=
  let frac := dbl_frac b in
  let digit := if dbl_bexp b =? 0 then (if 2 ^ 51 <? frac then 1 else 0) else (if 2 ^ 51 <=? frac then 2 else 1) in
  let x := if dbl_isZero b then 0 else if dbl_bexp b =? 0 then -1022 else dbl_getExponent b in
  Ok (mkLayout (chS (ch "0" + digit)) (Some (addPlus (dec_text x)))).

(** DoubleWrapper.java:8-81. Change: the layouts are those of the exact BigDecimal, rounded to even, instead of those of the shortest
    decimal, rounded half up. *)
Definition exactForm (b : Z) : floatform :=
  let v := bd_ofDouble (dbl_mag b) in
  mkFloat (dbl_isNaN b) (dbl_isInf b) (dbl_compare0 b)
    (fun p => bd_general' (bd_roundEven v p) p)
    (fun p => bd_scientific' (bd_roundEven v (wrap32 (p + 1))) p)
    (fun p => bd_decimal' (bd_scaleEven v p) p)
    (fun p => if p =? 0 then dbl_hex0 b else dbl_hex b p).

(** ** SeqFormatter *)

(** SeqFormatter.java:142-157. Change: "inf" and "nan"; the sign of both comes from [sign]. *)
Definition nanOrInfinityC (c : ctx) (v : floatform) : res seq :=
  spaceJustify c (if f_isNaN v then sign c (wrapS (txt "nan")) false else sign c (wrapS (txt "inf")) (f_signum v <? 0)).
Definition fmt_fC (c : ctx) (v : floatform) : res seq := if f_isNaN v || f_isInf v then nanOrInfinityC c v else fmt_f' c v.
Definition fmt_eC (c : ctx) (v : floatform) : res seq := if f_isNaN v || f_isInf v then nanOrInfinityC c v else fmt_e' c v.
Definition fmt_gC (c : ctx) (v : floatform) : res seq := if f_isNaN v || f_isInf v then nanOrInfinityC c v else fmt_g' c v.

(** SeqFormatter.java:303-338. Change: precision 0 stays 0. *)
Definition fmt_aC (c : ctx) (v : floatform) : res seq :=
  if f_isNaN v || f_isInf v then nanOrInfinityC c v
  else
    let precision := if isPrecisionSet c then c_prec c else 13 in
    let* l := f_hex v precision in
    let* v0 := (if isPrecisionSet c then formatFractionalPart (l_mant l) precision (hasFlag c ALTERNATE)
                else Ok (l_mant l)) in
    let* x := nonNull (l_exp l) in
    let v0 := s_append (s_append v0 (chS (ch "p"))) x in
    let neg := f_signum v <? 0 in
    if hasFlag c ZERO_PAD && negb (hasFlag c LEFT_JUSTIFY) then
      let w := wrap32 (c_width c - 2) in
      let w := if hasSign c neg then wrap32 (w - 1) else w in
      let len := s_len v0 in
      let* v0 := (if len <? w then let* pad := repeated (ch "0") (wrap32 (w - len)) in Ok (s_append pad v0)
                  else Ok v0) in
      Ok (sign c (s_prepend v0 (wrapS (txt "0x"))) neg)
    else
      spaceJustify c (sign c (s_prepend v0 (wrapS (txt "0x"))) neg).

(** ** The calls *)

Definition withFloatResult (x : traits) (f : res floatform) : traits :=
  mkTraits (t_asIntForm x) f (t_asString x) (t_asInt x) (t_asTemporal x) (t_asChar x) (t_ref x) (t_asSeq x).

Section WithJdk.
  Variable J : jdk.

  (** the double asFloatForm() wraps (the classes of traits/, cited in TraitsM.v); not for BigInteger and BigDecimal *)
  Definition doubleOf (v : value) : res Z :=
    match v with
    | VBool b => Ok (ofLong (if b then 1 else 0))
    | VChar z | VByte z | VShort z | VInt z | VLong z => Ok (ofLong z)
    | VFloat b => Ok (f2d b)
    | VDouble b => Ok b
    | VStr s | VChars s => text_of_res (j_parseDouble J s)
    | VSeq q => let* s := s_toString q in text_of_res (j_parseDouble J s)
    | VBig _ | VDec _ => conv
    | VTemporal t =>
        let* i := (match instantFrom J t with Some i => Ok i | None => conv end) in
        Ok (dbl_add (ofLong (fst i)) (dbl_div (ofLong (snd i)) (ofLong 1000000000)))
    | VObj (ONumber _ d _ _) => d
    | VObj (ODate m _ _) | VObj (OCalendar m _) => let* z := m in Ok (dbl_div (ofLong z) (ofLong 1000))
    | VObj _ => conv
    end.

  Definition traitsOfC (v : value) (r : refslot) : traits :=
    match v with
    | VBig _ | VDec _ => traitsOf' J v r
    | _ => withFloatResult (traitsOf J v r) (let* b := doubleOf v in Ok (exactForm b))
    end.
  Definition traitsGivenC (g : given) : traits := match g with Null => nullTraits | Given v r => traitsOfC v r end.

  (** DefaultAppender.java:26-89 *)
  Definition formatterForC (sp : spec) (c : ctx) (x : traits) : res seq :=
    match sp with
    | Sf => withFloat x (fmt_fC c)
    | SF => upperOf (withFloat x (fmt_fC c))
    | Se => withFloat x (fmt_eC c)
    | SE => upperOf (withFloat x (fmt_eC c))
    | Sg => withFloat x (fmt_gC c)
    | SG => upperOf (withFloat x (fmt_gC c))
    | Sa => withFloat x (fmt_aC c)
    | SA => upperOf (withFloat x (fmt_aC c))
    | _ => formatterFor' J sp c x
    end.

  (** DefaultAppender.java:98-122, FastPrintfImpl.java:80-119 *)
  Definition appendOneC (a : appender) (it : list traits) : res (seq * list traits) :=
    match a with
    | Fixed t => Ok (wrapS t, it)
    | Default sp c =>
        let* (c, it) := resolveCtx' c it in
        match it with
        | [] => Err (Printf MissingArg)
        | x :: rest => let* s := formatterForC sp c x in Ok (s, rest)
        end
    end.
  Fixpoint runC (emit : seq -> list Z -> outcome) (apps : list appender) (it : list traits) (sb : list Z) : outcome :=
    match apps with
    | [] => (sb, None)
    | a :: rest =>
        match appendOneC a it with
        | Err e => (sb, Some e)
        | Ok (s, it') =>
            match emit s sb with
            | (sb', None) => runC emit rest it' sb'
            | o => o
            end
        end
    end.
  Definition formatC (apps : list appender) (args : list given) : res (list Z) :=
    match runC emitSB apps (map traitsGivenC args) [] with
    | (sb, None) => Ok sb
    | (_, Some e) => Err e
    end.
  Definition formatIntoC (isStringBuilder : bool) (apps : list appender) (args : list given) (target : list Z) : outcome :=
    runC (if isStringBuilder then emitSB else emitApp) apps (map traitsGivenC args) target.

  (** [doubleOf] is what the classes of traits/ wrap *)
  Lemma doubleOf_wraps v r : match v with VBig _ | VDec _ => False | _ => True end ->
    t_asFloatForm (traitsOf J v r) = (let* b := doubleOf v in Ok (doubleForm b)).
  Proof.
    destruct v as [b|c|z|z|z|z|b|b|s|q|s|z|d|t|o]; intros H; try contradiction; try reflexivity.
    - cbn. destruct (s_toString q); reflexivity.
    - cbn. destruct (instantFrom J t); reflexivity.
    - destruct o; cbn; try reflexivity; match goal with |- context [match ?x with Ok _ => _ | Err _ => _ end] => destruct x; reflexivity | |- context [bind ?x _] => destruct x; reflexivity end.
  Qed.
End WithJdk.
