(** What a format string consisting of one directive asks for, and what it means for a call to print a text. *)
From Verif Require Import Base Digits SeqM SeqSpec ContextM CompilerM GrammarSpec IntFormM FormatterM MathM DecimalM BigDecM TraitsM ImplM FmtSpec DecSpec FloatSpec.
From Coq Require Import QArith.
Open Scope Z_scope.

(** [directive src s q]: the text [src] is a single directive with conversion [s] and no '*', asking for [q] *)
Inductive directive : list Z -> spec -> fspec -> Prop :=
| dir_text F fl W w P p c s :
    flags_text F fl -> width_text W w -> w <> PRECEDING -> prec_text P p -> p <> PRECEDING -> conv_char c s ->
    (F ++ W ++ P = [] -> c <> pct) ->
    directive (pct :: F ++ W ++ P ++ [c]) s
      (mkSpec (f_left fl) (f_alt fl) (f_plus fl) (f_space fl) (f_zero fl)
         (if w =? UNSET then 0 else w) (if p =? UNSET then None else Some p)).

(** compiling [src] and formatting [args] gives the text [t] through every entry point: the returned String,
    a StringBuilder and any other Appendable, the latter two after what they already hold *)
Definition prints (J : jdk) (src : list Z) (args : list traits) (t : list Z) : Prop :=
  forall dtf, exists apps, compile dtf src = Ok apps /\
    ImplM.format J apps args = Ok t /\
    forall sb target, formatInto J sb apps args target = (target ++ t, None).

(** the call fails with exception [e], having appended nothing *)
Definition rejects (J : jdk) (src : list Z) (args : list traits) (e : exn) : Prop :=
  forall dtf, exists apps, compile dtf src = Ok apps /\
    ImplM.format J apps args = Err e /\
    forall sb target, formatInto J sb apps args target = (target, Some e).

(** ** The integer an argument stands for *)

Definition in_range (bits v : Z) : Prop := - 2 ^ (bits - 1) <= v < 2 ^ (bits - 1).

(** [t] is [x] without its fraction; [t] is [x] rounded half up *)
Definition truncated (x : Q) (t : Z) : Prop :=
  ((0 <= x -> inject_Z t <= x < inject_Z t + 1) /\ (x <= 0 -> inject_Z t - 1 < x <= inject_Z t))%Q.
Definition rounded (x : Q) (t : Z) : Prop := (inject_Z t - (1 # 2) <= x < inject_Z t + (1 # 2))%Q.

(** the nearest, and the congruent integer of [bits] bits *)
Definition saturated (bits t : Z) : Z := Z.max (- 2 ^ (bits - 1)) (Z.min (2 ^ (bits - 1) - 1) t).
Definition low_bits (bits z w : Z) : Prop := in_range bits w /\ w mod 2 ^ bits = z mod 2 ^ bits.

(** the double [b] made an integer of [bits] bits with the rounding [R] (JLS 5.1.3, Math.round) *)
Inductive narrowed (R : Q -> Z -> Prop) (bits b : Z) : Z -> Prop :=
| nw_nan : inf_bits < magnitude b -> narrowed R bits b 0
| nw_inf : magnitude b = inf_bits -> narrowed R bits b (if b <? 0 then - 2 ^ (bits - 1) else 2 ^ (bits - 1) - 1)
| nw_finite t : finite b -> R (sval b) t -> narrowed R bits b (saturated bits t).

(** the double [b] is the float [f] *)
Inductive same_value (f b : Z) : Prop :=
| sv_finite : widened f b -> same_value f b
| sv_inf : in_range 32 f -> f mod 2 ^ 31 = 255 * 2 ^ 23 -> b = (if f <? 0 then inf_bits - 2 ^ 63 else inf_bits) -> same_value f b
| sv_nan : in_range 32 f -> 255 * 2 ^ 23 < f mod 2 ^ 31 -> inf_bits < magnitude b -> same_value f b.

(** a decimal integer with an optional sign, the digits being those of Character.digit *)
Inductive digits_text (dig : Z -> option Z) : list Z -> Z -> Prop :=
| dt_one c d : dig c = Some d -> digits_text dig [c] d
| dt_more s n c d : digits_text dig s n -> dig c = Some d -> digits_text dig (s ++ [c]) (10 * n + d).
Inductive integer_text (dig : Z -> option Z) : list Z -> Z -> Prop :=
| nt_plain s n : hd_error s <> Some (ch "-") -> hd_error s <> Some (ch "+") -> digits_text dig s n -> integer_text dig s n
| nt_plus s n : digits_text dig s n -> integer_text dig (ch "+" :: s) n
| nt_minus s n : digits_text dig s n -> integer_text dig (ch "-" :: s) (- n).

(** the text of a CharSequence *)
Inductive chars (J : jdk) : value -> list Z -> Prop :=
| cs_str s : chars J (VStr s) s
| cs_chars s : chars J (VChars s) s
| cs_seq q s : wden q s -> chars J (VSeq q) s.

(** the instant a date or time stands for: an Instant itself, otherwise what Instant.from says *)
Definition point (J : jdk) (t : temporal) : option (Z * Z) := match t with TInstant i => Some i | _ => j_instantFrom J t end.

(** the text of an object: arrays are listed in brackets, with commas *)
Fixpoint commas (l : list (list Z)) : list Z :=
  match l with [] => [] | [t] => t | t :: r => t ++ txt ", " ++ commas r end.
Definition object_text (o : obj) : res (list Z) :=
  match o with
  | ONumber _ _ _ t => t | ODate _ _ t => t | OCalendar _ t => t | OOther t => t
  | OBytes s => Ok s
  | OChars s => Ok s
  | OPrims l => Ok (txt "[" ++ commas l ++ txt "]")
  | OArray l => Ok (txt "[" ++ commas l ++ txt "]")
  end.

(** milliseconds since 1970 *)
Inductive millis (J : jdk) : value -> Z -> Prop :=
| ms_date m i t : in_range 64 m -> millis J (VObj (ODate (Ok m) i t)) m
| ms_calendar m t : in_range 64 m -> millis J (VObj (OCalendar (Ok m) t)) m
| ms_temporal t s n : point J t = Some (s, n) -> in_range 64 (s * 1000 + n / 1000000) -> millis J (VTemporal t) (s * 1000 + n / 1000000).

(** argument [v], made an integer of [w] bits (any size if None), is [z] *)
Inductive integral (J : jdk) : value -> option Z -> Z -> Prop :=
| ii_byte z : in_range 8 z -> integral J (VByte z) (Some 8) z
| ii_short z : in_range 16 z -> integral J (VShort z) (Some 16) z
| ii_int z : in_range 32 z -> integral J (VInt z) (Some 32) z
| ii_long z : in_range 64 z -> integral J (VLong z) (Some 64) z
| ii_big z : Z.log2 (Z.abs z) < 2147483647 -> integral J (VBig z) None z
| ii_char c : 0 <= c <= 65535 -> integral J (VChar c) (Some 32) c
| ii_bool (b : bool) : integral J (VBool b) (Some 32) (if b then 1 else 0)
| ii_float f b z : same_value f b -> narrowed truncated 32 b z -> integral J (VFloat f) (Some 32) z
| ii_double b z : narrowed truncated 64 b z -> integral J (VDouble b) (Some 64) z
| ii_dec u s z : u = 0 \/ s <= 646456992 -> truncated (dec u (- s)) z -> Z.log2 (Z.abs z) < 2147483647 -> integral J (VDec (mkBD u s)) None z
| ii_chars v s z : chars J v s -> integer_text (j_digit J) s z -> in_range 64 z -> integral J v (Some 64) z
| ii_millis v m : millis J v m -> integral J v (Some 64) m
| ii_number l d i t : in_range 64 l -> integral J (VObj (ONumber (Ok l) d i t)) (Some 64) l.

(** argument [v] is the integer [z]; read as an unsigned integer of its own width, it is [n] *)
Definition is_integer (J : jdk) (v : value) (z : Z) : Prop := exists w, integral J v w z.
Definition is_unsigned (J : jdk) (v : value) (n : Z) : Prop :=
  exists w z, integral J v w z /\ match w with Some k => n = z mod 2 ^ k | None => 0 <= z /\ n = z end.

(** the int that argument [v] is where an int is needed: a '*', or %c *)
Inductive int_value (J : jdk) : value -> Z -> Prop :=
| iv_byte z : in_range 8 z -> int_value J (VByte z) z
| iv_short z : in_range 16 z -> int_value J (VShort z) z
| iv_int z : in_range 32 z -> int_value J (VInt z) z
| iv_char c : 0 <= c <= 65535 -> int_value J (VChar c) c
| iv_bool (b : bool) : int_value J (VBool b) (if b then 1 else 0)
| iv_long z w : low_bits 32 z w -> int_value J (VLong z) w
| iv_big z w : low_bits 32 z w -> int_value J (VBig z) w
| iv_float f b w : same_value f b -> narrowed rounded 32 b w -> int_value J (VFloat f) w
| iv_double b z w : narrowed rounded 64 b z -> low_bits 32 z w -> int_value J (VDouble b) w
| iv_dec u s z w : truncated (dec u (- s)) z -> low_bits 32 z w -> int_value J (VDec (mkBD u s)) w
| iv_chars v s w : chars J v s -> integer_text (j_digit J) s w -> in_range 32 w -> int_value J v w
| iv_date m i t z w : truncated (inject_Z m / 1000) z -> low_bits 32 z w -> int_value J (VObj (ODate (Ok m) i t)) w
| iv_calendar m t z w : truncated (inject_Z m / 1000) z -> low_bits 32 z w -> int_value J (VObj (OCalendar (Ok m) t)) w
| iv_temporal t s n w : point J t = Some (s, n) -> low_bits 32 s w -> int_value J (VTemporal t) w
| iv_number l d i t : in_range 32 i -> int_value J (VObj (ONumber l d (Ok i) t)) i.

(** ** The text and the character an argument stands for *)

(** the text of argument [v] (its toString) *)
Inductive is_text (J : jdk) : value -> list Z -> Prop :=
| it_str s : is_text J (VStr s) s
| it_chars s : is_text J (VChars s) s
| it_leaf a t : den_atom a t -> is_text J (VSeq (Leaf a)) t
| it_bool (b : bool) : is_text J (VBool b) (if b then txt "true" else txt "false")
| it_char c : is_text J (VChar c) [c]
| it_byte z : in_range 8 z -> is_text J (VByte z) (dec_text z)
| it_short z : in_range 16 z -> is_text J (VShort z) (dec_text z)
| it_int z : in_range 32 z -> is_text J (VInt z) (dec_text z)
| it_long z : in_range 64 z -> is_text J (VLong z) (dec_text z)
| it_big z : is_text J (VBig z) (dec_text z)
| it_float b : is_text J (VFloat b) (j_floatToString J b)
| it_double b : is_text J (VDouble b) (j_doubleToString J b)
| it_dec d : is_text J (VDec d) (j_bigDecText J d)
| it_temporal x : is_text J (VTemporal x) (j_temporalText J x)
| it_obj o t : object_text o = Ok t -> is_text J (VObj o) t.

(** the UTF-16 unit %c prints: the first of a text, or the low 16 bits of an int *)
Inductive is_char (J : jdk) : value -> Z -> Prop :=
| ic_first v c r : chars J v (c :: r) -> zlen (c :: r) <= int_max -> (forall q, v = VSeq q -> den q (c :: r)) -> is_char J v c
| ic_int v w : (forall s, ~ chars J v s) -> (forall t, v <> VTemporal t) -> int_value J v w -> is_char J v (w mod 2 ^ 16).

(** ** The floating-point number an argument stands for *)

(** argument [v] is the double with bit pattern [b]: Java's conversion to double of each class *)
Inductive is_double (J : jdk) : value -> Z -> Prop :=
| id_double b : in_range 64 b -> is_double J (VDouble b) b
| id_float f b : widened f b -> is_double J (VFloat f) b
| id_float_inf f : f mod 2 ^ 31 = 255 * 2 ^ 23 -> is_double J (VFloat f) (if f <? 0 then inf_bits - 2 ^ 63 else inf_bits)
| id_byte z b : in_range 8 z -> nearest_double (inject_Z z) b -> is_double J (VByte z) b
| id_short z b : in_range 16 z -> nearest_double (inject_Z z) b -> is_double J (VShort z) b
| id_int z b : in_range 32 z -> nearest_double (inject_Z z) b -> is_double J (VInt z) b
| id_long z b : in_range 64 z -> nearest_double (inject_Z z) b -> is_double J (VLong z) b
| id_char c b : 0 <= c <= 65535 -> nearest_double (inject_Z c) b -> is_double J (VChar c) b
| id_bool (v : bool) b : nearest_double (inject_Z (if v then 1 else 0)) b -> is_double J (VBool v) b
| id_chars v s b : chars J v s -> j_parseDouble J s = Some b -> in_range 64 b -> is_double J v b
| id_number l d i t : in_range 64 d -> is_double J (VObj (ONumber l (Ok d) i t)) d
| id_date m i t a b : in_range 64 m -> nearest_double (inject_Z m) a -> nearest_double (sval a / 1000) b -> is_double J (VObj (ODate (Ok m) i t)) b
| id_calendar m t a b : in_range 64 m -> nearest_double (inject_Z m) a -> nearest_double (sval a / 1000) b -> is_double J (VObj (OCalendar (Ok m) t)) b
| id_temporal t s n a c d b : point J t = Some (s, n) -> in_range 64 s -> 0 <= n < 1000000000 ->
    nearest_double (inject_Z s) a -> nearest_double (inject_Z n) c -> nearest_double (sval c / 1000000000) d ->
    nearest_double (sval a + sval d) b -> is_double J (VTemporal t) b.

(** the arguments that are not numbers *)
Inductive is_nan (J : jdk) : value -> Prop :=
| in_double b : in_range 64 b -> inf_bits < magnitude b -> is_nan J (VDouble b)
| in_float f : in_range 32 f -> 255 * 2 ^ 23 < f mod 2 ^ 31 -> is_nan J (VFloat f)
| in_chars v s b : chars J v s -> j_parseDouble J s = Some b -> in_range 64 b -> inf_bits < magnitude b -> is_nan J v
| in_number l d i t : in_range 64 d -> inf_bits < magnitude d -> is_nan J (VObj (ONumber l (Ok d) i t)).

Definition upper (t : list Z) : list Z := map ascii_upper t.

(** [renders J s x T]: conversion [s] of argument [x] under directive [q] is the text [T q] *)
Inductive renders (J : jdk) : spec -> traits -> (fspec -> list Z) -> Prop :=
| rn_d v z r : is_integer J v z -> renders J Sd (traitsOf J v r) (fun q => j_d q z)
| rn_u v n r : is_unsigned J v n -> renders J Su (traitsOf J v r) (fun q => c_u q n)
| rn_x v n r : is_unsigned J v n -> renders J Sx (traitsOf J v r) (fun q => j_x q n)
| rn_X v n r : is_unsigned J v n -> renders J SX (traitsOf J v r) (fun q => upper (j_x q n))
| rn_o v n r : is_unsigned J v n -> renders J So (traitsOf J v r) (fun q => j_o q n)
| rn_s v t r : is_text J v t -> zlen t <= int_max -> renders J Ss (traitsOf J v r) (fun q => c_s q t)
| rn_S v t r : is_text J v t -> zlen t <= int_max -> renders J SS (traitsOf J v r) (fun q => upper (c_s q t))
| rn_s_null : renders J Ss nullTraits (fun q => c_s q (txt "null"))
| rn_S_null : renders J SS nullTraits (fun q => upper (c_s q (txt "null")))
| rn_c v c r : is_char J v c -> renders J Sc (traitsOf J v r) (fun q => c_c q c).
