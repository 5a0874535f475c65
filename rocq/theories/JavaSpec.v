(** What String.format(Locale.ROOT, ...) prints (the documentation of java.util.Formatter, Java SE 19 and later), for the directives
    both languages have and arguments of the JDK's own classes, and the calls for which fast-printf prints something else. *)
From Coq Require Import QArith.
From Verif Require Import Base Digits SeqSpec ContextM CompilerM GrammarSpec FormatterM BigDecM TraitsM ImplM FmtSpec DecSpec FloatSpec BigSpec DirSpec ScaleSpec ValueSpec WholeSpec PortSpec.
Open Scope Z_scope.

(** ** Syntax *)

(** the conversions both have under the same letter; %n and %t mean something else in Java, %i, %u, %F and %p nothing *)
Definition java_convs : list spec := [Sd; So; Sx; SX; Sc; Ss; SS; Sf; Se; SE; Sg; SG; Sa; SA].

(** no '*'; a precision has digits. (Java's numbers go up to 2^31 - 1, and it has the flags ',' and '(' and argument indices.) *)
Inductive java_width : list Z -> Z -> Prop :=
| jw_none : java_width [] UNSET
| jw_num d ds : d <> 48 -> Forall GrammarSpec.is_dec (d :: ds) -> dec_value (d :: ds) <= 65536 -> java_width (d :: ds) (dec_value (d :: ds)).
Inductive java_prec : list Z -> Z -> Prop :=
| jp_none : java_prec [] UNSET
| jp_num d ds : Forall GrammarSpec.is_dec (d :: ds) -> dec_value (d :: ds) <= 65536 -> java_prec (46 :: d :: ds) (dec_value (d :: ds)).

Definition given (fl : flags) (w p : Z) : fspec := asked fl (f_left fl) (if w =? UNSET then 0 else w) (if p =? UNSET then None else Some p).

(** a single directive *)
Inductive java_directive : list Z -> spec -> fspec -> Prop :=
| jd_text F fl W w P p s : flags_text F fl -> java_width W w -> java_prec P p -> In s java_convs ->
    java_directive (pct :: F ++ W ++ P ++ [letter s]) s (given fl w p).

(** whole format strings *)
Inductive java_format : list Z -> list appender -> Prop :=
| jf_end : java_format [] []
| jf_lit t r ds : t <> [] -> ~ In pct t -> (r = [] \/ hd_error r = Some pct) -> java_format r ds -> java_format (t ++ r) (Fixed t :: ds)
| jf_pct r ds : java_format r ds -> java_format (pct :: pct :: r) (Fixed [pct] :: ds)
| jf_dir F fl W w P p s r ds : flags_text F fl -> java_width W w -> java_prec P p -> In s java_convs -> java_format r ds ->
    java_format (pct :: F ++ W ++ P ++ letter s :: r) (Default s (mkCtx fl w p None) :: ds).

(** ** What Java accepts *)

(** The flags. '-' and '0' need a width and exclude each other, as do '+' and ' '; integers and characters have no precision;
    [big]: the sign flags are for negative numbers, and only BigIntegers are negative in octal and hexadecimal *)
Definition legal (s : spec) (big : bool) (q : fspec) : Prop :=
  (q_left q = true \/ q_zero q = true -> 0 < q_width q) /\
  ~ (q_left q = true /\ q_zero q = true) /\ ~ (q_plus q = true /\ q_space q = true) /\
  match s with
  | Sd => q_alt q = false /\ q_prec q = None
  | So | Sx | SX => q_prec q = None /\ (big = false -> q_plus q = false /\ q_space q = false)
  | Sg | SG => q_alt q = false
  | Sc => q_alt q = false /\ q_plus q = false /\ q_space q = false /\ q_zero q = false /\ q_prec q = None
  | Ss | SS => q_alt q = false /\ q_plus q = false /\ q_space q = false /\ q_zero q = false
  | _ => True
  end.

(** The classes. Characters may be given as code points. *)
Definition takes (s : spec) (v : value) : Prop :=
  match s with
  | Sd | So | Sx | SX => match v with VByte _ | VShort _ | VInt _ | VLong _ | VBig _ => True | _ => False end
  | Sc => match v with VChar _ => True | VByte z | VShort z | VInt z => 0 <= z <= 1114111 | _ => False end
  | Ss | SS => True
  | _ => match v with VFloat _ | VDouble _ => True | VDec _ => s <> Sa /\ s <> SA | _ => False end
  end.
Definition is_big (v : value) : bool := match v with VBig _ => true | _ => false end.

(** What is compared: arguments of the JDK's own classes; not %a with a precision nor %g of BigDecimal zeros with a scale, where the
    documentation does not say enough; nor %f of decimals too long for a String or, other than 0, of more than 646456992 fraction digits. *)
Definition compared (s : spec) (q : fspec) (v : value) : Prop :=
  match v with
  | VSeq _ | VChars _ | VTemporal _ | VObj _ => False
  | VDec (mkBD u sc) => (s = Sf -> printable v /\ (u = 0 \/ sc - prec_or 6 q <= 646456992)) /\ (general_conv s = true -> u = 0 -> sc = 0)
  | _ => hex_conv s = true -> q_prec q = None
  end.

(** ** What Java prints *)

(** a code point as UTF-16 units *)
Definition utf16 (z : Z) : list Z := if z <? 65536 then [z] else [55296 + (z - 65536) / 1024; 56320 + (z - 65536) mod 1024].

(** integers of [k] bits *)
Inductive sized : value -> Z -> Z -> Prop :=
| sz_byte z : sized (VByte z) 8 z
| sz_short z : sized (VShort z) 16 z
| sz_int z : sized (VInt z) 32 z
| sz_long z : sized (VLong z) 64 z.

Definition cut (q : fspec) (t : list Z) : list Z := match q_prec q with Some p => firstn (Z.to_nat p) t | None => t end.

(** to [P] significant digits, half up; zero has exponent 0 *)
Definition java_digits (x : Q) (P S X : Z) : Prop := (x == 0)%Q /\ S = 0 /\ X = 0 \/ sig_half_up x P S X.

(** Double.toHexString: the exponent of the leading bit, -1022 for subnormal doubles, 0 for zero; at least one fraction digit and no
    superfluous ones *)
Definition hex_string (b M k x : Z) : Prop :=
  (dval b * 16 ^ k == inject_Z M * 2 ^ x)%Q /\ 1 <= k /\ (k = 1 \/ M mod 16 <> 0) /\
  (if b <? 2 ^ 52 then 0 <= M < 16 ^ k /\ x = (if b =? 0 then 0 else -1022) else 16 ^ k <= M < 2 * 16 ^ k).

Definition hex_prefix (q : fspec) : list Z := if q_alt q then txt "0x" else [].
Definition octal_prefix (q : fspec) : list Z := if q_alt q then txt "0" else [].

Section Java.
  (** String.toUpperCase(Locale.ROOT) *)
  Variable up : list Z -> list Z.
  Variable J : jdk.

  Inductive value_text (s : spec) (q : fspec) : value -> list Z -> Prop :=
  (* integers *)
  | vt_d v k z : s = Sd -> sized v k z -> value_text s q v (pad_number q (q_zero q) (sign_text q (z <? 0)) (numeral 10 (Z.abs z)))
  | vt_d_big z : s = Sd -> value_text s q (VBig z) (pad_number q (q_zero q) (sign_text q (z <? 0)) (numeral 10 (Z.abs z)))
  | vt_x v k z : s = Sx \/ s = SX -> sized v k z -> value_text s q v (in_case s (pad_number q (q_zero q) (hex_prefix q) (numeral 16 (z mod 2 ^ k))))
  | vt_o v k z : s = So -> sized v k z -> value_text s q v (pad_number q (q_zero q) (octal_prefix q) (numeral 8 (z mod 2 ^ k)))
  | vt_x_big z : s = Sx \/ s = SX ->
      value_text s q (VBig z) (in_case s (pad_number q (q_zero q) (sign_text q (z <? 0) ++ hex_prefix q) (numeral 16 (Z.abs z))))
  | vt_o_big z : s = So -> value_text s q (VBig z) (pad_number q (q_zero q) (sign_text q (z <? 0) ++ octal_prefix q) (numeral 8 (Z.abs z)))
  (* characters and texts *)
  | vt_char c : s = Sc -> value_text s q (VChar c) (justify q [c])
  | vt_code v k z : s = Sc -> sized v k z -> value_text s q v (justify q (utf16 z))
  | vt_s v t : s = Ss -> is_text J v t -> value_text s q v (justify q (cut q t))
  | vt_S v t : s = SS -> is_text J v t -> value_text s q v (justify q (up (cut q t)))
  (* floating point: the decimal of Double.toString, rounded half up; a float counts as the double of the same value *)
  | vt_f v b f e N : s = Sf -> is_double J v b -> its_digits b f e -> half_up_at (dec f e) (prec_or 6 q) N ->
      value_text s q v (finite_text q (b <? 0) (pointed q N (prec_or 6 q)))
  | vt_f_dec u sc N : s = Sf -> half_up_at (dec (Z.abs u) (- sc)) (prec_or 6 q) N ->
      value_text s q (VDec (mkBD u sc)) (finite_text q (u <? 0) (pointed q N (prec_or 6 q)))
  | vt_e v b f e S X : exp_conv s = true -> is_double J v b -> its_digits b f e -> java_digits (dec f e) (prec_or 6 q + 1) S X ->
      value_text s q v (in_case s (finite_text q (b <? 0) (pointed q S (prec_or 6 q) ++ exp_text X)))
  | vt_g_fixed v b f e S X : general_conv s = true -> is_double J v b -> its_digits b f e -> java_digits (dec f e) (g_prec q) S X -> -4 <= X < g_prec q ->
      value_text s q v (in_case s (finite_text q (b <? 0) (decimal_text S (g_prec q - 1 - X))))
  | vt_g_exp v b f e S X : general_conv s = true -> is_double J v b -> its_digits b f e -> java_digits (dec f e) (g_prec q) S X -> ~ -4 <= X < g_prec q ->
      value_text s q v (in_case s (finite_text q (b <? 0) (decimal_text S (g_prec q - 1) ++ exp_text X)))
  | vt_e_dec u sc S X : exp_conv s = true -> java_digits (dec (Z.abs u) (- sc)) (prec_or 6 q + 1) S X ->
      value_text s q (VDec (mkBD u sc)) (in_case s (finite_text q (u <? 0) (pointed q S (prec_or 6 q) ++ exp_text X)))
  | vt_g_dec_fixed u sc S X : general_conv s = true -> java_digits (dec (Z.abs u) (- sc)) (g_prec q) S X -> -4 <= X < g_prec q ->
      value_text s q (VDec (mkBD u sc)) (in_case s (finite_text q (u <? 0) (decimal_text S (g_prec q - 1 - X))))
  | vt_g_dec_exp u sc S X : general_conv s = true -> java_digits (dec (Z.abs u) (- sc)) (g_prec q) S X -> ~ -4 <= X < g_prec q ->
      value_text s q (VDec (mkBD u sc)) (in_case s (finite_text q (u <? 0) (decimal_text S (g_prec q - 1) ++ exp_text X)))
  | vt_a v b M k x : hex_conv s = true -> q_prec q = None -> is_double J v b -> finite b -> hex_string (magnitude b) M k x ->
      value_text s q v (in_case s (hex_finite q (b <? 0) (hex_text M k ++ txt "p" ++ dec_text x)))
  | vt_inf v b : float_spec s = true -> is_double J v b -> magnitude b = inf_bits ->
      value_text s q v (in_case s (justify q (sign_text q (b <? 0) ++ txt "Infinity")))
  | vt_nan v : float_spec s = true -> is_nan J v -> value_text s q v (in_case s (justify q (txt "NaN"))).

  (** [java_text s q x t]: String.format prints [t]; if there is no [t], it throws an exception. [None] is null *)
  Inductive java_text (s : spec) (q : fspec) : option value -> list Z -> Prop :=
  | jt_null : legal s true q -> java_text s q None (in_case s (justify q (cut q (txt "null"))))
  | jt_value v t : takes s v -> legal s (is_big v) q -> value_text s q v t -> java_text s q (Some v) t.

  (** ** Where fast-printf does something else *)

  (** a sign of a number that is not negative can be seen: before [k] characters, a blank may just replace one of the padding *)
  Definition sign_seen (q : fspec) (k : Z) : Prop :=
    q_plus q = true \/ q_space q = true /\ (q_left q = true \/ q_zero q = true \/ q_width q <= k).

  Definition is_zero (v : value) : Prop := match v with VByte z | VShort z | VInt z | VLong z | VBig z => z = 0 | _ => False end.

  (** %#x and %#o of 0; BigIntegers in octal and hexadecimal, with a sign. In "% #05o" of BigInteger.ZERO, a blank of the padding
      stands where Java has that of the sign *)
  Definition same_blank (s : spec) (q : fspec) (v : value) : Prop :=
    s = So /\ v = VBig 0 /\ q_alt q = true /\ q_zero q = true /\ q_space q = true /\ 3 <= q_width q.
  Definition based_differs (s : spec) (q : fspec) (v : value) : Prop :=
    ~ same_blank s q v /\
    (q_alt q = true /\ is_zero v \/
     match v with
     | VBig z => z < 0 \/ 0 <= z /\ sign_seen q (match s with So => zlen (octal_prefix q) + zlen (numeral 8 z) | _ => zlen (hex_prefix q) + zlen (numeral 16 z) end)
     | _ => False
     end).

  (** digits of %g that end in zeros after the point *)
  Definition zeros_differ (q : fspec) (v : value) : Prop :=
    exists b f e S X, is_double J v b /\ its_digits b f e /\ java_digits (dec f e) (g_prec q) S X /\ S mod 10 = 0 /\
      (if (-4 <=? X) && (X <? g_prec q) then X + 1 < g_prec q else 1 < g_prec q).

  (** BigDecimals: %e of a zero with a scale, of exponent 9 with ten digits kept, of a rounded value whose scale is no int *)
  Definition big_exp_differs (q : fspec) (u sc : Z) : Prop :=
    u = 0 /\ sc <> 0 \/
    exists S X, let k := kept (Z.abs u) (prec_or 6 q + 1) in
      sig_half_up (dec (Z.abs u) (- sc)) (prec_or 6 q + 1) S X /\ (X = 9 /\ k = 10 \/ 2147483648 < X - k + 1).

  (** %g: digits that end in zeros after the point; a notation chosen by the exponent before rounding; a scale that is no int; one
      digit, rounded up to the next power of ten, in a field that is made too wide *)
  Definition leading (x : Q) (X : Z) : Prop := (x == 0)%Q /\ X = 0 \/ (10 ^ X <= x < 10 ^ (X + 1))%Q.
  Definition plain_style (q : fspec) (X : Z) : bool := (-4 <=? X) && (X <? g_prec q).
  Definition big_general_differs (q : fspec) (u sc : Z) : Prop :=
    exists S X X0, let x := dec (Z.abs u) (- sc) in java_digits x (g_prec q) S X /\ leading x X0 /\
      (S mod 10 = 0 /\ (if plain_style q X then X + 1 < g_prec q else 1 < g_prec q) \/
       plain_style q X0 <> plain_style q X \/
       plain_style q X0 = false /\ 2147483648 < X - kept (Z.abs u) (g_prec q) + 1 \/
       g_prec q = 1 /\ X0 < X /\ -4 <= X < 0 /\ zlen (sign_text q (u <? 0)) + 1 < q_width q).

  Definition infinity_differs (q : fspec) (v : value) : Prop := exists b, is_double J v b /\ magnitude b = inf_bits /\ 0 <= b /\ blank_sign q 8.

  Definition value_differs (s : spec) (q : fspec) (v : value) : Prop :=
    match s with
    | So | Sx | SX => based_differs s q v
    | Sc => match v with VInt z => 65535 < z | _ => False end
    | SS => exists t, is_text J v t /\ justify q (up (cut q t)) <> justify q (map ascii_upper (cut q t))
    | Sf => match v with
            | VDec (mkBD u sc) => u = 0 /\ sc < 0 /\
                (q_zero q = false \/ q_width q < zlen (sign_text q false) + - sc + zlen (pointed q 0 (prec_or 6 q)))
            | _ => infinity_differs q v
            end
    | Se | SE => match v with VDec (mkBD u sc) => big_exp_differs q u sc | _ => infinity_differs q v end
    | Sg | SG => match v with VDec (mkBD u sc) => big_general_differs q u sc | _ => infinity_differs q v \/ zeros_differ q v end
    | Sa | SA => infinity_differs q v \/ exists b, is_double J v b /\ finite b /\ ((dval (magnitude b) == 0)%Q \/ (1 <= dval (magnitude b))%Q)
    | _ => False
    end.

  (** ** Whole calls *)

  (** an argument as the library wraps it *)
  Inductive wraps : option value -> traits -> Prop :=
  | wr_null : wraps None nullTraits
  | wr_value v r : wraps (Some v) (traitsOf J v r).

  Inductive java_line : list appender -> list (option value) -> list Z -> Prop :=
  | jl_end args : java_line [] args []
  | jl_literal t ds args u : java_line ds args u -> java_line (Fixed t :: ds) args (t ++ u)
  | jl_directive s fl w p x args t ds u : java_text s (given fl w p) x t -> java_line ds args u ->
      java_line (Default s (mkCtx fl w p None) :: ds) (x :: args) (t ++ u).

  (** every directive is one Java accepts for its argument, and none differs *)
  Definition alike (s : spec) (q : fspec) (x : option value) : Prop :=
    match x with
    | None => text_conv s = true /\ legal s true q
    | Some v => java_value v /\ compared s q v /\ takes s v /\ legal s (is_big v) q /\ ~ value_differs s q v
    end.
  Inductive alike_calls : list appender -> list (option value) -> Prop :=
  | al_end args : alike_calls [] args
  | al_literal t ds args : alike_calls ds args -> alike_calls (Fixed t :: ds) args
  | al_directive s fl w p x args ds : alike s (given fl w p) x -> alike_calls ds args -> alike_calls (Default s (mkCtx fl w p None) :: ds) (x :: args).
End Java.
