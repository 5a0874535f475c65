(** What a C implementation prints (C11 7.21.6.1 with Annex F, rounding to nearest), for the directives and arguments both languages have,
    and the calls for which fast-printf prints something else. *)
From Coq Require Import QArith.
From Verif Require Import Base Digits ContextM CompilerM FormatterM TraitsM ImplM FmtSpec DecSpec FloatSpec BigSpec DirSpec ScaleSpec ValueSpec WholeSpec.
Open Scope Z_scope.

(** ** Arguments *)

(** an argument of a C call: a signed or unsigned integer, a character, a string, a double that is not a NaN (its bit pattern), a NaN *)
Inductive carg := CInt (z : Z) | CUns (n : Z) | CChar (c : Z) | CStr (t : list Z) | CDouble (b : Z) | CNan.

(** the Java argument [x] of conversion [s] is the C argument [a] *)
Inductive means (J : jdk) (s : spec) : traits -> carg -> Prop :=
| me_int v z r : s = Sd -> is_integer J v z -> means J s (traitsOf J v r) (CInt z)
| me_uns v n r : unsigned_conv s = true -> is_unsigned J v n -> means J s (traitsOf J v r) (CUns n)
| me_char v c r : s = Sc -> is_char J v c -> means J s (traitsOf J v r) (CChar c)
| me_str v t r : s = Ss -> (forall u, v <> VSeq u) -> is_text J v t -> zlen t <= int_max -> means J s (traitsOf J v r) (CStr t)
| me_double v b r : float_spec s = true -> is_double J v b -> magnitude b <= inf_bits -> means J s (traitsOf J v r) (CDouble b)
| me_nan v r : float_spec s = true -> is_nan J v -> means J s (traitsOf J v r) CNan.

(** ** Rounding in C: the exact binary value, to nearest, ties to even *)

Definition even_at (x : Q) (p N : Z) : Prop :=
  (inject_Z N - (1 # 2) <= x * 10 ^ p <= inject_Z N + (1 # 2))%Q /\
  ((x * 10 ^ p == inject_Z N - (1 # 2))%Q \/ (x * 10 ^ p == inject_Z N + (1 # 2))%Q -> Z.even N = true).

(** to [P] significant digits; zero has exponent 0 *)
Definition sig_even (x : Q) (P S X : Z) : Prop :=
  exists X0 N, (10 ^ X0 <= x < 10 ^ (X0 + 1))%Q /\ even_at x (P - 1 - X0) N /\
    (dec S (X - P + 1) == dec N (X0 - P + 1))%Q /\ 10 ^ (P - 1) <= S < 10 ^ P.
Definition c_digits (x : Q) (P S X : Z) : Prop := (x == 0)%Q /\ S = 0 /\ X = 0 \/ sig_even x P S X.

(** ** Texts *)

Definition pointed (q : fspec) (N p : Z) : list Z := if q_alt q then alt_text N p else decimal_text N p.

(** %a: one digit, not zero for normalized doubles, [P] fraction digits; the exponent of zero is zero. Which of the possible first digits
    is printed is left open. *)
Definition hex_layout (b P M x : Z) : Prop :=
  0 <= P /\ 0 <= M < 16 * 16 ^ P /\ (2 ^ 52 <= b -> 16 ^ P <= M) /\ (b = 0 -> x = 0).
Definition hex_pointed (q : fspec) (M P : Z) : list Z :=
  numeral 16 (M / 16 ^ P) ++ (if (0 <? P) || q_alt q then txt "." else []) ++ hex_fraction P M.
Definition hex_even (v : Q) (P M x : Z) : Prop :=
  (inject_Z M - (1 # 2) <= v * 16 ^ P * 2 ^ (- x) <= inject_Z M + (1 # 2))%Q /\
  ((v * 16 ^ P * 2 ^ (- x) == inject_Z M - (1 # 2))%Q \/ (v * 16 ^ P * 2 ^ (- x) == inject_Z M + (1 # 2))%Q -> Z.even M = true).
Definition hex_finite (q : fspec) (neg : bool) (body : list Z) : list Z := pad_number q (q_zero q) (sign_text q neg ++ txt "0x") body.

(** nan, or nan( and letters, digits and underscores and ) *)
Definition nan_tail (u : list Z) : Prop :=
  u = [] \/ exists cs, u = txt "(" ++ cs ++ txt ")" /\
    Forall (fun c => 48 <= c <= 57 \/ 65 <= c <= 90 \/ 97 <= c <= 122 \/ c = ch "_") cs.

(** [c_text s q a t]: a C implementation may print [t] for argument [a] of conversion [s] under directive [q] *)
Inductive c_text (s : spec) (q : fspec) : carg -> list Z -> Prop :=
| ct_d z : s = Sd -> c_text s q (CInt z) (c_d q z)
| ct_u n : s = Su -> c_text s q (CUns n) (c_u q n)
| ct_x n : s = Sx \/ s = SX -> c_text s q (CUns n) (in_case s (c_x q n))
| ct_o n : s = So -> c_text s q (CUns n) (c_o q n)
| ct_c c : s = Sc -> c_text s q (CChar c) (c_c q c)
| ct_s t : s = Ss -> c_text s q (CStr t) (c_s q t)
| ct_f b N : fixed_conv s = true -> finite b -> even_at (dval (magnitude b)) (prec_or 6 q) N ->
    c_text s q (CDouble b) (in_case s (finite_text q (b <? 0) (pointed q N (prec_or 6 q))))
| ct_e b S X : exp_conv s = true -> finite b -> c_digits (dval (magnitude b)) (prec_or 6 q + 1) S X ->
    c_text s q (CDouble b) (in_case s (finite_text q (b <? 0) (pointed q S (prec_or 6 q) ++ exp_text X)))
| ct_g_fixed b S X : general_conv s = true -> finite b -> c_digits (dval (magnitude b)) (g_prec q) S X -> -4 <= X < g_prec q ->
    c_text s q (CDouble b) (in_case s (finite_text q (b <? 0) (g_text q S (g_prec q - 1 - X))))
| ct_g_exp b S X : general_conv s = true -> finite b -> c_digits (dval (magnitude b)) (g_prec q) S X -> ~ -4 <= X < g_prec q ->
    c_text s q (CDouble b) (in_case s (finite_text q (b <? 0) (g_text q S (g_prec q - 1) ++ exp_text X)))
| ct_a_exact b P M x : hex_conv s = true -> finite b -> q_prec q = None -> hex_layout (magnitude b) P M x ->
    (dval (magnitude b) * 16 ^ P == inject_Z M * 2 ^ x)%Q ->
    c_text s q (CDouble b) (in_case s (hex_finite q (b <? 0) (hex_pointed q M P ++ bin_exp_text x)))
| ct_a b P M x : hex_conv s = true -> finite b -> q_prec q = Some P -> hex_layout (magnitude b) P M x ->
    hex_even (dval (magnitude b)) P M x ->
    c_text s q (CDouble b) (in_case s (hex_finite q (b <? 0) (hex_pointed q M P ++ bin_exp_text x)))
| ct_inf b w : float_spec s = true -> magnitude b = inf_bits -> w = txt "inf" \/ w = txt "infinity" ->
    c_text s q (CDouble b) (in_case s (justify q (sign_text q (b <? 0) ++ w)))
| ct_nan u : float_spec s = true -> nan_tail u -> c_text s q CNan (in_case s (justify q (sign_text q false ++ txt "nan" ++ u))).

(** ** Where fast-printf prints something else *)

(** the decimal fast-printf rounds (half up) and the value C rounds end up at different digits *)
Definition rounds_apart (s : spec) (q : fspec) (b : Z) : Prop :=
  exists f e, its_digits b f e /\
    if fixed_conv s then exists N M, half_up_at (dec f e) (prec_or 6 q) N /\ even_at (dval (magnitude b)) (prec_or 6 q) M /\ N <> M
    else exists S X S' X', let P := if exp_conv s then prec_or 6 q + 1 else g_prec q in
      sig_half_up (dec f e) P S X /\ sig_even (dval (magnitude b)) P S' X' /\ (S <> S' \/ X <> X').

(** %#g in exponent style, with one digit or with fewer digits than asked for *)
Definition short_of_digits (q : fspec) (b : Z) : Prop :=
  q_alt q = true /\ exists f e S X, its_digits b f e /\ sig_half_up (dec f e) (g_prec q) S X /\ ~ -4 <= X < g_prec q /\
    (g_prec q = 1 \/ ndigits f < g_prec q).

(** a blank in the place of the sign that does not just replace a blank of the padding before [k] characters *)
Definition blank_sign (q : fspec) (k : Z) : Prop := q_plus q = false /\ q_space q = true /\ (q_left q = true \/ q_width q <= k).

Definition departs (s : spec) (q : fspec) (a : carg) : Prop :=
  match a with
  | CInt z => z = 0 /\ q_prec q = Some 0 /\ q_plus q = false /\ q_space q = true /\ q_width q = 0
  | CUns n => n = 0 /\ q_alt q = true /\
      match s with
      | Sx | SX => q_prec q = None /\ q_zero q = true /\ q_left q = false /\ 2 <= q_width q
      | So => match q_prec q with Some p => p <> 1 | None => q_zero q = true /\ q_left q = false /\ 2 <= q_width q end
      | _ => False
      end
  | CChar _ | CStr _ => False
  | CDouble b =>
      magnitude b = inf_bits /\ (is_upper s = false \/ 0 <= b /\ blank_sign q 8) \/
      finite b /\ (hex_conv s = true /\ q_prec q = Some 0 \/
        hex_conv s = false /\ (rounds_apart s q b \/ general_conv s = true /\ short_of_digits q b))
  | CNan => is_upper s = false \/ q_plus q = true \/ blank_sign q 3
  end.

(** the rounding of fixed notation, by midpoints: one lies between value and decimal, or the value is one *)
Definition midpoint_apart (x d : Q) (p : Z) : Prop :=
  exists K, let T := (inject_Z K + (1 # 2))%Q in
    (x * 10 ^ p < T <= d * 10 ^ p \/ d * 10 ^ p < T < x * 10 ^ p \/
     x * 10 ^ p == T /\ if Z.even K then T <= d * 10 ^ p else d * 10 ^ p < T)%Q.

(** ** Whole calls *)

(** the lines C implementations may print for the format [ds] and the arguments [args] *)
Inductive c_line (J : jdk) : list appender -> list traits -> list Z -> Prop :=
| cl_end args : c_line J [] args []
| cl_literal t ds args u : c_line J ds args u -> c_line J (Fixed t :: ds) args (t ++ u)
| cl_directive s fl w p d args l w' a1 p' x rest a t ds u :
    width_is J (f_left fl) w args (Ok (l, w', a1)) -> prec_is J p a1 (Ok (p', x :: rest)) -> means J s x a ->
    c_text s (asked fl l w' p') a t -> c_line J ds rest u -> c_line J (Default s (mkCtx fl w p d) :: ds) args (t ++ u).

(** every directive has an argument C has, and none departs *)
Inductive portable (J : jdk) : list appender -> list traits -> Prop :=
| po_end args : portable J [] args
| po_literal t ds args : portable J ds args -> portable J (Fixed t :: ds) args
| po_directive s fl w p d args l w' a1 p' x rest a ds :
    width_is J (f_left fl) w args (Ok (l, w', a1)) -> prec_is J p a1 (Ok (p', x :: rest)) -> means J s x a ->
    ~ departs s (asked fl l w' p') a -> portable J ds rest -> portable J (Default s (mkCtx fl w p d) :: ds) args.
