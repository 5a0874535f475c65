(** One reference for whole calls: what is printed and which exception ends the call, for every format string and all arguments. *)
From Coq Require Import QArith.
From Verif Require Import Base Digits SeqM SeqSpec ContextM CompilerM GrammarSpec FormatterM MathM DecimalM BigDecM TraitsM ImplM
  FmtSpec DecSpec FloatSpec BigSpec DirSpec LoopSpec ExactSpec ScaleSpec ValueSpec.
Open Scope Z_scope.

(** upper-case conversions *)
Definition is_upper (s : spec) : bool := match s with SX | SF | SE | SG | SA | SS | ST => true | _ => false end.
Definition in_case (s : spec) (t : list Z) : list Z := if is_upper s then map ascii_upper t else t.

(** the groups of conversions *)
Definition unsigned_conv (s : spec) : bool := match s with Su | Sx | SX | So => true | _ => false end.
Definition integer_conv (s : spec) : bool := match s with Sd => true | _ => unsigned_conv s end.
Definition fixed_conv (s : spec) : bool := match s with Sf | SF => true | _ => false end.
Definition exp_conv (s : spec) : bool := match s with Se | SE => true | _ => false end.
Definition general_conv (s : spec) : bool := match s with Sg | SG => true | _ => false end.
Definition hex_conv (s : spec) : bool := match s with Sa | SA => true | _ => false end.
Definition float_spec (s : spec) : bool := fixed_conv s || exp_conv s || general_conv s || hex_conv s.
Definition text_conv (s : spec) : bool := match s with Ss | SS => true | _ => false end.
Definition date_conv (s : spec) : bool := match s with St | ST => true | _ => false end.

(** %f of a BigDecimal: a zero of negative scale is preceded by as many zeros *)
Definition b_f (q : fspec) (u sc : Z) : list Z :=
  let p := prec_or 6 q in
  let N := hup (Z.abs u) (- (- sc + p)) in
  finite_text q (u <? 0) ((if u =? 0 then zeros (- sc) else []) ++ (if q_alt q then alt_text N p else decimal_text N p)).

(** ** One conversion *)

(** [shown J s pat q x o]: conversion [s] (with date pattern [pat]) under directive [q] shows argument [x] as the text, or refuses it
    with the exception [o] *)
Inductive shown (J : jdk) (s : spec) (pat : option (list Z)) (q : fspec) : traits -> res (list Z) -> Prop :=
(* integers *)
| sh_signed v z r : s = Sd -> is_integer J v z -> shown J s pat q (traitsOf J v r) (Ok (j_d q z))
| sh_unsigned v n r : s = Su -> is_unsigned J v n -> shown J s pat q (traitsOf J v r) (Ok (c_u q n))
| sh_hex v n r : s = Sx \/ s = SX -> is_unsigned J v n -> shown J s pat q (traitsOf J v r) (Ok (in_case s (j_x q n)))
| sh_octal v n r : s = So -> is_unsigned J v n -> shown J s pat q (traitsOf J v r) (Ok (j_o q n))
| sh_negative v z r : unsigned_conv s = true -> integral J v None z -> z < 0 -> shown J s pat q (traitsOf J v r) (Err (Printf NegativeUnsigned))
| sh_not_integer v e r : integer_conv s = true -> not_integer J v e -> shown J s pat q (traitsOf J v r) (Err e)
(* characters and texts *)
| sh_char v c r : s = Sc -> is_char J v c -> shown J s pat q (traitsOf J v r) (Ok (justify q [c]))
| sh_not_char v r : s = Sc -> java_value v -> not_char J v -> shown J s pat q (traitsOf J v r) (Err (Printf BadConversion))
| sh_char_fails o e r : s = Sc -> fails_int o e -> shown J s pat q (traitsOf J (VObj o) r) (Err e)
| sh_text v t r : text_conv s = true -> (forall u, v <> VSeq u) -> is_text J v t -> zlen t <= int_max ->
    shown J s pat q (traitsOf J v r) (Ok (in_case s (c_s q t)))
| sh_seq u t ts r : text_conv s = true -> den u t -> Forall2 den_atom (leaves u) ts ->
    shown J s pat q (traitsOf J (VSeq u) r) (Ok (in_case s (seq_text q t ts)))
| sh_no_text o e r : text_conv s = true -> object_text o = Err e -> shown J s pat q (traitsOf J (VObj o) r) (Err e)
(* floating point *)
| sh_fixed v b f e r : fixed_conv s = true -> is_double J v b -> its_digits b f e ->
    shown J s pat q (traitsOf J v r) (Ok (in_case s (c_f q (b <? 0) f e)))
| sh_exp v b f e r : exp_conv s = true -> is_double J v b -> its_digits b f e ->
    shown J s pat q (traitsOf J v r) (Ok (in_case s (c_e q (b <? 0) f e)))
| sh_general v b f e r : general_conv s = true -> is_double J v b -> its_digits b f e ->
    shown J s pat q (traitsOf J v r) (Ok (in_case s (j_g q (b <? 0) f e)))
| sh_hexfloat v b r : hex_conv s = true -> is_double J v b -> finite b ->
    shown J s pat q (traitsOf J v r) (Ok (in_case s (j_a q (b <? 0) (magnitude b))))
| sh_infinite v b r : float_spec s = true -> is_double J v b -> magnitude b = inf_bits ->
    shown J s pat q (traitsOf J v r) (Ok (in_case s (j_inf q (b <? 0))))
| sh_nan v r : float_spec s = true -> is_nan J v -> shown J s pat q (traitsOf J v r) (Ok (in_case s (c_nan q)))
| sh_big_fixed v u sc r : fixed_conv s = true -> printable v -> is_decimal v u sc -> u = 0 \/ sc - prec_or 6 q <= 646456992 ->
    shown J s pat q (traitsOf J v r) (Ok (in_case s (b_f q u sc)))
| sh_big_tiny v u sc r : fixed_conv s = true -> is_decimal v u sc -> u <> 0 -> 646456992 < sc - prec_or 6 q ->
    shown J s pat q (traitsOf J v r) (Err (OtherExn 1))
| sh_big_exp v u sc r : exp_conv s = true -> is_decimal v u sc -> last_exp (Z.abs u) (- sc) (prec_or 6 q + 1) <= 2147483648 ->
    shown J s pat q (traitsOf J v r) (Ok (in_case s (b_e q (u <? 0) (Z.abs u) (- sc))))
| sh_big_exp_huge v u sc r : exp_conv s = true -> is_decimal v u sc -> 2147483648 < last_exp (Z.abs u) (- sc) (prec_or 6 q + 1) ->
    shown J s pat q (traitsOf J v r) (Err (OtherExn 1))
| sh_big_general v u sc r : general_conv s = true -> is_decimal v u sc ->
    bg_positional (Z.abs u) (- sc) (g_prec q) = true \/ last_exp (Z.abs u) (- sc) (g_prec q) <= 2147483648 ->
    shown J s pat q (traitsOf J v r) (Ok (in_case s (b_g q (u <? 0) (Z.abs u) (- sc))))
| sh_big_general_huge v u sc r : general_conv s = true -> is_decimal v u sc -> bg_positional (Z.abs u) (- sc) (g_prec q) = false ->
    2147483648 < last_exp (Z.abs u) (- sc) (g_prec q) -> shown J s pat q (traitsOf J v r) (Err (OtherExn 1))
| sh_big_hex v u sc r : hex_conv s = true -> is_decimal v u sc -> shown J s pat q (traitsOf J v r) (Err (Printf NotHex))
| sh_not_float v r : float_spec s = true -> not_float J v -> shown J s pat q (traitsOf J v r) (Err (Printf BadConversion))
| sh_float_fails o e r : float_spec s = true -> fails_double o e -> shown J s pat q (traitsOf J (VObj o) r) (Err e)
(* dates *)
| sh_date v t d r : date_conv s = true -> is_temporal v t -> dated J pat t (Ok d) -> shown J s pat q (traitsOf J v r) (Ok (in_case s (justify q d)))
| sh_date_fails v t e r : date_conv s = true -> is_temporal v t -> dated J pat t (Err e) -> shown J s pat q (traitsOf J v r) (Err e)
| sh_not_date v e r : date_conv s = true -> not_temporal J v e -> shown J s pat q (traitsOf J v r) (Err e)
(* objects *)
| sh_pointer v name hash : s = Sp -> ref_ok (RObj name hash) -> shown J s pat q (traitsOf J v (RObj name hash)) (Ok (justify q (pointer_text name hash)))
| sh_no_pointer v : s = Sp -> shown J s pat q (traitsOf J v RNull) (Ok (justify q (txt "null")))
| sh_primitive v : s = Sp -> shown J s pat q (traitsOf J v RPrimitive) (Err (Printf PrimitivePointer))
(* null *)
| sh_null_text : text_conv s = true -> shown J s pat q nullTraits (Ok (in_case s (c_s q (txt "null"))))
| sh_null_pointer : s = Sp -> shown J s pat q nullTraits (Ok (justify q (txt "null")))
| sh_null : integer_conv s || float_spec s || date_conv s = true \/ s = Sc -> shown J s pat q nullTraits (Err (Printf BadConversion))
(* the argument is not looked at *)
| sh_nothing x : s = Sn -> shown J s pat q x (Ok [])
| sh_percent x : s = Spct -> shown J s pat q x (Ok (txt "%")).

(** ** '*' *)

(** the int of an argument *)
Inductive star_arg (J : jdk) : traits -> res Z -> Prop :=
| st_int v w r : int_value J v w -> star_arg J (traitsOf J v r) (Ok w)
| st_not_int v r : not_int J v -> star_arg J (traitsOf J v r) (Err (Printf BadConversion))
| st_fails o e r : fails_int o e -> star_arg J (traitsOf J (VObj o) r) (Err e)
| st_null : star_arg J nullTraits (Err (Printf BadConversion)).

(** the next argument, as an int, and the arguments after it *)
Inductive taken (J : jdk) : list traits -> res (Z * list traits) -> Prop :=
| tk_missing : taken J [] (Err (Printf MissingArg))
| tk_int x rest w : star_arg J x (Ok w) -> taken J (x :: rest) (Ok (w, rest))
| tk_not_int x rest e : star_arg J x (Err e) -> taken J (x :: rest) (Err e).

(** the '-' flag and the width, given the flag and the width of the directive, and the arguments after them *)
Inductive width_is (J : jdk) (l : bool) : Z -> list traits -> res (bool * Z * list traits) -> Prop :=
| wi_none args : width_is J l UNSET args (Ok (l, 0, args))
| wi_number n args : 0 <= n -> width_is J l n args (Ok (l, n, args))
| wi_star n args rest : taken J args (Ok (n, rest)) -> 0 <= n <= 65536 -> width_is J l PRECEDING args (Ok (l, n, rest))
| wi_negative n args rest : taken J args (Ok (- n, rest)) -> 0 < n <= 65536 -> width_is J l PRECEDING args (Ok (true, n, rest))
| wi_smallest args rest : taken J args (Ok (- 2 ^ 31, rest)) -> width_is J l PRECEDING args (Ok (true, 0, rest))
| wi_range n args rest : taken J args (Ok (n, rest)) -> 65536 < Z.abs n -> n <> - 2 ^ 31 -> width_is J l PRECEDING args (Err (Printf WidthRange))
| wi_fails args e : taken J args (Err e) -> width_is J l PRECEDING args (Err e).

(** the precision *)
Inductive prec_is (J : jdk) : Z -> list traits -> res (option Z * list traits) -> Prop :=
| pi_none args : prec_is J UNSET args (Ok (None, args))
| pi_number n args : 0 <= n -> prec_is J n args (Ok (Some n, args))
| pi_star n args rest : taken J args (Ok (n, rest)) -> 0 <= n <= 65536 -> prec_is J PRECEDING args (Ok (Some n, rest))
| pi_negative n args rest : taken J args (Ok (n, rest)) -> n < 0 -> prec_is J PRECEDING args (Ok (None, rest))
| pi_range n args rest : taken J args (Ok (n, rest)) -> 65536 < n -> prec_is J PRECEDING args (Err (Printf PrecisionRange))
| pi_fails args e : taken J args (Err e) -> prec_is J PRECEDING args (Err e).

(** ** Pieces and whole calls *)

Definition asked (fl : flags) (l : bool) (w : Z) (p : option Z) : fspec := mkSpec l (f_alt fl) (f_plus fl) (f_space fl) (f_zero fl) w p.

(** what one piece of a format string prints, and the arguments it leaves *)
Inductive piece (J : jdk) : appender -> list traits -> res (list Z * list traits) -> Prop :=
| pc_literal t args : piece J (Fixed t) args (Ok (t, args))
| pc_width_fails s fl w p d args e : width_is J (f_left fl) w args (Err e) -> piece J (Default s (mkCtx fl w p d)) args (Err e)
| pc_prec_fails s fl w p d args l w' a1 e : width_is J (f_left fl) w args (Ok (l, w', a1)) -> prec_is J p a1 (Err e) ->
    piece J (Default s (mkCtx fl w p d)) args (Err e)
| pc_missing s fl w p d args l w' a1 p' : width_is J (f_left fl) w args (Ok (l, w', a1)) -> prec_is J p a1 (Ok (p', [])) ->
    piece J (Default s (mkCtx fl w p d)) args (Err (Printf MissingArg))
| pc_refused s fl w p d args l w' a1 p' x rest e : width_is J (f_left fl) w args (Ok (l, w', a1)) -> prec_is J p a1 (Ok (p', x :: rest)) ->
    shown J s d (asked fl l w' p') x (Err e) -> piece J (Default s (mkCtx fl w p d)) args (Err e)
| pc_shown s fl w p d args l w' a1 p' x rest t : width_is J (f_left fl) w args (Ok (l, w', a1)) -> prec_is J p a1 (Ok (p', x :: rest)) ->
    shown J s d (asked fl l w' p') x (Ok t) -> piece J (Default s (mkCtx fl w p d)) args (Ok (t, rest)).

(** the text printed, and the exception that ends the call, if any *)
Inductive says (J : jdk) : list appender -> list traits -> list Z -> option exn -> Prop :=
| sy_end args : says J [] args [] None
| sy_piece d ds args t rest u o : piece J d args (Ok (t, rest)) -> says J ds rest u o -> says J (d :: ds) args (t ++ u) o
| sy_stop d ds args e : piece J d args (Err e) -> says J (d :: ds) args [] (Some e).
