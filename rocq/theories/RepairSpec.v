(** What calls of the repaired library have to do: WholeSpec.v with C's texts in place of fast-printf's departures from them. *)
From Coq Require Import QArith.
From Verif Require Import Base Digits SeqM SeqSpec ContextM CompilerM GrammarSpec FormatterM MathM DecimalM BigDecM TraitsM ImplM
  FmtSpec DecSpec FloatSpec BigSpec DirSpec LoopSpec ExactSpec ScaleSpec ValueSpec WholeSpec RepairM.
Open Scope Z_scope.

(** the last of the digits asked for has a scale that is an int *)
Definition scale_fits (u sc P : Z) : Prop := u = 0 \/ last_exp (Z.abs u) (- sc) P <= 2147483648.

Inductive meant (J : jdk) (s : spec) (pat : option (list Z)) (q : fspec) : given -> res (list Z) -> Prop :=
(* integers: C's texts *)
| mn_signed v z r : s = Sd -> is_integer J v z -> meant J s pat q (Given v r) (Ok (c_d q z))
| mn_unsigned v n r : s = Su -> is_unsigned J v n -> meant J s pat q (Given v r) (Ok (c_u q n))
| mn_hex v n r : s = Sx \/ s = SX -> is_unsigned J v n -> meant J s pat q (Given v r) (Ok (in_case s (c_x q n)))
| mn_octal v n r : s = So -> is_unsigned J v n -> meant J s pat q (Given v r) (Ok (c_o q n))
| mn_negative v z r : unsigned_conv s = true -> integral J v None z -> z < 0 -> meant J s pat q (Given v r) (Err (Printf NegativeUnsigned))
| mn_not_integer v e r : integer_conv s = true -> not_integer J v e -> meant J s pat q (Given v r) (Err e)
(* characters and texts: C's texts, for a Seq as for any other text *)
| mn_char v c r : s = Sc -> is_char J v c -> meant J s pat q (Given v r) (Ok (justify q [c]))
| mn_not_char v r : s = Sc -> java_value v -> not_char J v -> meant J s pat q (Given v r) (Err (Printf BadConversion))
| mn_char_fails o e r : s = Sc -> fails_int o e -> meant J s pat q (Given (VObj o) r) (Err e)
| mn_text v t r : text_conv s = true -> (forall u, v <> VSeq u) -> is_text J v t -> zlen t <= int_max ->
    meant J s pat q (Given v r) (Ok (in_case s (c_s q t)))
| mn_seq u t r : text_conv s = true -> den u t -> meant J s pat q (Given (VSeq u) r) (Ok (in_case s (c_s q t)))
| mn_no_text o e r : text_conv s = true -> object_text o = Err e -> meant J s pat q (Given (VObj o) r) (Err e)
(* floating point: C's texts of the digits that identify the double *)
| mn_fixed v b f e r : fixed_conv s = true -> is_double J v b -> its_digits b f e ->
    meant J s pat q (Given v r) (Ok (in_case s (c_f q (b <? 0) f e)))
| mn_exp v b f e r : exp_conv s = true -> is_double J v b -> its_digits b f e ->
    meant J s pat q (Given v r) (Ok (in_case s (c_e q (b <? 0) f e)))
| mn_general v b f e r : general_conv s = true -> is_double J v b -> its_digits b f e ->
    meant J s pat q (Given v r) (Ok (in_case s (c_g q (b <? 0) f e)))
| mn_hexfloat v b r : hex_conv s = true -> is_double J v b -> finite b ->
    meant J s pat q (Given v r) (Ok (in_case s (j_a q (b <? 0) (magnitude b))))
| mn_infinite v b r : float_spec s = true -> is_double J v b -> magnitude b = inf_bits ->
    meant J s pat q (Given v r) (Ok (in_case s (c_inf q (b <? 0))))
| mn_nan v r : float_spec s = true -> is_nan J v -> meant J s pat q (Given v r) (Ok (in_case s (c_nan q)))
(* BigDecimals and BigIntegers: C's texts of the exact decimal; a zero has no scale *)
| mn_big_fixed v u sc r : fixed_conv s = true -> printable v -> is_decimal v u sc ->
    meant J s pat q (Given v r) (Ok (in_case s (c_f q (u <? 0) (Z.abs u) (- sc))))
| mn_big_exp v u sc r : exp_conv s = true -> is_decimal v u sc -> scale_fits u sc (prec_or 6 q + 1) ->
    meant J s pat q (Given v r) (Ok (in_case s (c_e q (u <? 0) (Z.abs u) (- sc))))
| mn_big_exp_huge v u sc r : exp_conv s = true -> is_decimal v u sc -> ~ scale_fits u sc (prec_or 6 q + 1) ->
    meant J s pat q (Given v r) (Err (OtherExn 1))
| mn_big_general v u sc r : general_conv s = true -> is_decimal v u sc -> scale_fits u sc (g_prec q) ->
    meant J s pat q (Given v r) (Ok (in_case s (c_g q (u <? 0) (Z.abs u) (- sc))))
| mn_big_general_huge v u sc r : general_conv s = true -> is_decimal v u sc -> ~ scale_fits u sc (g_prec q) ->
    meant J s pat q (Given v r) (Err (OtherExn 1))
| mn_big_hex v u sc r : hex_conv s = true -> is_decimal v u sc -> meant J s pat q (Given v r) (Err (Printf NotHex))
| mn_not_float v r : float_spec s = true -> not_float J v -> meant J s pat q (Given v r) (Err (Printf BadConversion))
| mn_float_fails o e r : float_spec s = true -> fails_double o e -> meant J s pat q (Given (VObj o) r) (Err e)
(* dates *)
| mn_date v t d r : date_conv s = true -> is_temporal v t -> dated J pat t (Ok d) -> meant J s pat q (Given v r) (Ok (in_case s (justify q d)))
| mn_date_fails v t e r : date_conv s = true -> is_temporal v t -> dated J pat t (Err e) -> meant J s pat q (Given v r) (Err e)
| mn_not_date v e r : date_conv s = true -> not_temporal J v e -> meant J s pat q (Given v r) (Err e)
(* objects *)
| mn_pointer v name hash : s = Sp -> ref_ok (RObj name hash) -> meant J s pat q (Given v (RObj name hash)) (Ok (justify q (pointer_text name hash)))
| mn_no_pointer v : s = Sp -> meant J s pat q (Given v RNull) (Ok (justify q (txt "null")))
| mn_primitive v : s = Sp -> meant J s pat q (Given v RPrimitive) (Err (Printf PrimitivePointer))
(* null *)
| mn_null_text : text_conv s = true -> meant J s pat q Null (Ok (in_case s (c_s q (txt "null"))))
| mn_null_pointer : s = Sp -> meant J s pat q Null (Ok (justify q (txt "null")))
| mn_null : integer_conv s || float_spec s || date_conv s = true \/ s = Sc -> meant J s pat q Null (Err (Printf BadConversion))
(* the argument is not looked at *)
| mn_nothing x : s = Sn -> meant J s pat q x (Ok [])
| mn_percent x : s = Spct -> meant J s pat q x (Ok (txt "%")).

(** the next argument, as an int, and the arguments after it *)
Inductive takes (J : jdk) : list given -> res (Z * list given) -> Prop :=
| ts_missing : takes J [] (Err (Printf MissingArg))
| ts_int v w r rest : int_value J v w -> takes J (Given v r :: rest) (Ok (w, rest))
| ts_not_int v r rest : not_int J v -> takes J (Given v r :: rest) (Err (Printf BadConversion))
| ts_fails o e r rest : fails_int o e -> takes J (Given (VObj o) r :: rest) (Err e)
| ts_null rest : takes J (Null :: rest) (Err (Printf BadConversion)).

(** widths and precisions: those over 65536 are refused, whatever their sign *)
Inductive width_meant (J : jdk) (l : bool) : Z -> list given -> res (bool * Z * list given) -> Prop :=
| wm_none args : width_meant J l UNSET args (Ok (l, 0, args))
| wm_number n args : 0 <= n -> width_meant J l n args (Ok (l, n, args))
| wm_star n args rest : takes J args (Ok (n, rest)) -> 0 <= n <= 65536 -> width_meant J l PRECEDING args (Ok (l, n, rest))
| wm_negative n args rest : takes J args (Ok (- n, rest)) -> 0 < n <= 65536 -> width_meant J l PRECEDING args (Ok (true, n, rest))
| wm_range n args rest : takes J args (Ok (n, rest)) -> 65536 < Z.abs n -> width_meant J l PRECEDING args (Err (Printf WidthRange))
| wm_fails args e : takes J args (Err e) -> width_meant J l PRECEDING args (Err e).

Inductive prec_meant (J : jdk) : Z -> list given -> res (option Z * list given) -> Prop :=
| pm_none args : prec_meant J UNSET args (Ok (None, args))
| pm_number n args : 0 <= n -> prec_meant J n args (Ok (Some n, args))
| pm_star n args rest : takes J args (Ok (n, rest)) -> 0 <= n <= 65536 -> prec_meant J PRECEDING args (Ok (Some n, rest))
| pm_negative n args rest : takes J args (Ok (n, rest)) -> n < 0 -> prec_meant J PRECEDING args (Ok (None, rest))
| pm_range n args rest : takes J args (Ok (n, rest)) -> 65536 < n -> prec_meant J PRECEDING args (Err (Printf PrecisionRange))
| pm_fails args e : takes J args (Err e) -> prec_meant J PRECEDING args (Err e).

Inductive piece_meant (J : jdk) : appender -> list given -> res (list Z * list given) -> Prop :=
| pn_literal t args : piece_meant J (Fixed t) args (Ok (t, args))
| pn_width_fails s fl w p d args e : width_meant J (f_left fl) w args (Err e) -> piece_meant J (Default s (mkCtx fl w p d)) args (Err e)
| pn_prec_fails s fl w p d args l w' a1 e : width_meant J (f_left fl) w args (Ok (l, w', a1)) -> prec_meant J p a1 (Err e) ->
    piece_meant J (Default s (mkCtx fl w p d)) args (Err e)
| pn_missing s fl w p d args l w' a1 p' : width_meant J (f_left fl) w args (Ok (l, w', a1)) -> prec_meant J p a1 (Ok (p', [])) ->
    piece_meant J (Default s (mkCtx fl w p d)) args (Err (Printf MissingArg))
| pn_refused s fl w p d args l w' a1 p' x rest e : width_meant J (f_left fl) w args (Ok (l, w', a1)) -> prec_meant J p a1 (Ok (p', x :: rest)) ->
    meant J s d (asked fl l w' p') x (Err e) -> piece_meant J (Default s (mkCtx fl w p d)) args (Err e)
| pn_shown s fl w p d args l w' a1 p' x rest t : width_meant J (f_left fl) w args (Ok (l, w', a1)) -> prec_meant J p a1 (Ok (p', x :: rest)) ->
    meant J s d (asked fl l w' p') x (Ok t) -> piece_meant J (Default s (mkCtx fl w p d)) args (Ok (t, rest)).

Inductive means (J : jdk) : list appender -> list given -> list Z -> option exn -> Prop :=
| ms_end args : means J [] args [] None
| ms_piece d ds args t rest u o : piece_meant J d args (Ok (t, rest)) -> means J ds rest u o -> means J (d :: ds) args (t ++ u) o
| ms_stop d ds args e : piece_meant J d args (Err e) -> means J (d :: ds) args [] (Some e).

(** ** The arguments whose text a repair changes *)

(** when fast-printf's %g of the decimal f * 10^e, [neg]ative or not, is not C's. [X0] and [X] are the decimal exponents before and after
    rounding to [P] digits, [k] is the number of digits that remain. *)
Definition g_differs (q : fspec) (neg : bool) (f e : Z) : bool :=
  let P := g_prec q in
  let X0 := ndigits f + e - 1 in
  let k := Z.min (ndigits f) P in
  let (S, X) := sig f e P in
  let plain x := (-4 <=? x) && (x <? P) in
  if f =? 0 then negb (e =? 0)                                               (* a zero with a scale *)
  else if negb (Bool.eqb (plain X0) (plain X)) then true                     (* style chosen before rounding *)
  else if q_alt q then
    if plain X then negb (X =? X0) && (X0 <? 0)                              (* a carry gives one digit too many *)
    else (k <? P) || (P =? 1)                                                (* digits not filled up; no point *)
  else                                                                       (* a field too wide if some, not all fraction digits are cut off *)
    let r := snd (drop_zeros (Z.to_nat (if plain X then P - 1 - X else P - 1)) S) in
    let j := if plain X then k - 1 - X0 else k - 1 in
    let lead := if plain X then (if X <? 0 then 1 - X else X + 2) else 2 in
    (0 <? r) && (r <? j) && (zlen (sign_text q neg) + zlen (g_body q f e) <? q_width q + lead).

Inductive touched (J : jdk) (s : spec) (q : fspec) : given -> Prop :=
| to_signed v r : s = Sd -> is_integer J v 0 -> d_irregular q 0 = true -> q_width q = 0 -> touched J s q (Given v r)
| to_hex v r : s = Sx \/ s = SX -> is_unsigned J v 0 -> x_irregular q 0 = true -> 2 <= q_width q -> touched J s q (Given v r)
| to_octal v r : s = So -> is_unsigned J v 0 -> o_irregular q 0 = true ->
    match q_prec q with Some p => p <> 1 | None => 2 <= q_width q end -> touched J s q (Given v r)
| to_seq u t ts p r : text_conv s = true -> den u t -> Forall2 den_atom (leaves u) ts -> q_prec q = Some p -> p < zlen t ->
    0 < leaf_start ts p -> p < q_width q + leaf_start ts p -> touched J s q (Given (VSeq u) r)
| to_infinite v b r : float_spec s = true -> is_double J v b -> magnitude b = inf_bits -> 0 <= b -> q_space q = true -> q_plus q = false ->
    q_left q = true \/ q_width q <= 8 -> touched J s q (Given v r)
| to_general v b f e r : general_conv s = true -> is_double J v b -> its_digits b f e -> g_irregular q f e = true ->
    g_prec q = 1 \/ ndigits f < g_prec q -> touched J s q (Given v r)
| to_big_fixed v sc r : fixed_conv s = true -> printable v -> is_decimal v 0 sc -> sc < 0 ->
    q_zero q = false \/ q_left q = true \/ q_width q < zlen (sign_text q false) - sc + zlen (f_body q 0 0) -> touched J s q (Given v r)
| to_big_tiny v u sc r : fixed_conv s = true -> printable v -> is_decimal v u sc -> u <> 0 -> 646456992 < sc - prec_or 6 q ->
    touched J s q (Given v r)
| to_big_zero v sc r : exp_conv s = true -> is_decimal v 0 sc -> sc <> 0 -> touched J s q (Given v r)
| to_big_exp v u sc r : exp_conv s = true -> is_decimal v u sc -> kept (Z.abs u) (prec_or 6 q + 1) = 10 ->
    snd (sig (Z.abs u) (- sc) (prec_or 6 q + 1)) = 9 -> touched J s q (Given v r)
| to_big_general v u sc r : general_conv s = true -> is_decimal v u sc -> scale_fits u sc (g_prec q) ->
    g_differs q (u <? 0) (Z.abs u) (- sc) = true -> touched J s q (Given v r).

(** no directive of [ds] meets such an argument, and no width is Integer.MIN_VALUE *)
Fixpoint spared (J : jdk) (ds : list appender) (args : list given) : Prop :=
  match ds with
  | [] => True
  | Fixed _ :: ds => spared J ds args
  | Default s (mkCtx fl w p d) :: ds =>
      (forall rest, w = PRECEDING -> ~ takes J args (Ok (- 2 ^ 31, rest))) /\
      forall l w' a1 p' x rest, width_meant J (f_left fl) w args (Ok (l, w', a1)) -> prec_meant J p a1 (Ok (p', x :: rest)) ->
        ~ touched J s (asked fl l w' p') x /\ spared J ds rest
  end.
