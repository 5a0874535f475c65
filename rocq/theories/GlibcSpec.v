(** What calls of the library of GlibcM.v have to do: RepairSpec.v with the texts of C (PortSpec.v) for doubles; and which lines C may
    print for a call. *)
From Coq Require Import QArith.
From Verif Require Import Base Digits SeqM SeqSpec ContextM CompilerM GrammarSpec FormatterM MathM DecimalM BigDecM TraitsM ImplM
  FmtSpec DecSpec FloatSpec BigSpec DirSpec LoopSpec ExactSpec ScaleSpec ValueSpec WholeSpec PortSpec RepairM RepairSpec GlibcM.
Open Scope Z_scope.

(** conversion [s] does not meet a double *)
Definition no_double (J : jdk) (s : spec) (g : given) : Prop :=
  float_spec s = true -> forall v r, g = Given v r -> (forall b, ~ is_double J v b) /\ ~ is_nan J v.

Inductive meantC (J : jdk) (s : spec) (pat : option (list Z)) (q : fspec) : given -> res (list Z) -> Prop :=
| mc_fixed v b N r : fixed_conv s = true -> is_double J v b -> finite b -> even_at (dval (magnitude b)) (prec_or 6 q) N ->
    meantC J s pat q (Given v r) (Ok (in_case s (finite_text q (b <? 0) (pointed q N (prec_or 6 q)))))
| mc_exp v b S X r : exp_conv s = true -> is_double J v b -> finite b -> c_digits (dval (magnitude b)) (prec_or 6 q + 1) S X ->
    meantC J s pat q (Given v r) (Ok (in_case s (finite_text q (b <? 0) (pointed q S (prec_or 6 q) ++ exp_text X))))
| mc_general_fixed v b S X r : general_conv s = true -> is_double J v b -> finite b -> c_digits (dval (magnitude b)) (g_prec q) S X -> -4 <= X < g_prec q ->
    meantC J s pat q (Given v r) (Ok (in_case s (finite_text q (b <? 0) (g_text q S (g_prec q - 1 - X)))))
| mc_general_exp v b S X r : general_conv s = true -> is_double J v b -> finite b -> c_digits (dval (magnitude b)) (g_prec q) S X -> ~ -4 <= X < g_prec q ->
    meantC J s pat q (Given v r) (Ok (in_case s (finite_text q (b <? 0) (g_text q S (g_prec q - 1) ++ exp_text X))))
| mc_hex v b r : hex_conv s = true -> is_double J v b -> finite b -> q_prec q <> Some 0 ->
    meantC J s pat q (Given v r) (Ok (in_case s (j_a q (b <? 0) (magnitude b))))
| mc_hex_digit v b M r : hex_conv s = true -> is_double J v b -> finite b -> q_prec q = Some 0 ->
    hex_even (dval (magnitude b)) 0 M (snd (bin_parts (magnitude b))) ->
    meantC J s pat q (Given v r) (Ok (in_case s (hex_finite q (b <? 0) (hex_pointed q M 0 ++ bin_exp_text (snd (bin_parts (magnitude b)))))))
| mc_infinite v b r : float_spec s = true -> is_double J v b -> magnitude b = inf_bits ->
    meantC J s pat q (Given v r) (Ok (in_case s (justify q (sign_text q (b <? 0) ++ txt "inf"))))
| mc_nan v r : float_spec s = true -> is_nan J v -> meantC J s pat q (Given v r) (Ok (in_case s (justify q (sign_text q false ++ txt "nan"))))
| mc_other g o : no_double J s g -> meant J s pat q g o -> meantC J s pat q g o.

Inductive pieceC (J : jdk) : appender -> list given -> res (list Z * list given) -> Prop :=
| pc_literal t args : pieceC J (Fixed t) args (Ok (t, args))
| pc_width_fails s fl w p d args e : width_meant J (f_left fl) w args (Err e) -> pieceC J (Default s (mkCtx fl w p d)) args (Err e)
| pc_prec_fails s fl w p d args l w' a1 e : width_meant J (f_left fl) w args (Ok (l, w', a1)) -> prec_meant J p a1 (Err e) ->
    pieceC J (Default s (mkCtx fl w p d)) args (Err e)
| pc_missing s fl w p d args l w' a1 p' : width_meant J (f_left fl) w args (Ok (l, w', a1)) -> prec_meant J p a1 (Ok (p', [])) ->
    pieceC J (Default s (mkCtx fl w p d)) args (Err (Printf MissingArg))
| pc_refused s fl w p d args l w' a1 p' x rest e : width_meant J (f_left fl) w args (Ok (l, w', a1)) -> prec_meant J p a1 (Ok (p', x :: rest)) ->
    meantC J s d (asked fl l w' p') x (Err e) -> pieceC J (Default s (mkCtx fl w p d)) args (Err e)
| pc_shown s fl w p d args l w' a1 p' x rest t : width_meant J (f_left fl) w args (Ok (l, w', a1)) -> prec_meant J p a1 (Ok (p', x :: rest)) ->
    meantC J s d (asked fl l w' p') x (Ok t) -> pieceC J (Default s (mkCtx fl w p d)) args (Ok (t, rest)).

Inductive meansC (J : jdk) : list appender -> list given -> list Z -> option exn -> Prop :=
| mk_end args : meansC J [] args [] None
| mk_piece d ds args t rest u o : pieceC J d args (Ok (t, rest)) -> meansC J ds rest u o -> meansC J (d :: ds) args (t ++ u) o
| mk_stop d ds args e : pieceC J d args (Err e) -> meansC J (d :: ds) args [] (Some e).

(** ** The lines of C *)

(** the argument [g] of conversion [s] is the C argument [a]; as [means] of PortSpec.v *)
Inductive c_arg (J : jdk) (s : spec) : given -> carg -> Prop :=
| ca_int v z r : s = Sd -> is_integer J v z -> c_arg J s (Given v r) (CInt z)
| ca_uns v n r : unsigned_conv s = true -> is_unsigned J v n -> c_arg J s (Given v r) (CUns n)
| ca_char v c r : s = Sc -> is_char J v c -> c_arg J s (Given v r) (CChar c)
| ca_str v t r : s = Ss -> (forall u, v <> VSeq u) -> is_text J v t -> zlen t <= int_max -> c_arg J s (Given v r) (CStr t)
| ca_seq u t r : s = Ss -> den u t -> c_arg J s (Given (VSeq u) r) (CStr t)
| ca_double v b r : float_spec s = true -> is_double J v b -> magnitude b <= inf_bits -> c_arg J s (Given v r) (CDouble b)
| ca_nan v r : float_spec s = true -> is_nan J v -> c_arg J s (Given v r) CNan.

(** C leaves no choice: not for %a, infinities and NaN *)
Definition settled (s : spec) (a : carg) : Prop := match a with CNan => False | CDouble b => finite b /\ hex_conv s = false | _ => True end.

(** every directive has an argument C has *)
Inductive c_able (J : jdk) : list appender -> list given -> Prop :=
| cb_end args : c_able J [] args
| cb_literal t ds args : c_able J ds args -> c_able J (Fixed t :: ds) args
| cb_directive s fl w p d args l w' a1 p' x rest a ds :
    width_meant J (f_left fl) w args (Ok (l, w', a1)) -> prec_meant J p a1 (Ok (p', x :: rest)) -> c_arg J s x a ->
    c_able J ds rest -> c_able J (Default s (mkCtx fl w p d) :: ds) args.

(** C may print this line; [ok] holds of every argument *)
Inductive c_call (J : jdk) (ok : spec -> carg -> Prop) : list appender -> list given -> list Z -> Prop :=
| cc_end args : c_call J ok [] args []
| cc_literal t ds args u : c_call J ok ds args u -> c_call J ok (Fixed t :: ds) args (t ++ u)
| cc_directive s fl w p d args l w' a1 p' x rest a t ds u :
    width_meant J (f_left fl) w args (Ok (l, w', a1)) -> prec_meant J p a1 (Ok (p', x :: rest)) -> c_arg J s x a -> ok s a ->
    c_text s (asked fl l w' p') a t -> c_call J ok ds rest u -> c_call J ok (Default s (mkCtx fl w p d) :: ds) args (t ++ u).
Definition any (s : spec) (a : carg) : Prop := True.
