(** The directive grammar, stated declaratively over texts (no positions, no parser state).
    Only the data types of directives (flags, spec, ctx, appender) are shared with the model. *)
From Verif Require Import Base Digits ContextM CompilerM.

Definition pct : Z := 37.
Definition quote : Z := 39.

(** The flag characters of a directive: each at most once, from "-#+ 0". *)
Definition flag_chars : list Z := txt "-#+ 0".

Definition flags_text (F : list Z) (fl : flags) : Prop :=
  NoDup F /\ incl F flag_chars /\
  fl = mkFlags (existsb (Z.eqb 45) F) (existsb (Z.eqb 35) F) (existsb (Z.eqb 43) F)
               (existsb (Z.eqb 32) F) (existsb (Z.eqb 48) F).

Definition is_dec (c : Z) : Prop := 48 <= c <= 57.

(** number denoted by a text of decimal digits *)
Definition dec_value (ds : list Z) : Z := fold_left (fun a c => 10 * a + (c - 48)) ds 0.

Inductive width_text : list Z -> Z -> Prop :=
| W_none : width_text [] UNSET
| W_star : width_text (txt "*") PRECEDING
| W_num d ds : d <> 48 -> Forall is_dec (d :: ds) -> dec_value (d :: ds) <= 65536 ->
    width_text (d :: ds) (dec_value (d :: ds)).

Inductive prec_text : list Z -> Z -> Prop :=
| P_none : prec_text [] UNSET
| P_star : prec_text (txt ".*") PRECEDING
| P_num ds : Forall is_dec ds -> dec_value ds <= 65536 -> prec_text (46 :: ds) (dec_value ds).

(** the conversion characters that are documented: "d u o x X f F e E g G a A c s S t T n p %" *)
Definition letter (s : spec) : Z :=
  match s with
  | Sd => 100 | Su => 117 | So => 111 | Sx => 120 | SX => 88 | Sf => 102 | SF => 70 | Se => 101 | SE => 69 | Sg => 103 | SG => 71
  | Sa => 97 | SA => 65 | Sc => 99 | Ss => 115 | SS => 83 | St => 116 | ST => 84 | Sn => 110 | Sp => 112 | Spct => 37
  end.

(** those twenty-one, and 'i' for 'd' *)
Inductive conv_char : Z -> spec -> Prop :=
| conv_i : conv_char (ch "i") Sd
| conv_self s : conv_char (letter s) s.

(** [pat q p]: starting inside (q = true) or outside quotes, the text p has balanced quotes and
    no closing brace outside quotes; a doubled quote stands for a quote character. *)
Inductive pat : bool -> list Z -> Prop :=
| pat_nil : pat false []
| pat_char q c p : c <> quote -> (c = 125 -> q = true) -> pat q p -> pat q (c :: p)
| pat_esc q p : pat q p -> pat q (quote :: quote :: p)
| pat_quote q p : hd_error p <> Some quote -> pat (negb q) p -> pat q (quote :: p).

Section Grammar.
  Variable dtf_valid : list Z -> bool.

  (** the optional {pattern} after %t and %T; [r] is what follows *)
  Inductive date_text : spec -> list Z -> list Z -> option (list Z) -> Prop :=
  | D_other s r : s <> St -> s <> ST -> date_text s r [] None
  | D_none s r : s = St \/ s = ST -> hd_error r <> Some 123 -> date_text s r [] None
  | D_pat s r p : s = St \/ s = ST -> p <> [] -> pat false p -> dtf_valid p = true ->
      date_text s r ([123] ++ p ++ [125]) (Some p).

  (** [format s ds]: the format string [s] consists of the pieces [ds]. *)
  Inductive format : list Z -> list appender -> Prop :=
  | fmt_end : format [] []
  | fmt_lit t r ds : t <> [] -> ~ In pct t -> (r = [] \/ hd_error r = Some pct) -> format r ds ->
      format (t ++ r) (Fixed t :: ds)
  | fmt_pct r ds : format r ds -> format (pct :: pct :: r) (Fixed [pct] :: ds)
  | fmt_dir F fl W w P p c s T d r ds :
      flags_text F fl -> width_text W w -> prec_text P p -> conv_char c s -> date_text s r T d ->
      (F ++ W ++ P = [] -> c <> pct) ->
      format r ds ->
      format (pct :: F ++ W ++ P ++ c :: T ++ r) (Default s (mkCtx fl w p d) :: ds).
End Grammar.
