(** What the repair of %s, %S and %c prints. *)
From Coq Require Import QArith.
From Verif Require Import Base Digits SeqM SeqSpec ContextM CompilerM GrammarSpec FormatterM MathM DecimalM BigDecM TraitsM ImplM
  FmtSpec DecSpec FloatSpec BigSpec DirSpec ValueSpec WholeSpec CharSpec.
Open Scope Z_scope.

(** the text %s shows of [v] *)
Definition has_text (J : jdk) (v : value) (t : list Z) : Prop :=
  (forall u, v <> VSeq u) /\ is_text J v t /\ zlen t <= int_max \/ exists u, v = VSeq u /\ den u t.

Definition with_prec (q : fspec) (p : Z) : fspec := mkSpec (q_left q) (q_alt q) (q_plus q) (q_space q) (q_zero q) (q_width q) (Some p).

(** nothing is broken: the precision separates no pair, the character is no surrogate *)
Definition unbroken (J : jdk) (s : spec) (q : fspec) (x : traits) : Prop :=
  (text_conv s = true -> forall v t r p, x = traitsOf J v r -> has_text J v t -> q_prec q = Some p -> ~ splits_pair t p) /\
  (s = Sc -> forall v c r, x = traitsOf J v r -> is_char J v c -> ~ surrogate c).

(** one conversion: as before where nothing is broken; otherwise the text is cut one character earlier, and %c shows the whole pair the text of the
    argument starts with, or U+FFFD *)
Inductive shown_whole (J : jdk) (s : spec) (pat : option (list Z)) (q : fspec) : traits -> res (list Z) -> Prop :=
| sw_same x o : unbroken J s q x -> shown J s pat q x o -> shown_whole J s pat q x o
| sw_cut v t r p o : text_conv s = true -> has_text J v t -> q_prec q = Some p -> splits_pair t p ->
    shown J s pat (with_prec q (p - 1)) (traitsOf J v r) o -> shown_whole J s pat q (traitsOf J v r) o
| sw_pair v h l t r : s = Sc -> is_char J v h -> has_text J v (h :: l :: t) -> high h -> low l ->
    shown_whole J s pat q (traitsOf J v r) (Ok (justify q [h; l]))
| sw_lone v c r : s = Sc -> java_value v -> is_char J v c -> surrogate c -> (forall l t, has_text J v (c :: l :: t) -> high c -> ~ low l) ->
    shown_whole J s pat q (traitsOf J v r) (Ok (justify q [65533])).

(** pieces and calls, as in WholeSpec *)
Inductive piece_whole (J : jdk) : appender -> list traits -> res (list Z * list traits) -> Prop :=
| pw_literal t args : piece_whole J (Fixed t) args (Ok (t, args))
| pw_width_fails s fl w p d args e : width_is J (f_left fl) w args (Err e) -> piece_whole J (Default s (mkCtx fl w p d)) args (Err e)
| pw_prec_fails s fl w p d args l w' a1 e : width_is J (f_left fl) w args (Ok (l, w', a1)) -> prec_is J p a1 (Err e) ->
    piece_whole J (Default s (mkCtx fl w p d)) args (Err e)
| pw_missing s fl w p d args l w' a1 p' : width_is J (f_left fl) w args (Ok (l, w', a1)) -> prec_is J p a1 (Ok (p', [])) ->
    piece_whole J (Default s (mkCtx fl w p d)) args (Err (Printf MissingArg))
| pw_shown s fl w p d args l w' a1 p' x rest o : width_is J (f_left fl) w args (Ok (l, w', a1)) -> prec_is J p a1 (Ok (p', x :: rest)) ->
    shown_whole J s d (asked fl l w' p') x o ->
    piece_whole J (Default s (mkCtx fl w p d)) args (match o with Ok t => Ok (t, rest) | Err e => Err e end).

Inductive says_whole (J : jdk) : list appender -> list traits -> list Z -> option exn -> Prop :=
| yw_end args : says_whole J [] args [] None
| yw_piece d ds args t rest u o : piece_whole J d args (Ok (t, rest)) -> says_whole J ds rest u o -> says_whole J (d :: ds) args (t ++ u) o
| yw_stop d ds args e : piece_whole J d args (Err e) -> says_whole J (d :: ds) args [] (Some e).

(** what conversion [s] takes from outside is well-formed: the text, the date, the class name *)
Record well_formed (J : jdk) (s : spec) (pat : option (list Z)) (x : traits) : Prop := mkWellFormed {
  wf_text : forall v t r, x = traitsOf J v r -> text_conv s = true -> has_text J v t -> utf16 t;
  wf_date : forall v t d r, x = traitsOf J v r -> date_conv s = true -> is_temporal v t -> dated J pat t (Ok d) -> utf16 d;
  wf_class : forall v name hash, x = traitsOf J v (RObj name hash) -> s = Sp -> utf16 name }.
