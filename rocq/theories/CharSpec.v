(** Where the characters of the output come from; well-formed UTF-16. *)
From Coq Require Import QArith.
From Verif Require Import Base Digits SeqM SeqSpec ContextM CompilerM GrammarSpec FormatterM MathM DecimalM BigDecM TraitsM ImplM
  FmtSpec DecSpec FloatSpec BigSpec DirSpec ValueSpec WholeSpec.
Open Scope Z_scope.

(** the characters the library writes on its own: digits, signs, padding, "0x", exponents, "NaN", "Infinity", "null", the '@' of %p *)
Definition own : list Z := txt "0123456789abcdefilnptuxyABCDEFILNPTUXY +-.@".

(** [c] is a character of what the pieces [ds] may show of argument [x] *)
Inductive of_argument (J : jdk) (ds : list appender) : traits -> Z -> Prop :=
| oa_text s k v t c r : In (Default s k) ds -> text_conv s = true -> is_text J v t -> In c (in_case s t) -> of_argument J ds (traitsOf J v r) c
| oa_seq s k u t c r : In (Default s k) ds -> text_conv s = true -> den u t -> In c (in_case s t) -> of_argument J ds (traitsOf J (VSeq u) r) c
| oa_char k v c r : In (Default Sc k) ds -> is_char J v c -> of_argument J ds (traitsOf J v r) c
| oa_date s k v t d c r : In (Default s k) ds -> date_conv s = true -> is_temporal v t -> dated J (c_dtf k) t (Ok d) -> In c (in_case s d) ->
    of_argument J ds (traitsOf J v r) c
| oa_class k v name hash c : In (Default Sp k) ds -> In c name -> of_argument J ds (traitsOf J v (RObj name hash)) c.

(** ** UTF-16 (Unicode 3.9, D91): every surrogate is part of a pair *)
Definition high (c : Z) : Prop := 55296 <= c <= 56319.
Definition low (c : Z) : Prop := 56320 <= c <= 57343.
Definition surrogate (c : Z) : Prop := 55296 <= c <= 57343.

Inductive utf16 : list Z -> Prop :=
| uf_nil : utf16 []
| uf_one c t : ~ surrogate c -> utf16 t -> utf16 (c :: t)
| uf_pair h l t : high h -> low l -> utf16 t -> utf16 (h :: l :: t).

(** cutting [t] after [p] characters separates a pair *)
Definition splits_pair (t : list Z) (p : Z) : Prop := exists a h l b, t = a ++ h :: l :: b /\ zlen a + 1 = p /\ high h /\ low l.

(** the precision a directive may have when it is carried out *)
Definition may_cut (p n : Z) : Prop := p = n \/ p = PRECEDING /\ 0 <= n <= 65536.

(** what [ds] may show of argument [x] is well-formed: no %c shows a surrogate, and no precision separates a pair *)
Record sound_for (J : jdk) (ds : list appender) (x : traits) : Prop := mkSound {
  so_text : forall s k v t r, x = traitsOf J v r -> In (Default s k) ds -> text_conv s = true ->
    (forall u, v <> VSeq u) -> is_text J v t -> zlen t <= int_max -> utf16 t /\ forall n, may_cut (c_prec k) n -> ~ splits_pair t n;
  so_seq : forall s k u t r, x = traitsOf J (VSeq u) r -> In (Default s k) ds -> text_conv s = true -> den u t ->
    utf16 t /\ forall n, may_cut (c_prec k) n -> ~ splits_pair t n;
  so_char : forall k v c r, x = traitsOf J v r -> In (Default Sc k) ds -> is_char J v c -> ~ surrogate c;
  so_date : forall s k v t d r, x = traitsOf J v r -> In (Default s k) ds -> date_conv s = true -> is_temporal v t ->
    dated J (c_dtf k) t (Ok d) -> utf16 d;
  so_class : forall k v name hash, x = traitsOf J v (RObj name hash) -> In (Default Sp k) ds -> utf16 name }.
