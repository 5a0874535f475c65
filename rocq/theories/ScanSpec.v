(** Finding the fields of a printed line again: a scanner knowing only the format, in the manner of scanf. *)
From Coq Require Import QArith.
From Verif Require Import Base ContextM CompilerM FormatterM TraitsM ImplM FmtSpec DecSpec FloatSpec DirSpec ReadSpec ReadFSpec WholeSpec.
Open Scope Z_scope.

Definition of_chars (l : list Z) (c : Z) : bool := existsb (Z.eqb c) l.
(** the characters of decimal and octal integers, and of all numbers, infinities and NaN included *)
Definition digit_chars : list Z := txt "0123456789+-".
Definition number_chars : list Z := txt "0123456789abcdefinptxyABCDEFINPTXY+-.".

(** ** The scanner *)

Section Scanner.
  (** the characters of a word; blanks are none *)
  Variable W : Z -> bool.

  (** the longest word at the start, and what follows it *)
  Fixpoint word_run (t : list Z) : list Z * list Z :=
    match t with
    | [] => ([], [])
    | c :: r => if W c then let (w, r') := word_run r in (c :: w, r') else ([], t)
    end.

  Fixpoint strip_text (u t : list Z) : option (list Z) :=
    match u, t with
    | [], _ => Some t
    | c :: u, d :: t => if c =? d then strip_text u t else None
    | _, [] => None
    end.

  (** blanks before a field, before a literal and at the end are skipped; a field is the longest word, and not empty. Flags, width and
      precision of the directives are not looked at. *)
  Fixpoint scan (ds : list appender) (t : list Z) : option (list (list Z)) :=
    match ds with
    | [] => match skip_blanks t with [] => Some [] | _ => None end
    | Fixed u :: ds => match strip_text (skip_blanks u) (skip_blanks t) with Some t => scan ds t | None => None end
    | Default _ _ :: ds =>
        match word_run (skip_blanks t) with
        | ([], _) => None
        | (w, t) => match scan ds t with Some ws => Some (w :: ws) | None => None end
        end
    end.

  (** after every directive the format ends, or a literal starts with a character that is not one of a word *)
  Fixpoint separated (ds : list appender) : Prop :=
    match ds with
    | [] => True
    | Fixed _ :: ds => separated ds
    | Default _ _ :: ds => match ds with [] => True | Fixed (c :: _) :: _ => W c = false | _ => False end /\ separated ds
    end.

  (** [t] is the word [w] among blanks *)
  Definition field (t w : list Z) : Prop := w <> [] /\ forallb W w = true /\ exists a b, t = spaces a ++ w ++ spaces b.

  (** the directives of [ds] print the words [ws] for [args] *)
  Inductive worded (J : jdk) : list appender -> list traits -> list (list Z) -> Prop :=
  | wd_end args : worded J [] args []
  | wd_literal u ds args ws : worded J ds args ws -> worded J (Fixed u :: ds) args ws
  | wd_field s c args t rest w ds ws : piece J (Default s c) args (Ok (t, rest)) -> field t w -> worded J ds rest ws ->
      worded J (Default s c :: ds) args (w :: ws).
End Scanner.

(** ** Numbers *)

Inductive number := NInt (z : Z) | NDouble (b : Z).

(** the conversions of a format *)
Fixpoint convs (ds : list appender) : list spec :=
  match ds with [] => [] | Fixed _ :: ds => convs ds | Default s _ :: ds => s :: convs ds end.

(** a word of an integer conversion, read *)
Definition read_integer (s : spec) (w : list Z) : Z :=
  match s with Sd => read_int w | Su => read_uint 10 w | So => read_uint 8 w | _ => read_uint 16 w end.

(** the word [w] of a conversion [s] stands for the number [x] *)
Definition tells (s : spec) (w : list Z) (x : number) : Prop :=
  match x with
  | NInt z => integer_conv s = true /\ read_integer s w = z
  | NDouble b => in_range 64 b /\ finite b /\
      (decimal_spec s /\ reads_back w b \/ hex_conv s = true /\ hex_reads_as w (b <? 0) (dval (magnitude b)))
  end.

Fixpoint all_tell (ss : list spec) (ws : list (list Z)) (xs : list number) : Prop :=
  match ss, ws, xs with
  | [], [], [] => True
  | s :: ss, w :: ws, x :: xs => tells s w x /\ all_tell ss ws xs
  | _, _, _ => False
  end.

(** a precision with which a floating-point conversion loses nothing *)
Definition lossless (s : spec) (q : fspec) : Prop :=
  keeps_all s q \/ hex_conv s = true /\ forall p, q_prec q = Some p -> 13 <= p.

(** [v] is printed by the integer conversion [s] as the integer [n] *)
Definition integer_of (J : jdk) (s : spec) (v : value) (n : Z) : Prop :=
  s = Sd /\ is_integer J v n \/ unsigned_conv s = true /\ is_unsigned J v n.

(** every directive of [ds] prints a number without loss: an integer with a precision other than 0, or a finite double with enough digits *)
Inductive numbers (J : jdk) : list appender -> list traits -> list number -> Prop :=
| nu_end args : numbers J [] args []
| nu_literal u ds args xs : numbers J ds args xs -> numbers J (Fixed u :: ds) args xs
| nu_integer s fl w p d args l w' a1 p' v r rest n ds xs :
    width_is J (f_left fl) w args (Ok (l, w', a1)) -> prec_is J p a1 (Ok (p', traitsOf J v r :: rest)) -> p' <> Some 0 ->
    integer_of J s v n -> numbers J ds rest xs -> numbers J (Default s (mkCtx fl w p d) :: ds) args (NInt n :: xs)
| nu_double s fl w p d args l w' a1 p' v r rest b ds xs :
    width_is J (f_left fl) w args (Ok (l, w', a1)) -> prec_is J p a1 (Ok (p', traitsOf J v r :: rest)) -> lossless s (asked fl l w' p') ->
    is_double J v b -> finite b -> numbers J ds rest xs -> numbers J (Default s (mkCtx fl w p d) :: ds) args (NDouble b :: xs).
