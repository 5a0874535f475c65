(** Model of Compiler.java with the exceptions it constructs: description, cause and, for a width or precision out
    of range, the message. The positions and values are those of CompilerM.v; [erase] forgets the texts again. *)
From Verif Require Import Base Digits UtilsM ContextM CompilerM MsgM MiscM.

(** what is thrown: PrintfSyntaxException.java:28-33 (kind and index in [t_exn], pattern is the source) or
    PrintfException.java:13-19; [t_cause]: getCause() is not null *)
Record thrown := mkThrown { t_exn : exn; t_desc : list Z; t_cause : bool }.
Inductive dres (A : Type) := DOk (a : A) | DErr (t : thrown).
Arguments DOk {A}. Arguments DErr {A}.
Definition dbind {A B} (r : dres A) (f : A -> dres B) : dres B := match r with DOk a => f a | DErr t => DErr t end.
Notation "'let+' x := r 'in' k" := (dbind r (fun x => k))
  (at level 200, x pattern, r at level 100, k at level 200, right associativity).

Definition erase {A} (r : dres A) : res A := match r with DOk a => Ok a | DErr t => Err (t_exn t) end.
(** a call into a part of the model that constructs no text *)
Definition lift {A} (r : res A) : dres A := match r with Ok a => DOk a | Err e => DErr (mkThrown e [] false) end.
(** Compiler.java:73 etc.: a PrintfSyntaxException without cause *)
Definition syntax {A} (k : syn) (i : Z) (desc : list Z) : dres A := DErr (mkThrown (Syntax k i) desc false).

(** Flag.java:4-30 has no toString(): string conversion gives the name of the constant *)
Definition flag_name (g : flag) : list Z :=
  match g with
  | LEFT_JUSTIFY => txt "LEFT_JUSTIFY"
  | ALTERNATE => txt "ALTERNATE"
  | PLUS => txt "PLUS"
  | LEADING_SPACE => txt "LEADING_SPACE"
  | ZERO_PAD => txt "ZERO_PAD"
  end.

Section Compiler.
  Variable dtf_valid : list Z -> bool.
  Variable source : list Z.

  (** Compiler.java:81-85 *)
  Definition d_check (pos : Z) (message : list Z) : dres unit :=
    if endOfSource source pos then syntax UnexpectedEnd pos message else DOk tt.

  Definition d_at (pos : Z) : dres Z := lift (sourceAt source pos).

  (** Compiler.java:65-79 *)
  Fixpoint d_flags (fuel : nat) (pos : Z) (fl : flags) : dres (flags * Z) :=
    if endOfSource source pos then DOk (fl, pos)
    else
      match fuel with
      | O => lift (Err OutOfFuel)
      | S f =>
          let+ c := d_at pos in
          match flag_of_char c with
          | None => DOk (fl, pos)
          | Some g =>
              if hasF g fl then syntax DuplicateFlag pos (txt "Duplicate flag '" ++ flag_name g ++ txt "'")
              else d_flags f (pos + 1) (addF g fl)
          end
      end.

  (** Compiler.java:87-110 *)
  Definition d_width (pos : Z) : dres (Z * Z) :=
    let+ _ := d_check pos (txt "Format string lacks width or specifier") in
    let+ c := d_at pos in
    if c =? ch "*" then DOk (PRECEDING, pos + 1)
    else
      let+ e := lift (p_digits source (fuel0 source) pos) in
      match slice source pos e with
      | [] => DOk (UNSET, e)
      | w => match parseInt w with
             | Some v => DOk (v, e)
             | None => syntax BadWidth pos (txt "Invalid width: '" ++ w ++ txt "'")
             end
      end.

  (** Compiler.java:112-142 *)
  Definition d_precision (pos : Z) : dres (Z * Z) :=
    if endOfSource source pos then DOk (UNSET, pos)
    else
      let+ c := d_at pos in
      if negb (c =? ch ".") then DOk (UNSET, pos)
      else
        let pos := pos + 1 in
        let+ _ := d_check pos (txt "Format string terminates after '.'") in
        let+ c := d_at pos in
        if c =? ch "*" then DOk (PRECEDING, pos + 1)
        else
          let+ e := lift (p_digits source (fuel0 source) pos) in
          match slice source pos e with
          | [] => DOk (0, e)
          | w => match parseInt w with
                 | Some v => DOk (v, e)
                 | None => syntax BadPrecision pos (txt "Invalid precision: '" ++ w ++ txt "'")
                 end
          end.

  (** Compiler.java:144-189; the last one has the IllegalArgumentException of ofPattern as its cause *)
  Definition d_date (pos : Z) : dres (option (list Z) * Z) :=
    if endOfSource source pos then DOk (None, pos)
    else
      let+ c := d_at pos in
      if negb (c =? ch "{") then DOk (None, pos)
      else
        let patternStart := pos + 1 in
        let+ r := lift (p_scan source (fuel0 source) patternStart false) in
        match r with
        | None => syntax UnclosedDate pos (txt "Unclosed date/time pattern starting at index " ++ dec_text pos)
        | Some patternEnd =>
            match slice source patternStart patternEnd with
            | [] => syntax EmptyDate patternStart (txt "Empty date/time pattern")
            | pattern =>
                if dtf_valid pattern then DOk (Some pattern, patternEnd + 1)
                else DErr (mkThrown (Syntax InvalidDate patternStart)
                                    (txt "Invalid date/time pattern: '" ++ pattern ++ txt "'") true)
            end
        end.

  (** Compiler.java:191-201 *)
  Definition d_spec (pos : Z) : dres (spec * Z) :=
    let+ _ := d_check pos (txt "Format string lacks specifier") in
    let+ c := d_at pos in
    match spec_of_char c with
    | None => syntax BadSpecifier pos (txt "Unknown format conversion specifier '" ++ [c] ++ txt "'")
    | Some s => DOk (s, pos + 1)
    end.

  (** FormatContext.java:31-57 *)
  Definition d_checkValue (k : pk) (name : list Z) (v : Z) : dres unit :=
    match checkValue k v with
    | Ok _ => DOk tt
    | Err e => DErr (mkThrown e (m_text (rangeMessage name v)) (m_cause (rangeMessage name v)))
    end.
  Definition d_create (fl : flags) (w p : Z) (d : option (list Z)) : dres ctx :=
    let+ _ := d_checkValue WidthRange (txt "Width") w in
    let+ _ := d_checkValue PrecisionRange (txt "Precision") p in
    DOk (mkCtx fl w p d).

  (** Compiler.java:42-63 from line 51 on *)
  Definition d_directive (pos : Z) : dres (appender * Z) :=
    let+ (fl, pos) := d_flags (fuel0 source) pos noFlags in
    let+ (w, pos) := d_width pos in
    let+ (p, pos) := d_precision pos in
    let+ (s, pos) := d_spec pos in
    let+ (d, pos) := (if isDateTimeSpec s then d_date pos else DOk (None, pos)) in
    let+ c := d_create fl w p d in
    DOk (Default s c, pos).

  (** Compiler.java:31-63, 203-214 *)
  Fixpoint d_parseNext (fuel : nat) (pos : Z) (acc : list appender) : dres (list appender) :=
    match fuel with
    | O => lift (Err OutOfFuel)
    | S f =>
        if endOfSource source pos then DOk acc
        else
          let+ c := d_at pos in
          if c =? ch "%" then d_forPattern f (pos + 1) acc
          else
            match indexOfPercent source pos with
            | None => DOk (acc ++ [Fixed (slice source pos (zlen source))])
            | Some nextPercent =>
                d_forPattern f (nextPercent + 1) (acc ++ [Fixed (slice source pos nextPercent)])
            end
    end
  with d_forPattern (fuel : nat) (pos : Z) (acc : list appender) : dres (list appender) :=
    match fuel with
    | O => lift (Err OutOfFuel)
    | S f =>
        let+ _ := d_check pos (txt "Format string terminates in the middle of a format specifier") in
        let+ c := d_at pos in
        if c =? ch "%" then d_parseNext f (pos + 1) (acc ++ [Fixed [ch "%"]])
        else
          let+ (a, pos') := d_directive pos in
          d_parseNext f pos' (acc ++ [a])
    end.

  (** Compiler.java:23-25 *)
  Definition d_compile : dres (list appender) := d_parseNext (S (List.length source)) 0 [].
End Compiler.

(** PrintfSyntaxException.java:71-86 for a syntax error, PrintfException.java:7-19 otherwise: getMessage() of what
    compiling [source] threw; [nl] is the line separator *)
Definition getMessage (nl source : list Z) (t : thrown) : list Z :=
  match t_exn t with
  | Syntax _ i => syntaxMessage nl (t_desc t) source i
  | _ => t_desc t
  end.
