(** Model of Compiler.java. Positions ([lookahead]) are indices into the source, as in the Java code. *)
From Verif Require Import Base Digits UtilsM ContextM.

(** appender/FixedStringAppender.java:11-17, appender/DefaultAppender.java:16-24 *)
Inductive appender :=
| Fixed (t : list Z)
| Default (s : spec) (c : ctx).

Section Compiler.
  (** DateTimeFormatter.ofPattern accepts this pattern (otherwise IllegalArgumentException). *)
  Variable dtf_valid : list Z -> bool.

  Variable source : list Z.   (* Compiler.java:15 *)

  (** Compiler.java:27-29 *)
  Definition endOfSource (pos : Z) : bool := zlen source <=? pos.

  (** Compiler.java:81-85 *)
  Definition checkSource (pos : Z) : res unit :=
    if endOfSource pos then Err (Syntax UnexpectedEnd pos) else Ok tt.

  (** source.charAt; an index out of range would be a StringIndexOutOfBoundsException *)
  Definition sourceAt (pos : Z) : res Z :=
    match znth source pos with Some c => Ok c | None => Err IndexOOB end.

  (** Compiler.java:65-79 *)
  Fixpoint p_flags (fuel : nat) (pos : Z) (fl : flags) : res (flags * Z) :=
    if endOfSource pos then Ok (fl, pos)
    else
      match fuel with
      | O => Err OutOfFuel
      | S f =>
          let* c := sourceAt pos in
          match flag_of_char c with
          | None => Ok (fl, pos)
          | Some g =>
              if hasF g fl then Err (Syntax DuplicateFlag pos)
              else p_flags f (pos + 1) (addF g fl)
          end
      end.

  (** Compiler.java:94-100 and 125-131 *)
  Fixpoint p_digits (fuel : nat) (pos : Z) : res Z :=
    if endOfSource pos then Ok pos
    else
      match fuel with
      | O => Err OutOfFuel
      | S f =>
          let* c := sourceAt pos in
          if isNotDigit c then Ok pos else p_digits f (pos + 1)
      end.

  (** Integer.parseInt on a non-empty string of ASCII digits; None = NumberFormatException *)
  Definition parseInt (w : list Z) : option Z :=
    let v := of_numeral 10 w in if v <=? int_max then Some v else None.

  Definition fuel0 : nat := S (List.length source).

  (** Compiler.java:87-110 *)
  Definition p_width (pos : Z) : res (Z * Z) :=
    let* _ := checkSource pos in
    let* c := sourceAt pos in
    if c =? ch "*" then Ok (PRECEDING, pos + 1)
    else
      let* e := p_digits fuel0 pos in
      match slice source pos e with
      | [] => Ok (UNSET, e)
      | w => match parseInt w with
             | Some v => Ok (v, e)
             | None => Err (Syntax BadWidth pos)
             end
      end.

  (** Compiler.java:112-142 *)
  Definition p_precision (pos : Z) : res (Z * Z) :=
    if endOfSource pos then Ok (UNSET, pos)
    else
      let* c := sourceAt pos in
      if negb (c =? ch ".") then Ok (UNSET, pos)
      else
        let pos := pos + 1 in
        let* _ := checkSource pos in
        let* c := sourceAt pos in
        if c =? ch "*" then Ok (PRECEDING, pos + 1)
        else
          let* e := p_digits fuel0 pos in
          match slice source pos e with
          | [] => Ok (0, e)
          | w => match parseInt w with
                 | Some v => Ok (v, e)
                 | None => Err (Syntax BadPrecision pos)
                 end
          end.

  (** Compiler.java:155-169: scan for the closing brace; None = patternEnd stays -1 *)
  Fixpoint p_scan (fuel : nat) (pos : Z) (inQuote : bool) : res (option Z) :=
    if zlen source <=? pos then Ok None
    else
      match fuel with
      | O => Err OutOfFuel
      | S f =>
          let* c := sourceAt pos in
          if c =? ch "'" then
            if pos + 1 <? zlen source then
              let* c2 := sourceAt (pos + 1) in
              if c2 =? ch "'" then p_scan f (pos + 1 + 1) inQuote
              else p_scan f (pos + 1) (negb inQuote)
            else p_scan f (pos + 1) (negb inQuote)
          else if (c =? ch "}") && negb inQuote then Ok (Some pos)
          else p_scan f (pos + 1) inQuote
      end.

  (** Compiler.java:144-189 *)
  Definition p_date (pos : Z) : res (option (list Z) * Z) :=
    if endOfSource pos then Ok (None, pos)
    else
      let* c := sourceAt pos in
      if negb (c =? ch "{") then Ok (None, pos)
      else
        let patternStart := pos + 1 in
        let* r := p_scan fuel0 patternStart false in
        match r with
        | None => Err (Syntax UnclosedDate pos)
        | Some patternEnd =>
            match slice source patternStart patternEnd with
            | [] => Err (Syntax EmptyDate patternStart)
            | pattern =>
                if dtf_valid pattern then Ok (Some pattern, patternEnd + 1)
                else Err (Syntax InvalidDate patternStart)
            end
        end.

  (** Compiler.java:191-201 *)
  Definition p_spec (pos : Z) : res (spec * Z) :=
    let* _ := checkSource pos in
    let* c := sourceAt pos in
    match spec_of_char c with
    | None => Err (Syntax BadSpecifier pos)
    | Some s => Ok (s, pos + 1)
    end.

  (** source.indexOf('%', pos): Compiler.java:205 *)
  Fixpoint findPct (s : list Z) : option Z :=
    match s with
    | [] => None
    | c :: r => if c =? ch "%" then Some 0 else option_map Z.succ (findPct r)
    end.
  Definition indexOfPercent (pos : Z) : option Z :=
    option_map (Z.add pos) (findPct (skipn (Z.to_nat pos) source)).

  (** Compiler.java:42-63 from line 51 on: one directive after its '%' *)
  Definition p_directive (pos : Z) : res (appender * Z) :=
    let* (fl, pos) := p_flags fuel0 pos noFlags in
    let* (w, pos) := p_width pos in
    let* (p, pos) := p_precision pos in
    let* (s, pos) := p_spec pos in
    let* (d, pos) := (if isDateTimeSpec s then p_date pos else Ok (None, pos)) in
    let* c := ctx_create fl w p d in
    Ok (Default s c, pos).

  (** Compiler.java:31-40 with forFixedString 203-214 inlined, and forPattern 42-63. *)
  Fixpoint parseNext (fuel : nat) (pos : Z) (acc : list appender) : res (list appender) :=
    match fuel with
    | O => Err OutOfFuel
    | S f =>
        if endOfSource pos then Ok acc
        else
          let* c := sourceAt pos in
          if c =? ch "%" then forPattern f (pos + 1) acc
          else
            match indexOfPercent pos with
            | None => Ok (acc ++ [Fixed (slice source pos (zlen source))])
            | Some nextPercent =>
                forPattern f (nextPercent + 1) (acc ++ [Fixed (slice source pos nextPercent)])
            end
    end
  with forPattern (fuel : nat) (pos : Z) (acc : list appender) : res (list appender) :=
    match fuel with
    | O => Err OutOfFuel
    | S f =>
        let* _ := checkSource pos in
        let* c := sourceAt pos in
        if c =? ch "%" then parseNext f (pos + 1) (acc ++ [Fixed [ch "%"]])
        else
          let* (a, pos') := p_directive pos in
          parseNext f pos' (acc ++ [a])
    end.

  (** Compiler.java:23-25 and FastPrintfImpl.java:68-77 *)
  Definition compile : res (list appender) := parseNext (S (List.length source)) 0 [].
End Compiler.
