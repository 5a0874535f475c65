(** Compiler.java again, counting its work: a step for every character of the source that charAt or indexOf looks at, for every
    character substring copies and for every digit Integer.parseInt is given. What DateTimeFormatter.ofPattern does with its pattern is not counted. *)
From Verif Require Import Base Digits UtilsM ContextM CompilerM.

(** steps and result *)
Definition cost (A : Type) : Type := (Z * res A)%type.
Definition cbind {A B} (r : cost A) (f : A -> cost B) : cost B :=
  match r with
  | (n, Ok a) => let (m, b) := f a in (n + m, b)
  | (n, Err e) => (n, Err e)
  end.
Notation "'let$' x := r 'in' k" := (cbind r (fun x => k))
  (at level 200, x pattern, r at level 100, k at level 200, right associativity).

(** no step *)
Definition free {A} (r : res A) : cost A := (0, r).
(** [n] steps *)
Definition steps {A} (n : Z) (r : res A) : cost A := (n, r).

Section Compiler.
  Variable dtf_valid : list Z -> bool.
  Variable source : list Z.

  (** source.charAt *)
  Definition k_at (pos : Z) : cost Z := steps 1 (sourceAt source pos).
  (** source.substring *)
  Definition k_substring (i j : Z) : cost (list Z) := let t := slice source i j in steps (zlen t) (Ok t).
  (** source.indexOf('%', pos) *)
  Definition k_indexOf (pos : Z) : cost (option Z) :=
    let r := indexOfPercent source pos in
    steps (match r with Some i => i - pos + 1 | None => zlen source - pos end) (Ok r).

  (** Compiler.java:81-85 *)
  Definition k_check (pos : Z) : cost unit := free (checkSource source pos).

  (** Compiler.java:65-79 *)
  Fixpoint k_flags (fuel : nat) (pos : Z) (fl : flags) : cost (flags * Z) :=
    if endOfSource source pos then free (Ok (fl, pos))
    else
      match fuel with
      | O => free (Err OutOfFuel)
      | S f =>
          let$ c := k_at pos in
          match flag_of_char c with
          | None => free (Ok (fl, pos))
          | Some g =>
              if hasF g fl then free (Err (Syntax DuplicateFlag pos))
              else k_flags f (pos + 1) (addF g fl)
          end
      end.

  (** Compiler.java:94-100 and 125-131 *)
  Fixpoint k_digits (fuel : nat) (pos : Z) : cost Z :=
    if endOfSource source pos then free (Ok pos)
    else
      match fuel with
      | O => free (Err OutOfFuel)
      | S f =>
          let$ c := k_at pos in
          if isNotDigit c then free (Ok pos) else k_digits f (pos + 1)
      end.

  (** Compiler.java:101-109 and 132-141: substring and Integer.parseInt; [empty] is the value for no digits *)
  Definition k_number (pos e empty : Z) (k : syn) : cost (Z * Z) :=
    let$ t := k_substring pos e in
    match t with
    | [] => free (Ok (empty, e))
    | w => steps (zlen w) (match parseInt w with Some v => Ok (v, e) | None => Err (Syntax k pos) end)
    end.

  (** Compiler.java:87-110 *)
  Definition k_width (pos : Z) : cost (Z * Z) :=
    let$ _ := k_check pos in
    let$ c := k_at pos in
    if c =? ch "*" then free (Ok (PRECEDING, pos + 1))
    else
      let$ e := k_digits (fuel0 source) pos in
      k_number pos e UNSET BadWidth.

  (** Compiler.java:112-142 *)
  Definition k_precision (pos : Z) : cost (Z * Z) :=
    if endOfSource source pos then free (Ok (UNSET, pos))
    else
      let$ c := k_at pos in
      if negb (c =? ch ".") then free (Ok (UNSET, pos))
      else
        let pos := pos + 1 in
        let$ _ := k_check pos in
        let$ c := k_at pos in
        if c =? ch "*" then free (Ok (PRECEDING, pos + 1))
        else
          let$ e := k_digits (fuel0 source) pos in
          k_number pos e 0 BadPrecision.

  (** Compiler.java:155-169 *)
  Fixpoint k_scan (fuel : nat) (pos : Z) (inQuote : bool) : cost (option Z) :=
    if zlen source <=? pos then free (Ok None)
    else
      match fuel with
      | O => free (Err OutOfFuel)
      | S f =>
          let$ c := k_at pos in
          if c =? ch "'" then
            if pos + 1 <? zlen source then
              let$ c2 := k_at (pos + 1) in
              if c2 =? ch "'" then k_scan f (pos + 1 + 1) inQuote
              else k_scan f (pos + 1) (negb inQuote)
            else k_scan f (pos + 1) (negb inQuote)
          else if (c =? ch "}") && negb inQuote then free (Ok (Some pos))
          else k_scan f (pos + 1) inQuote
      end.

  (** Compiler.java:144-189 *)
  Definition k_date (pos : Z) : cost (option (list Z) * Z) :=
    if endOfSource source pos then free (Ok (None, pos))
    else
      let$ c := k_at pos in
      if negb (c =? ch "{") then free (Ok (None, pos))
      else
        let patternStart := pos + 1 in
        let$ r := k_scan (fuel0 source) patternStart false in
        match r with
        | None => free (Err (Syntax UnclosedDate pos))
        | Some patternEnd =>
            let$ t := k_substring patternStart patternEnd in
            match t with
            | [] => free (Err (Syntax EmptyDate patternStart))
            | pattern =>
                if dtf_valid pattern then free (Ok (Some pattern, patternEnd + 1))
                else free (Err (Syntax InvalidDate patternStart))
            end
        end.

  (** Compiler.java:191-201 *)
  Definition k_spec (pos : Z) : cost (spec * Z) :=
    let$ _ := k_check pos in
    let$ c := k_at pos in
    match spec_of_char c with
    | None => free (Err (Syntax BadSpecifier pos))
    | Some s => free (Ok (s, pos + 1))
    end.

  (** Compiler.java:51-61 *)
  Definition k_directive (pos : Z) : cost (appender * Z) :=
    let$ (fl, pos) := k_flags (fuel0 source) pos noFlags in
    let$ (w, pos) := k_width pos in
    let$ (p, pos) := k_precision pos in
    let$ (s, pos) := k_spec pos in
    let$ (d, pos) := (if isDateTimeSpec s then k_date pos else free (Ok (None, pos))) in
    let$ c := free (ctx_create fl w p d) in
    free (Ok (Default s c, pos)).

  (** Compiler.java:31-40, 203-214 *)
  Fixpoint k_parseNext (fuel : nat) (pos : Z) (acc : list appender) : cost (list appender) :=
    match fuel with
    | O => free (Err OutOfFuel)
    | S f =>
        if endOfSource source pos then free (Ok acc)
        else
          let$ c := k_at pos in
          if c =? ch "%" then k_forPattern f (pos + 1) acc
          else
            let$ r := k_indexOf pos in
            match r with
            | None => let$ t := k_substring pos (zlen source) in free (Ok (acc ++ [Fixed t]))
            | Some nextPercent => let$ t := k_substring pos nextPercent in k_forPattern f (nextPercent + 1) (acc ++ [Fixed t])
            end
    end
  (** Compiler.java:42-63 *)
  with k_forPattern (fuel : nat) (pos : Z) (acc : list appender) : cost (list appender) :=
    match fuel with
    | O => free (Err OutOfFuel)
    | S f =>
        let$ _ := k_check pos in
        let$ c := k_at pos in
        if c =? ch "%" then k_parseNext f (pos + 1) (acc ++ [Fixed [ch "%"]])
        else
          let$ (a, pos') := k_directive pos in
          k_parseNext f pos' (acc ++ [a])
    end.

  (** Compiler.java:23-25 *)
  Definition k_compile : cost (list appender) := k_parseNext (S (List.length source)) 0 [].
End Compiler.
