(** Compiler.java, PrintfSyntaxException.java and FastPrintfImpl.compile with five changes. This is not the code of the
    repository: it is what the code becomes when the findings 16, 21, 22 and 39 of DESIGN.md are repaired.

    - Compiler.java:23-63, 203-214: a loop in compile() instead of methods that call each other at their end:
<<
  void compile() {
    while (!endOfSource()) {
      if (source.charAt(lookahead) == '%') { lookahead++; forPattern(); } else { forFixedString(); }
    }
  }
>>
      forPattern() without its calls of parseNext(); forFixedString() sets lookahead to the next '%' or to the end.
    - Compiler.java:72-76: the repeated character is quoted, not the name of its constant.
    - Compiler.java:195-198: source.codePointAt(lookahead) is quoted, not the half of a pair.
    - PrintfSyntaxException.java:80: [index <= pattern.length()].
    - FastPrintfImpl.java:75-76: the capacity is at most Integer.MAX_VALUE - 8, and no Math.addExact. *)
From Verif Require Import Base Digits UtilsM ContextM CompilerM MsgM MiscM DescM ImplM.

Section Compiler.
  Variable dtf_valid : list Z -> bool.
  Variable source : list Z.

  Fixpoint x_flags (fuel : nat) (pos : Z) (fl : flags) : dres (flags * Z) :=
    if endOfSource source pos then DOk (fl, pos)
    else
      match fuel with
      | O => lift (Err OutOfFuel)
      | S f =>
          let+ c := d_at source pos in
          match flag_of_char c with
          | None => DOk (fl, pos)
          | Some g =>
              if hasF g fl then syntax DuplicateFlag pos (txt "Duplicate flag '" ++ [c] ++ txt "'")
              else x_flags f (pos + 1) (addF g fl)
          end
      end.

  (** StringBuilder.appendCodePoint(source.codePointAt(pos)) where the character is [c] *)
  Definition codePoint (pos c : Z) : list Z :=
    if (55296 <=? c) && (c <=? 56319) then
      match znth source (pos + 1) with
      | Some l => if (56320 <=? l) && (l <=? 57343) then [c; l] else [c]
      | None => [c]
      end
    else [c].

  Definition x_spec (pos : Z) : dres (spec * Z) :=
    let+ _ := d_check source pos (txt "Format string lacks specifier") in
    let+ c := d_at source pos in
    match spec_of_char c with
    | None => syntax BadSpecifier pos (txt "Unknown format conversion specifier '" ++ codePoint pos c ++ txt "'")
    | Some s => DOk (s, pos + 1)
    end.

  Definition x_directive (pos : Z) : dres (appender * Z) :=
    let+ (fl, pos) := x_flags (fuel0 source) pos noFlags in
    let+ (w, pos) := d_width source pos in
    let+ (p, pos) := d_precision source pos in
    let+ (s, pos) := x_spec pos in
    let+ (d, pos) := (if isDateTimeSpec s then d_date dtf_valid source pos else DOk (None, pos)) in
    let+ c := d_create fl w p d in
    DOk (Default s c, pos).

  (** the two methods called by the loop: what they add and the new [lookahead] *)
  Definition x_forPattern (pos : Z) : dres (appender * Z) :=
    let+ _ := d_check source pos (txt "Format string terminates in the middle of a format specifier") in
    let+ c := d_at source pos in
    if c =? ch "%" then DOk (Fixed [ch "%"], pos + 1) else x_directive pos.
  Definition x_forFixedString (pos : Z) : appender * Z :=
    let e := match indexOfPercent source pos with None => zlen source | Some nextPercent => nextPercent end in
    (Fixed (slice source pos e), e).

  (** the loop of compile(); [free]: the frames still free, as in DepthM.v. A method called by the loop has returned
      before the next one is called. *)
  Fixpoint x_loop (fuel free : nat) (pos : Z) (acc : list appender) : dres (list appender) :=
    match fuel with
    | O => lift (Err OutOfFuel)
    | S f =>
        if endOfSource source pos then DOk acc
        else
          let+ c := d_at source pos in
          match free with
          | O => lift (Err OutOfFuel)
          | S _ =>
              let+ (a, pos') := (if c =? ch "%" then x_forPattern (pos + 1) else DOk (x_forFixedString pos)) in
              x_loop f free pos' (acc ++ [a])
          end
    end.

  Definition x_compile (free : nat) : dres (list appender) := x_loop (S (List.length source)) free 0 [].
End Compiler.

(** PrintfSyntaxException.java:71-86 *)
Definition x_message (nl desc pattern : list Z) (index : Z) : list Z :=
  let sb := desc in
  let sb := if 0 <=? index then sb ++ txt " near index " ++ dec_text index else sb in
  let sb := sb ++ nl ++ pattern in
  if (0 <=? index) && (index <=? zlen pattern)
  then sb ++ nl ++ rep (ch " ") index ++ txt "^" else sb.
Definition x_getMessage (nl source : list Z) (t : thrown) : list Z :=
  match t_exn t with
  | Syntax _ i => x_message nl (t_desc t) source i
  | _ => t_desc t
  end.

(** FastPrintfImpl.java:68-77; the sum is computed as a long *)
Definition x_impl_compile (dtf_valid : list Z -> bool) (free : nat) (f : list Z) : dres impl :=
  let+ apps := x_compile dtf_valid f free in
  let n := Z.max (zlen f) 11 in
  DOk (mkImpl apps (Z.min (n + n / 2) (int_max - 8)) false).
