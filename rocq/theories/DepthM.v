(** Compiler.java again, with a bound on the frames of its recursive methods.
    parseNext calls forPattern and forFixedString, and these call parseNext and forPattern as their last action; the JVM
    does not reuse the frame of a caller, so all of them stay on the stack until the end of the source is reached. The
    first argument is the number of frames still free; a call without one is a StackOverflowError, written [OutOfFuel]
    here. The frames of flags(), width() and so on, a bounded number at a time, are not counted. *)
From Verif Require Import Base Digits UtilsM ContextM CompilerM.

Section Depth.
  Variable dtf_valid : list Z -> bool.
  Variable source : list Z.

  (** Compiler.java:31-40 *)
  Fixpoint parseNextD (free : nat) (pos : Z) (acc : list appender) : res (list appender) :=
    match free with
    | O => Err OutOfFuel
    | S f =>
        if endOfSource source pos then Ok acc
        else
          let* c := sourceAt source pos in
          if c =? ch "%" then forPatternD f (pos + 1) acc else forFixedStringD f pos acc
    end
  (** Compiler.java:42-63 *)
  with forPatternD (free : nat) (pos : Z) (acc : list appender) : res (list appender) :=
    match free with
    | O => Err OutOfFuel
    | S f =>
        let* _ := checkSource source pos in
        let* c := sourceAt source pos in
        if c =? ch "%" then parseNextD f (pos + 1) (acc ++ [Fixed [ch "%"]])
        else
          let* (a, pos') := p_directive dtf_valid source pos in
          parseNextD f pos' (acc ++ [a])
    end
  (** Compiler.java:203-214 *)
  with forFixedStringD (free : nat) (pos : Z) (acc : list appender) : res (list appender) :=
    match free with
    | O => Err OutOfFuel
    | S f =>
        match indexOfPercent source pos with
        | None => Ok (acc ++ [Fixed (slice source pos (zlen source))])
        | Some nextPercent => forPatternD f (nextPercent + 1) (acc ++ [Fixed (slice source pos nextPercent)])
        end
    end.

  (** Compiler.java:23-25 *)
  Definition compileD (free : nat) : res (list appender) := parseNextD free 0 [].
End Depth.
