(** Properties C01, C02, C37: compilation of format strings. *)
From Verif Require Import Base Digits UtilsM ContextM CompilerM GrammarSpec CompilerP CompilerP2 PatternP.

(** C01: compile succeeds exactly on the texts of the grammar [format] (GrammarSpec.v), and returns the
    pieces the grammar assigns. *)
Theorem C01_compile_accepts_exactly_the_grammar :
  forall (dtf_valid : list Z -> bool) (s : list Z) (ds : list appender),
    compile dtf_valid s = Ok ds <-> format dtf_valid s ds.
Proof. exact compile_iff. Qed.
Print Assumptions C01_compile_accepts_exactly_the_grammar.

(** C01: the grammar is unambiguous. *)
Theorem C01_grammar_unambiguous :
  forall (dtf_valid : list Z -> bool) (s : list Z) (a b : list appender),
    format dtf_valid s a -> format dtf_valid s b -> a = b.
Proof. exact format_unique. Qed.
Print Assumptions C01_grammar_unambiguous.

Example C01_example :
  compile (fun _ => true) (txt "a%-08.3x%%%*.*f %T{HH'}'}") =
  Ok [Fixed (txt "a"); Default Sx (mkCtx (mkFlags true false false false true) 8 3 None);
      Fixed (txt "%"); Default Sf (mkCtx noFlags PRECEDING PRECEDING None); Fixed (txt " ");
      Default ST (mkCtx noFlags UNSET UNSET (Some (txt "HH'}'")))].
Proof. reflexivity. Qed.

(** Malformed texts are rejected. *)
Example C01_example_rejected :
  map (fun s => match compile (fun _ => true) (txt s) with Ok _ => None | Err e => Some e end)
      ["%"; "%--d"; "%5"; "%y"; "%.99999999999d"; "%t{'}"; "abc%-"; "%65537d"; "%.65537d"; "%t{}"]%string
  = [Some (Syntax UnexpectedEnd 1); Some (Syntax DuplicateFlag 2); Some (Syntax UnexpectedEnd 2);
     Some (Syntax BadSpecifier 1); Some (Syntax BadPrecision 2); Some (Syntax UnclosedDate 2);
     Some (Syntax UnexpectedEnd 5); Some (Printf WidthRange); Some (Printf PrecisionRange);
     Some (Syntax EmptyDate 3)].
Proof. reflexivity. Qed.

(** C02: compile always ends, with a formatter, a syntax exception whose index lies in the source, or
    the PrintfException of the width/precision range check; never with a stray runtime exception
    (IndexOOB) nor by running out of fuel. *)
Theorem C02_compile_total :
  forall (dtf_valid : list Z -> bool) (s : list Z),
  (exists ds, compile dtf_valid s = Ok ds) \/
  (exists k i, compile dtf_valid s = Err (Syntax k i) /\ 0 <= i <= zlen s) \/
  compile dtf_valid s = Err (Printf WidthRange) \/ compile dtf_valid s = Err (Printf PrecisionRange).
Proof. exact compile_total. Qed.
Print Assumptions C02_compile_total.

(** The reported index can be equal to the length of the source but is then "unexpected end". *)
Example C02_example : compile (fun _ => true) (txt "ab%5") = Err (Syntax UnexpectedEnd 4).
Proof. reflexivity. Qed.

(** C37: the pattern string of a compiled directive compiles to that directive; only an explicit date
    pattern is dropped. *)
Theorem C37_pattern_string_round_trip :
  forall (dtf_valid dtf_valid' : list Z -> bool) (s : list Z) ds sp c,
    compile dtf_valid s = Ok ds -> In (Default sp c) ds ->
    compile dtf_valid' (toPatternString c sp) =
      Ok [Default sp (mkCtx (c_flags c) (c_width c) (c_prec c) None)].
Proof. exact pattern_round_trip. Qed.
Print Assumptions C37_pattern_string_round_trip.

Theorem C37_pattern_string_round_trip_exact :
  forall (dtf_valid dtf_valid' : list Z -> bool) (s : list Z) ds sp c,
    compile dtf_valid s = Ok ds -> In (Default sp c) ds -> c_dtf c = None ->
    compile dtf_valid' (toPatternString c sp) = Ok [Default sp c].
Proof. exact pattern_round_trip_exact. Qed.
Print Assumptions C37_pattern_string_round_trip_exact.

(** the text itself: the flags in the order of their constants, whatever order they were written in, then width, precision
    and the conversion character. *)
Theorem C37_pattern_text :
  forall c sp, exists F W P,
    toPatternString c sp = pct :: F ++ W ++ P ++ [letter sp] /\
    flags_text F (c_flags c) /\ (exists keep, F = filter keep (txt "-#+ 0")) /\
    ((c_width c = UNSET /\ W = []) \/ (c_width c = PRECEDING /\ W = txt "*") \/
     (c_width c <> UNSET /\ c_width c <> PRECEDING /\ W = dec_text (c_width c))) /\
    ((c_prec c = UNSET /\ P = []) \/ (c_prec c = PRECEDING /\ P = txt ".*") \/
     (c_prec c <> UNSET /\ c_prec c <> PRECEDING /\ P = txt "." ++ dec_text (c_prec c))).
Proof. exact pattern_text. Qed.
Print Assumptions C37_pattern_text.

Example C37_example : exists c, compile (fun _ => true) (txt "%0-12.*i") = Ok [Default Sd c]
  /\ toPatternString c Sd = txt "%-012.*d".
Proof. eexists. split; reflexivity. Qed.
