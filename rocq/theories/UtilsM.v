(** Model of util/Utils.java and util/Preconditions.java. *)
From Verif Require Import Base Digits.

(** Utils.java:56-60 *)
Definition isLowerCase (c : Z) : bool := (97 <=? c) && (c <=? 122).

(** Utils.java:70-72 *)
Definition isUpperCase (c : Z) : bool := (65 <=? c) && (c <=? 90).

(** Utils.java:74-79; CASE_MASK = 0x20, line 10 *)
Definition toUpperCase (c : Z) : Z := if isLowerCase c then Z.lxor c 32 else c.

(** Utils.java:18-29 (in-place loop over a char[]; the returned flag is not used by callers) *)
Definition toUpperCaseArr (cs : list Z) : list Z :=
  map (fun c => if isLowerCase c then Z.lxor c 32 else c) cs.

(** Utils.java:31-46: find the first lower-case letter, then convert from there on. *)
Fixpoint toUpperCaseStr (cs : list Z) : list Z :=
  match cs with
  | [] => []
  | c :: r => if isLowerCase c then toUpperCaseArr (c :: r) else c :: toUpperCaseStr r
  end.

(** Utils.java:81-87 *)
Definition isDigit (c : Z) : bool := (48 <=? c) && (c <=? 57).
Definition isNotDigit (c : Z) : bool := negb (isDigit c).

(** Preconditions.java:45-49 *)
Definition checkPositionIndex (index size : Z) : res unit :=
  if (index <? 0) || (size <=? index) then Err IndexOOB else Ok tt.

(** Preconditions.java:51-56 *)
Definition checkPositionIndexes (start end_ size : Z) : res unit :=
  if (start <? 0) || (end_ <? start) || (size <? end_) then Err IndexOOB else Ok tt.

(** Preconditions.java:16-20 (the message: SeqErrM.v) *)
Definition checkArgument (b : bool) : res unit := if b then Ok tt else Err IllegalArg.

(** Utils.java:236-241: the loop of stringSize(long); [fuel] counts the remaining iterations [19 - i]. *)
Fixpoint stringSizeL_loop (fuel : nat) (i p x d : Z) : Z :=
  match fuel with
  | O => 19 + d
  | S f => if p <? x then i + d else stringSizeL_loop f (i + 1) (wrap64 (10 * p)) x d
  end.

(** Utils.java:230-242 stringSize(long): for i = 1..18 *)
Definition stringSizeL (x : Z) : Z :=
  if 0 <=? x then stringSizeL_loop 18 1 (-10) (wrap64 (- x)) 0
  else stringSizeL_loop 18 1 (-10) x 1.

(** Utils.java:259-264: loop of stringSize(int) *)
Fixpoint stringSizeI_loop (fuel : nat) (i p x d : Z) : Z :=
  match fuel with
  | O => 10 + d
  | S f => if p <? x then i + d else stringSizeI_loop f (i + 1) (wrap32 (10 * p)) x d
  end.

(** Utils.java:253-265 stringSize(int): for i = 1..9 *)
Definition stringSizeI (x : Z) : Z :=
  if 0 <=? x then stringSizeI_loop 9 1 (-10) (wrap32 (- x)) 0
  else stringSizeI_loop 9 1 (-10) x 1.

(** java.time.Instant as (epoch seconds, nanos); Instant.ofEpochMilli uses floorDiv/floorMod. *)
Definition instant := (Z * Z)%type.
Definition ofEpochSecond (s : Z) : instant := (s, 0).
Definition ofEpochMilli (m : Z) : instant := (m / 1000, (m mod 1000) * 1000000).

(** Utils.java:126-131; MAX_UNSIGNED_INT line 12 *)
Definition longToInstant (v : Z) : res instant :=
  if 0 <=? v then Ok (if v <=? 4294967295 then ofEpochSecond v else ofEpochMilli v)
  else Err IllegalArg.

(** java.lang.String.indexOf("%s", from) on the suffix [s]: offset of the first "%s". *)
Fixpoint indexOfPct (s : list Z) : option nat :=
  match s with
  | [] => None
  | a :: r =>
      match r with
      | b :: _ => if (a =? 37) && (b =? 115) then Some O
                  else option_map S (indexOfPct r)
      | [] => None
      end
  end.

(** Utils.java:196-204: substitution loop. Returns the builder, the rest of the template and the
    arguments left. The template position [templateStart] is represented by the suffix from it. *)
Fixpoint lenient_loop (args : list (list Z)) (tmpl : list Z) (out : list Z)
  : list Z * list Z * list (list Z) :=
  match args with
  | [] => (out, tmpl, [])
  | a :: rest =>
      match indexOfPct tmpl with
      | None => (out, tmpl, args)
      | Some k => lenient_loop rest (skipn (k + 2) tmpl) (out ++ firstn k tmpl ++ a)
      end
  end.

(** Utils.java:211-214 *)
Fixpoint lenient_extra (args : list (list Z)) (out : list Z) : list Z :=
  match args with
  | [] => out
  | a :: rest => lenient_extra rest (out ++ txt ", " ++ a)
  end.

(** Utils.java:180-219 for non-null template and args. The arguments are given by their texts
    (lenientToString, 133-145, is applied to each of them first, lines 187-189). *)
Definition lenientFormat (tmpl : list Z) (args : list (list Z)) : list Z :=
  match lenient_loop args tmpl [] with
  | (out, rest, remaining) =>
      let out := out ++ rest in
      match remaining with
      | [] => out
      | a :: more => lenient_extra more (out ++ txt " [" ++ a) ++ txt "]"
      end
  end.

(** Utils.java:107-109 *)
Fixpoint joinArray_loop (sep : list Z) (args : list (list Z)) (out : list Z) : list Z :=
  match args with
  | [] => out
  | a :: rest => joinArray_loop sep rest (out ++ sep ++ a)
  end.

(** Utils.java:103-111 joinArray (elements given by their lenientToString texts) *)
Definition joinArray (out sep : list Z) (args : list (list Z)) : list Z :=
  match args with
  | [] => out
  | a :: rest => joinArray_loop sep rest (out ++ a)
  end.
