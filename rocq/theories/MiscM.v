(** Model of small text helpers: FixedStringAppender.toString, PrintfSyntaxException.getMessage,
    CharArray.equals and hashCode. *)
From Verif Require Import Base Digits UtilsM SeqM.

(** appender/FixedStringAppender.java:34-59 *)
Definition escapeChar (c : Z) : list Z :=
  if c =? 10 then [92; ch "n"]
  else if c =? 13 then [92; ch "r"]
  else if c =? 9 then [92; ch "t"]
  else if c =? 8 then [92; ch "b"]
  else if c =? 12 then [92; ch "f"]
  else if c =? 92 then [92; 92]
  else if c =? 34 then [92; 34]
  else [c].

(** appender/FixedStringAppender.java:28-63 *)
Fixpoint escapeLoop (s : list Z) (sb : list Z) : list Z :=
  match s with
  | [] => sb
  | c :: r => escapeLoop r (sb ++ escapeChar c)
  end.
Definition fixed_toString (s : list Z) : list Z := escapeLoop s [34] ++ [34].

(** PrintfSyntaxException.java:71-86; [nl] is System.lineSeparator() *)
Definition syntaxMessage (nl desc pattern : list Z) (index : Z) : list Z :=
  let sb := desc in
  let sb := if 0 <=? index then sb ++ txt " near index " ++ dec_text index else sb in
  let sb := sb ++ nl ++ pattern in
  if (0 <=? index) && (index <? zlen pattern)
  then sb ++ nl ++ rep (ch " ") index ++ txt "^" else sb.

(** seq/CharArray.java:57-75: the loop, 31 * hash + c in int arithmetic. [start..start+length) of [ch]. *)
Definition ca_step (up : bool) (h c : Z) : Z := wrap32 (wrap32 (31 * h) + upIf up c).
Fixpoint ca_loop (fuel : nat) (a : list Z) (up : bool) (i e h : Z) : res Z :=
  match fuel with
  | O => Ok h
  | S f => if i <? e then let* c := jcharAt a i in ca_loop f a up (i + 1) e (ca_step up h c) else Ok h
  end.

(** seq/CharArray.java:57-75; [cached] is the field [hash], 0 when not computed yet *)
Definition ca_hashCode (a : list Z) (start n : Z) (up : bool) (cached : Z) : res Z :=
  if cached =? 0 then ca_loop (Z.to_nat n) a up start (start + n) 0 else Ok cached.

(** seq/CharArray.java:125-143, after the identity test, for two CharArrays *)
Fixpoint ca_eqLoop (fuel : nat) (x y : atom) (i n : Z) : res bool :=
  match fuel with
  | O => Ok true
  | S f => if i <? n then
             let* c := a_charAt x i in
             let* d := a_charAt y i in
             if c =? d then ca_eqLoop f x y (i + 1) n else Ok false
           else Ok true
  end.
Definition ca_equals (x y : atom) : res bool :=
  if negb (a_len x =? a_len y) then Ok false else ca_eqLoop (Z.to_nat (a_len x)) x y 0 (a_len x).
